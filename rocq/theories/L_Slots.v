(** The extractors refine the operand-slot table. *)
From Coq Require Import NArith ZArith List Bool Lia ZifyBool ZifyN.
From Verif Require Import M_Base M_Field M_Forms M_Meta M_OperandInfo M_Extract M_Decoded.
From Verif Require Import S_Bits S_Operands S_Slots L_Bits L_OperandInfo.
Import ListNotations.
Local Open Scope N_scope.

Definition fokb (f : field) : bool :=
  (0 <? f_len f) && (f_len f <? 32) && (f_rpos f + f_len f <=? 64).
Lemma fokb_fok f : fokb f = true -> fok f /\ f_rpos f + f_len f <= 64.
Proof. unfold fokb, fok. lia. Qed.
Lemma slice_zero lo len w : slice lo len w = 0 <-> forall i, lo <= i < lo + len -> N.testbit w i = false.
Proof.
  split.
  - intros H i Hi. apply (f_equal (fun x => N.testbit x (i - lo))) in H.
    rewrite slice_testbit, N.bits_0 in H. replace (i - lo <? len) with true in H by lia.
    cbn in H. now replace (lo + (i - lo)) with i in H by lia.
  - intros H. apply N.bits_inj. intros i. rewrite slice_testbit, N.bits_0.
    destruct (i <? len) eqn:E; cbn; auto. apply H. lia.
Qed.
Lemma masked_slice f r l ffm :
  f_rpos f = r -> f_len f = l -> fokb f = true ->
  masked f ffm = negb (slice r l ffm =? 0).
Proof.
  intros <- <- H. apply fokb_fok in H as [H B]. unfold masked. f_equal. apply eq_true_iff_eq.
  rewrite !N.eqb_eq, land_zero_testbit, slice_zero. split.
  - intros Z i Hi. specialize (Z i). rewrite f_smask_testbit in Z by auto.
    destruct (N.testbit ffm i); auto. lia.
  - intros Z i. rewrite f_smask_testbit by auto.
    destruct (N.testbit ffm i) eqn:E; [|apply andb_false_r]. rewrite andb_true_r.
    destruct ((i <? 64) && (f_rpos f <=? i) && (i <? f_rpos f + f_len f)) eqn:X; auto.
    rewrite Z in E; [discriminate|lia].
Qed.
Lemma extract_slice f r l ic :
  f_rpos f = r -> f_len f = l -> fokb f = true -> f_extract f ic = slice r l ic.
Proof. intros <- <- H. apply fokb_fok in H as [H _]. now apply f_extract_slice. Qed.
Lemma slice_lt lo len w : slice lo len w < 2 ^ len.
Proof. apply N.mod_lt, N.pow_nonzero. discriminate. Qed.
Lemma slice5 lo w : slice lo 5 w < 32. Proof. apply (slice_lt lo 5). Qed.
Lemma slice3 lo w : slice lo 3 w < 8. Proof. apply (slice_lt lo 3). Qed.
Lemma bit_slice5 lo w : shl64 1 (slice lo 5 w) = 2 ^ slice lo 5 w.
Proof. apply bit1_pow. pose proof (slice5 lo w). lia. Qed.
Lemma bit_slice3 lo w : shl64 1 (slice lo 3 w + 8) = 2 ^ (slice lo 3 w + 8).
Proof. apply bit1_pow. pose proof (slice3 lo w). lia. Qed.
Lemma is_ot_testbit m f k : is_ot m f k = N.testbit (mt_fset m k) (fid_idx f).
Proof.
  unfold is_ot. rewrite N.shiftl_1_l.
  assert (H : fid_idx f < 64) by (destruct f; reflexivity).
  rewrite <- (bit1_pow _ H), land_bit1_zero by auto. apply negb_involutive.
Qed.

(** The mask with the RS1/RD bits of CI re-enabled does not fix the register at bit 7. *)
Lemma ci_sp_unfixed ffm : slice 7 5 (ci_sp_ffmask ffm) = 0.
Proof.
  apply slice_zero. intros i Hi. unfold ci_sp_ffmask. rewrite !andnot64_testbit'.
  replace (i <? 64) with true by lia.
  assert (N.testbit (N.lor (f_smask CI_RS1) (f_smask CI_RD)) i = true) as ->.
  { rewrite N.lor_spec, f_smask_testbit by (split; vm_compute; auto).
    cbn [CI_RS1 f_rpos f_len]. replace (i <? 64) with true by lia.
    replace (7 <=? i) with true by lia. replace (i <? 7 + 5) with true by lia. reflexivity. }
  now rewrite andb_false_r.
Qed.

Lemma clear_x0_2 a b : a < 64 -> a <> 0 -> b < 64 -> clear_x0 (N.lor (2 ^ a) (2 ^ b)) = N.lor (2 ^ a) (clear_x0 (2 ^ b)).
Proof.
  intros A A0 B. apply N.bits_inj. intros i. unfold clear_x0.
  rewrite andnot64_testbit', !N.lor_spec, andnot64_testbit', !N.pow2_bits_eqb.
  change (N.testbit 1 i) with (N.testbit (2^0) i). rewrite N.pow2_bits_eqb.
  destruct (a =? i) eqn:E1, (b =? i) eqn:E2, (i <? 64) eqn:E3, (0 =? i) eqn:E4; cbn; auto; lia.
Qed.

Ltac xunf := lazy [ext tie xcls_body
  c_AMO c_B c_C0 c_C2 c_C2_sp_store c_CA c_CB c_CI c_CI_rD_only c_CIW c_CIX c_CJ c_CJR c_CSR c_CSRI c_FENCE c_I c_ISH c_ISHW c_J c_R c_Rfloat c_R4 c_S c_U c_V c_VF_mem c_V_vsetvli c_V_vsetivli c_V_vsetvl c_V_uimm6 c_I_mv c_I_load c_I_load_pair c_C0_load c_C0_load_byte c_C0_load_half c_C0_load_word c_C0_load_double c_C0_load_word_pair c_S_pair c_C0_store c_C0_store_byte c_C0_store_half c_C0_store_word c_C0_store_double c_C0_store_word_pair c_C1_rsd c_C1_rsd_I0 c_C1_rsd_zext_I0 c_C1_rsd_Ineg1 c_C1_rsd_I0xFF c_CI_addi c_CI_addiw c_CI_sp c_CIW_sp c_CIX_andi c_CJAL c_CJALR c_C2_add c_C2_mv c_C2_slli c_C2_sp c_C2_sp_load c_C2_sp_load_word c_C2_sp_load_double c_C2_sp_load_word_pair c_C2_sp_load_float_single c_C2_sp_load_float_double c_C2_sp_store_word c_C2_sp_store_double c_C2_sp_store_word_pair c_CI_rD_shifted c_V_load c_V_store c_V_uimm c_V_simm c_V_op c_HV_load c_HV_store c_V_implied c_V_op_implied c_V_uimm_implied c_NTL_hint c_PF_hint
  x_illop x_hint x_src x_addr x_data x_dst x_srcT x_dstT x_srcI x_dstI x_immT x_imm x_soff x_spec x_dasm
  o_illop o_hint o_src o_addr o_data o_dst o_srcT o_dstT o_srcI o_dstI o_immT o_imm o_soff o_spec o_dasm
  x_base m_src m_dst m_csrc m_cdst implied_rd or_bits typed typed_x0 infos cinfos app_u app_c add_plain
  ubit ucbit creg fold_left fold_right map fst snd rbind add_elem oi_empty oi_elems oi_fids oi_n oi_implied oi_ntypes
  e_fid e_type e_val e_sdata e_implied fid_eqb fid_idx negb orb andb bump bit1 app
  src_slots dst_slots slot_mask slot_elems slot_typed slot_elem slot_otype slot_is live filter
  sl_fid sl_loc sl_sdata sl_implied sl_ty loc_val loc_fixed
  s_reg s_always s_sdata s_implied s_creg s_csdata s_const s_long
  mask_of add_elems].

Ltac fslice := repeat match goal with
  | |- context [masked ?F ?M] =>
      let r := eval vm_compute in (f_rpos F) in let l := eval vm_compute in (f_len F) in
      rewrite (masked_slice F r l M eq_refl eq_refl eq_refl)
  | |- context [f_extract ?F ?M] =>
      let r := eval vm_compute in (f_rpos F) in let l := eval vm_compute in (f_len F) in
      rewrite (extract_slice F r l M eq_refl eq_refl eq_refl)
  end; rewrite ?ci_sp_unfixed, ?bit_slice5, ?bit_slice3.
Ltac dcase := repeat match goal with
  | |- context [slice ?a ?b ?c =? 0] => destruct (slice a b c =? 0); cbn [negb]
  end.

(** ** Source and destination masks *)
Definition pair_load (c : xcls) : bool :=
  match c with X_I_load_pair | X_C0_load_word_pair | X_C2_sp_load_word_pair => true | _ => false end.
Definition pair_store (c : xcls) : bool :=
  match c with X_S_pair | X_C0_store_word_pair | X_C2_sp_store_word_pair => true | _ => false end.

Ltac consts := repeat match goal with
  | |- context [shl64 1 ?r] => first
      [ change (shl64 1 r) with (2 ^ 0) | change (shl64 1 r) with (2 ^ 1)
      | change (shl64 1 r) with (2 ^ 2) ]
  end.
Ltac tb := repeat match goal with |- context [N.testbit ?a ?b] => destruct (N.testbit a b) end; reflexivity.
Ltac lors := consts; first [reflexivity | f_equal; apply N.bits_inj; intros ?i; rewrite ?N.lor_spec, ?N.bits_0; tb].


Lemma slice_andnot lo len ic ffm :
  lo + len <= 64 -> slice lo len ffm = 0 -> slice lo len (andnot64 ic ffm) = slice lo len ic.
Proof.
  intros B Z. rewrite slice_zero in Z. apply N.bits_inj. intros i.
  rewrite !slice_testbit, andnot64_testbit'. destruct (i <? len) eqn:E; cbn; auto.
  rewrite Z by lia. replace (lo + i <? 64) with true by lia. now rewrite andb_true_r.
Qed.

Lemma src_conforms c ffm ic :
  pair_store c = false -> c <> X_C2_sp ->
  x_src (ext c ffm) ic = Ok (slot_mask (src_slots c) ffm ic).
Proof.
  intros P Q. destruct c; try discriminate P; try congruence; clear P Q; xunf; fslice;
    change (0 =? 0) with true; cbn [negb]; dcase; xunf; lors.
Qed.

Lemma dst_conforms c ffm ic :
  pair_load c = false -> (c = X_U -> slice 7 5 ffm = 0) ->
  x_dst (ext c ffm) ic = Ok (slot_mask (dst_slots c) ffm ic).
Proof.
  intros P Q. destruct c; try discriminate P; try specialize (Q eq_refl); clear P; xunf; fslice;
    change (0 =? 0) with true; cbn [negb];
    try (rewrite slice_andnot by (easy || auto); rewrite Q; change (0 =? 0) with true; cbn [negb]);
    dcase; xunf; lors.
Qed.

Lemma srcI_conforms c ffm ic m :
  pair_store c = false ->
  x_srcI (ext c ffm) ic m false = add_elems oi_empty (slot_elems m (src_slots c) ffm ic).
Proof.
  intros P. destruct c; try discriminate P; clear P; xunf; fslice;
    change (0 =? 0) with true; cbn [negb]; dcase; xunf; reflexivity.
Qed.
Lemma dstI_conforms c ffm ic m :
  pair_load c = false ->
  x_dstI (ext c ffm) ic m false = add_elems oi_empty (slot_elems m (dst_slots c) ffm ic).
Proof.
  intros P. destruct c; try discriminate P; clear P; xunf; fslice;
    change (0 =? 0) with true; cbn [negb]; dcase; xunf; reflexivity.
Qed.

(** ** Typed masks *)
Ltac dtyp := repeat match goal with
  | |- context [N.testbit (Npos ?p) ?i] =>
     let b := eval vm_compute in (N.testbit (Npos p) i) in change (N.testbit (Npos p) i) with b
  | |- context [N.testbit 0 ?i] => change (N.testbit 0 i) with false
  | |- context [N.testbit (mt_fset ?m ?k) ?i] => destruct (N.testbit (mt_fset m k) i)
  end.
Ltac otcase m k :=
  destruct (mt_fset m k =? 0) eqn:?N0;
  [ apply N.eqb_eq in N0; rewrite ?N0
  | destruct (mt_fset m k =? N.ones 32) eqn:?NA; [apply N.eqb_eq in NA; rewrite ?NA; change (N.ones 32 =? N.ones 32) with true; change (N.ones 32) with 4294967295|] ].
Ltac xtyped m k := xunf; lazy [is_none_ot is_all_ot]; rewrite ?is_ot_testbit; fslice; change (0 =? 0) with true;
    cbn [negb fid_idx]; otcase m k; xunf; dcase; xunf; dtyp; xunf.
Definition irr_srcT (c : xcls) : bool :=
  match c with
  | X_CI_rD_only | X_S_pair | X_C0_store_word_pair | X_C2_sp_store_word_pair | X_C2_add | X_C2_sp
  | X_C2_sp_load | X_C2_sp_load_word | X_C2_sp_load_double | X_C2_sp_load_word_pair
  | X_C2_sp_load_float_single | X_C2_sp_load_float_double => true
  | _ => false
  end.
Definition irr_dstT (c : xcls) : bool :=
  match c with
  | X_CJ | X_CJR | X_CJAL | X_CJALR | X_U
  | X_C0_store | X_C0_store_byte | X_C0_store_half | X_C0_store_word | X_C0_store_double | X_C0_store_word_pair
  | X_I_load_pair | X_C0_load_word_pair | X_C2_sp_load_word_pair => true
  | _ => false
  end.
Lemma srcT_conforms c ffm ic m k : irr_srcT c = false ->
  x_srcT (ext c ffm) ic m k = Ok (slot_typed m k (src_slots c) ffm ic).
Proof. intros P. destruct c; try discriminate P; clear P; xtyped m k; lors. Qed.
Lemma dstT_conforms c ffm ic m k : irr_dstT c = false ->
  x_dstT (ext c ffm) ic m k = Ok (slot_typed m k (dst_slots c) ffm ic).
Proof. intros P. destruct c; try discriminate P; clear P; xtyped m k; lors. Qed.
Lemma U_dstT_conforms ffm ic m k : slice 7 5 ffm = 0 ->
  x_dstT (ext X_U ffm) ic m k = Ok (slot_typed m k (dst_slots X_U) ffm ic).
Proof.
  intros Z. xunf; lazy [is_none_ot is_all_ot]; rewrite ?is_ot_testbit; fslice; rewrite slice_andnot by (easy || auto).
  rewrite Z; change (0 =? 0) with true. cbn [negb fid_idx]; otcase m k; xunf; dtyp; xunf; lors.
Qed.
