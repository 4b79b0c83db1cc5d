(** The immediates of the extractors are those of the manual (C21, C22). *)
From Coq Require Import NArith ZArith List Bool Lia ZifyBool ZifyN.
From Verif Require Import M_Base M_Field M_Forms M_Meta M_OperandInfo M_Extract.
From Verif Require Import S_Bits S_Imm L_Bits L_Count L_Slots.
Import ListNotations.
Local Open Scope N_scope.

Lemma andnot64_ldiff ic ffm : ic < 2 ^ 64 -> andnot64 ic ffm = N.ldiff ic ffm.
Proof.
  intros H. apply N.bits_inj. intros i. rewrite andnot64_testbit by auto. now rewrite N.ldiff_spec.
Qed.
Lemma seg_testbit hi lo a w i :
  N.testbit (slice a (hi - lo + 1) w * 2 ^ lo) i =
  (lo <=? i) && (i - lo <? hi - lo + 1) && N.testbit w (a + (i - lo)).
Proof. rewrite <- N.shiftl_mul_pow2, shl_testbit, slice_testbit. now rewrite andb_assoc. Qed.
Lemma extract_testbit f r l w i : f_rpos f = r -> f_len f = l -> fokb f = true ->
  N.testbit (f_extract f w) i = (i <? l) && N.testbit w (r + i).
Proof. intros <- <- H. apply fokb_fok in H as [H _]. now apply f_extract_testbit. Qed.

Ltac ximm := xunf; lazy [imm_table imm_of imm_value fold_right seg_value imm12 ci_imm
   imm_C0_byte imm_C0_half imm_C0_32 imm_C0_word imm_C0_double imm_C2_6 swz soff
   sequence rng rng1 rbind sw_extract sw_extract1 r_lo r_span r_mask
   N.leb N.ltb N.compare Pos.compare Pos.compare_cont N.sub N.add Pos.sub Pos.add Pos.succ Pos.sub_mask
   Pos.succ_double_mask Pos.double_mask Pos.double_pred_mask Pos.pred_double Pos.add_carry Pos.pred_mask andb].

(** Comparing two words bit by bit; [b] is the instruction as a bit function. *)
Lemma bits_below n x y :
  (forall i, In i (below n) -> N.testbit x i = N.testbit y i) ->
  (forall i, N.of_nat n <= i -> N.testbit x i = N.testbit y i) -> x = y.
Proof.
  intros A B. apply N.bits_inj. intros i. destruct (N.lt_ge_cases i (N.of_nat n)); auto.
  apply A, below_spec; auto.
Qed.
Ltac btest := rewrite <- ?N.shiftl_mul_pow2; repeat progress rewrite ?N.lor_spec, ?N.land_spec, ?shl64_testbit,
  ?N.shiftr_spec', ?shl_testbit, ?slice_testbit, ?N.bits_0, ?ones_testbit.
Ltac blow := match goal with |- context [N.testbit ?w _] => is_var w;
    let b := fresh "b" in set (b := N.testbit w); clearbody b; clear w;
    lazy; repeat match goal with |- context [b ?n] => destruct (b n) end; reflexivity
    | _ => vm_compute; reflexivity end.
Ltac allfalse := repeat match goal with
  | |- context [?a <? ?n] => replace (a <? n) with false by lia; cbn [andb]; rewrite ?andb_false_r
  end; rewrite ?orb_false_r, ?orb_false_l; cbn [andb orb]; try reflexivity.
Ltac bsolve := first [reflexivity | f_equal; apply (bits_below 33);
  [ intros i Hi; btest; lazy [below In N.of_nat Pos.of_succ_nat Pos.succ] in Hi;
    repeat (destruct Hi as [Hi|Hi]; [subst i; blow|]); contradiction Hi
  | intros i Hi; change (N.of_nat 33) with 33 in Hi; btest; allfalse ] ].

Lemma imm_lemma c ffm ic : ic < 2 ^ 64 -> x_imm (ext c ffm) ic = Ok (imm_of (imm_table c) ffm ic).
Proof.
  intros H. destruct c; ximm; rewrite ?andnot64_ldiff by exact H; fslice;
  clear H; first [reflexivity | set (w := N.ldiff ic ffm); clearbody w; bsolve].
Qed.

(** Signed offsets. *)
Lemma lor_lt a b n : a < 2 ^ n -> b < 2 ^ n -> N.lor a b < 2 ^ n.
Proof.
  intros A B. apply lt_pow2_bits. intros i Hi. rewrite N.lor_spec.
  now rewrite (high_testbit a n), (high_testbit b n).
Qed.
Lemma imm_value_lt l w n :
  forallb (fun s => let '(hi, lo, _) := s in (lo <=? hi) && (hi <? n)) l = true -> imm_value l w < 2 ^ n.
Proof.
  induction l as [|[[hi lo] a] l IH]; cbn [forallb imm_value fold_right]; intros H.
  - apply N.neq_0_lt_0, N.pow_nonzero. discriminate.
  - apply andb_true_iff in H as [H1 H2]. apply lor_lt; [|apply IH; auto].
    cbn [seg_value]. pose proof (slice_lt a (hi - lo + 1) w).
    apply N.lt_le_trans with (2 ^ (hi - lo + 1) * 2 ^ lo).
    + apply N.mul_lt_mono_pos_r; auto. apply N.neq_0_lt_0, N.pow_nonzero. discriminate.
    + rewrite <- N.pow_add_r. apply N.pow_le_mono_r; lia.
Qed.
Definition soff_kind (d : imm_desc) (v : N) : res Z :=
  match d with ImmSegs _ _ (SignBit p) => sign_extend v p | _ => Ok (to_i64 v) end.
Lemma soff_lemma c ffm ic : c <> X_PF_hint ->
  x_soff (ext c ffm) ic = let* i := x_imm (ext c ffm) ic in soff_kind (imm_table c) i.
Proof.
  intros P. destruct c; try congruence; clear P; xunf; lazy [soff rbind imm_table soff_kind]; reflexivity.
Qed.
Definition desc_ok (d : imm_desc) : bool :=
  match d with
  | NoImm => true
  | ConstImm v z => (v <? 2 ^ 64) && Z.eqb (to_i64 v) z
  | ImmSegs l _ s =>
      match s with
      | Unsigned => forallb (fun s => let '(hi, lo, _) := s in (lo <=? hi) && (hi <? 63)) l
      | SignBit p => (p <? 63) && forallb (fun s => let '(hi, lo, _) := s in (lo <=? hi) && (hi <? p + 1)) l
      end && segs_disjoint l
  end.
Lemma table_ok c : desc_ok (imm_table c) = true.
Proof. destruct c; vm_compute; reflexivity. Qed.
Lemma offset_lemma c ffm ic : c <> X_PF_hint -> ic < 2 ^ 64 ->
  exists z, x_soff (ext c ffm) ic = Ok z /\ offset_of (imm_table c) (imm_of (imm_table c) ffm ic) z.
Proof.
  intros P H. rewrite soff_lemma, imm_lemma by auto. cbn [rbind].
  pose proof (table_ok c) as T. destruct (imm_table c) as [|v z|l b s]; cbn [soff_kind imm_of offset_of desc_ok] in *.
  - eexists. split; [reflexivity|]. reflexivity.
  - eexists. split; [reflexivity|]. apply andb_true_iff in T as [_ T]. now apply Z.eqb_eq in T.
  - apply andb_true_iff in T as [T _]. set (w := if b then _ else _). clearbody w. destruct s as [|p].
    + eexists. split; [reflexivity|]. apply (imm_value_lt l w) in T.
      unfold to_i64. change (2 ^ 63) with 9223372036854775808 in T.
      now replace (imm_value l w <? 9223372036854775808) with true by lia.
    + apply andb_true_iff in T as [T1 T2]. apply (imm_value_lt l w) in T2.
      apply sign_extend_twos; auto. lia.
Qed.
Lemma PF_soff ffm ic : ic < 2 ^ 64 -> exists v, x_imm (ext X_PF_hint ffm) ic = Ok v /\ v < 128 /\ x_soff (ext X_PF_hint ffm) ic = Ok (Z.of_N v).
Proof.
  intros H. exists (imm_of (imm_table X_PF_hint) ffm ic). rewrite <- imm_lemma by auto. split; auto.
  assert (B : imm_of (imm_table X_PF_hint) ffm ic < 128).
  { cbn [imm_of imm_table]. apply (imm_value_lt _ _ 7). reflexivity. }
  split; auto.
  assert (x_soff (ext X_PF_hint ffm) ic = (let* i := x_imm (ext X_PF_hint ffm) ic in sign_extend i 7)) as ->
    by (xunf; lazy [soff rbind]; reflexivity).
  rewrite imm_lemma by auto. cbn [rbind]. rewrite sign_extend_ok; [|easy|change (2 ^ (7 + 1)) with 256; lia].
  change (2 ^ 7) with 128. now replace (imm_of (imm_table X_PF_hint) ffm ic <? 128) with true by lia.
Qed.
