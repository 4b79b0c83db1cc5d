(** Stores, register pairs, suppressed x0, jumps and special fields (C29, C35-C37, C39). *)
From Coq Require Import NArith ZArith List Bool Lia ZifyBool ZifyN String.
From Verif Require Import M_Base M_Field M_Forms M_Meta M_OperandInfo M_Extract M_Decoded.
From Verif Require Import S_Bits S_Operands S_Slots S_Imm S_Agree S_Pairs S_Regs.
From Verif Require Import L_Bits L_Count L_OperandInfo L_Slots L_Imm L_Pairs L_Agree L_Decoded L_Regs L_Typed.
Import ListNotations.
Local Open Scope N_scope.

(** ** Stores *)
Definition d_part (c : xcls) := filter sl_sdata (src_slots c).
Definition a_part (c : xcls) := filter (fun s => negb (sl_sdata s)) (src_slots c).
Lemma store_parts c ffm ic : is_store c = true -> is_pair_store c = false ->
  x_addr (ext c ffm) ic = Ok (slot_mask (a_part c) ffm ic) /\ x_data (ext c ffm) ic = Ok (slot_mask (d_part c) ffm ic).
Proof.
  intros I P. unfold a_part, d_part. destruct c; try discriminate I; try discriminate P; clear I P;
  split; xunf; fslice; dcase; xunf; lors.
Qed.
Lemma C36_plain c ffm m ic n u d : is_store c = true -> is_pair_store c = false ->
  decode_info n u (ext c ffm) m ic = Ok d ->
  store_split (oi_elems (d_src_oi d)) (d_sources d) (d_addr d) (d_data d).
Proof.
  intros ST P D. destruct (C26_src c ffm m ic n u d P D) as (E & M & _).
  assert (Q : c <> X_C2_sp) by (intros ->; discriminate ST). specialize (M Q).
  destruct (store_parts c ffm ic ST P) as [A B].
  apply decode_inv in D as (_ & _ & _ & _ & _ & _ & _ & _ & EA & ED & _).
  assert (EA' : d_addr d = slot_mask (a_part c) ffm ic) by congruence.
  assert (ED' : d_data d = slot_mask (d_part c) ffm ic) by congruence.
  clear A B EA ED. rewrite E, EA', ED'. unfold store_split, a_part, d_part.
  split; [|split; [|split]].
  - intros r. rewrite M. unfold in_mask. rewrite !slot_mask_bit. split.
    + intros (s & I & F & V). destruct (sl_sdata s) eqn:Y.
      * right. exists s. rewrite filter_In. auto.
      * left. exists s. rewrite filter_In, Y. auto.
    + intros [(s & I & F)|(s & I & F)]; apply filter_In in I as [I _]; eauto.
  - intros e I. apply in_map_iff in I as (s & <- & I). apply live_in in I as [I F]. cbn [slot_elem e_sdata e_val].
    unfold in_mask. destruct (sl_sdata s) eqn:Y; apply slot_mask_bit; exists s; rewrite filter_In, Y; auto.
  - intros r H. apply slot_mask_bit in H as (s & I & F & V). apply filter_In in I as [I Y].
    exists (slot_elem m ic s). cbn. split; auto. apply in_map, live_in. auto.
  - intros r H. apply slot_mask_bit in H as (s & I & F & V). apply filter_In in I as [I Y].
    exists (slot_elem m ic s). cbn. split; [apply in_map, live_in; auto|]. now apply negb_true_iff in Y.
Qed.
Lemma C36_pairs c ffm m ic n u d : is_pair_store c = true -> c <> X_S_pair -> pair_free c ffm = true -> pair_first c ic <> 0 ->
  decode_info n u (ext c ffm) m ic = Ok d ->
  store_split (oi_elems (d_src_oi d)) (d_sources d) (d_addr d) (d_data d).
Proof.
  intros P Q F NZ D. pose proof (pair_data_addr c ffm ic P F) as (E1 & E2 & E3).
  destruct (pair_srcI c ffm ic m P F) as (o & E4 & E5 & _).
  apply decode_inv in D as (_ & _ & SI & _ & SS & _ & _ & _ & EA & ED & _).
  rewrite SI in E4. assert (Eo : d_src_oi d = o) by congruence. clear E4 SI. rewrite Eo, E5.
  assert (Z : (pair_first c ic =? 0) = false) by lia.
  assert (EA' : d_addr d = 2 ^ pair_base c ic) by congruence.
  assert (ED' : d_data d = mask_of (pair_regs (pair_first c ic))) by congruence.
  assert (ES' : d_sources d = N.lor (N.lor (2 ^ pair_base c ic) (2 ^ pair_first c ic)) (mask_of (pair_regs (pair_first c ic)))) by congruence.
  rewrite EA', ED', ES'. clear EA ED SS EA' ED' ES' E1 E2 E3.
  assert (X : pair_srcs c m ic = [mkE (Some RS1) (mt_otype m RS1) (pair_base c ic) false false;
     mkE (Some RS2) (mt_otype m RS2) (pair_first c ic) true false; mkE (Some RS3) (mt_otype m RS2) (pair_first c ic + 1) true false]).
  { unfold pair_srcs, pair_data. rewrite Z. destruct c; try discriminate P; congruence || reflexivity. }
  rewrite X. unfold pair_regs. rewrite Z. unfold store_split, in_mask.
  split; [|split; [|split]].
  - intros r. rewrite !N.lor_spec, !orb_true_iff, mask_of_in, !N.pow2_bits_eqb, !N.eqb_eq. cbn [In]. tauto.
  - intros e [<-|[<-|[<-|[]]]]; cbn [e_sdata e_val]; rewrite ?mask_of_in, ?N.pow2_bits_true; cbn [In]; auto.
  - intros r. rewrite mask_of_in. cbn [In]. intros [<-|[<-|[]]].
    + exists (mkE (Some RS2) (mt_otype m RS2) (pair_first c ic) true false). cbn [In]. auto.
    + exists (mkE (Some RS3) (mt_otype m RS2) (pair_first c ic + 1) true false). cbn [In]. auto.
  - intros r. rewrite N.pow2_bits_eqb, N.eqb_eq. intros <-.
    exists (mkE (Some RS1) (mt_otype m RS1) (pair_base c ic) false false). cbn [In]. auto.
Qed.

(** ** Pairs *)
Lemma C37_lemma c ffm m ic n u d : is_pair c = true -> pair_free c ffm = true -> x_illop (ext c ffm) ic = Ok false ->
  decode_info n u (ext c ffm) m ic = Ok d ->
  N.even (pair_first c ic) = true /\ pair_first c ic <= 30 /\
  (is_pair_load c = true -> (forall r, in_mask r (d_dests d) <-> In r (pair_regs (pair_first c ic))) /\
     map e_val (oi_elems (d_dst_oi d)) = pair_regs (pair_first c ic)) /\
  (is_pair_store c = true -> (forall r, in_mask r (d_data d) <-> In r (pair_regs (pair_first c ic))) /\
     exists l, map e_val (oi_elems (d_src_oi d)) = (l ++ pair_regs (pair_first c ic))%list /\ (List.length l <= 1)%nat).
Proof.
  intros P F IL D. rewrite pair_illop in IL by exact P.
  assert (O : N.odd (pair_first c ic) = false) by congruence. clear IL.
  pose proof (pair_first_lt c ic).
  assert (pair_first c ic <> 31) by (intros E; rewrite E in O; discriminate O).
  split. { rewrite <- N.negb_odd, O. reflexivity. } split; [lia|].
  apply decode_inv in D as (_ & _ & SI & DI & _ & T & _ & _ & _ & ED & _). split.
  - intros L. rewrite pair_dst in T by auto. destruct (pair_dstI c ffm ic m L F) as (o & E4 & E5 & _).
    assert (d_dst_oi d = o) as -> by congruence. rewrite E5.
    assert (d_dests d = mask_of (pair_regs (pair_first c ic))) as -> by congruence. split.
    + intros r. apply mask_of_in.
    + unfold pair_dests, pair_regs. now destruct (_ =? 0).
  - intros L. pose proof (pair_data_addr c ffm ic L F) as (E1 & _). destruct (pair_srcI c ffm ic m L F) as (o & E4 & E5 & _).
    assert (d_src_oi d = o) as -> by congruence. rewrite E5.
    assert (d_data d = mask_of (pair_regs (pair_first c ic))) as -> by congruence. split.
    + intros r. apply mask_of_in.
    + unfold pair_srcs, pair_data, pair_regs. destruct c; try discriminate L; destruct (_ =? 0).
      all: try (exists []; split; [reflexivity|cbn; lia]).
      all: eexists [_]; split; [reflexivity|cbn; lia].
Qed.
Lemma C37_illegal c ffm ic : is_pair c = true -> x_illop (ext c ffm) ic = Ok (N.odd (pair_first c ic)).
Proof. apply pair_illop. Qed.

(** ** Suppressed x0 *)
Ltac sxu := xunf; lazy [without_x0 REGISTER_X0 REGISTER_SP REGISTER_LINK]; fslice.
Ltac edcase := repeat match goal with
  | H : (slice ?a ?b ?c =? 0) = _ |- context [slice ?a ?b ?c =? 0] => rewrite H
  | |- context [slice ?a ?b ?c =? 0] => destruct (slice a b c =? 0) eqn:?
  end.
Lemma creg_nz lo ic : (slice lo 3 ic + 8 =? 0) = false. Proof. lia. Qed.
Lemma srcI_suppressed c ffm ic m : is_pair_store c = false -> keeps_x0 c = false ->
  x_srcI (ext c ffm) ic m true = add_elems oi_empty (without_x0 (slot_elems m (src_slots c) ffm ic)).
Proof.
  intros P K. destruct c; try discriminate P; try discriminate K; clear P K; sxu;
    change (0 =? 0) with true; change (1 =? 0) with false; change (2 =? 0) with false; do 3 (xunf; edcase); rewrite ?creg_nz; xunf; try reflexivity.
Qed.
Lemma dstI_suppressed c ffm ic m : is_pair_load c = false ->
  x_dstI (ext c ffm) ic m true = add_elems oi_empty (without_x0 (slot_elems m (dst_slots c) ffm ic)).
Proof.
  intros P. destruct c; try discriminate P; clear P; sxu;
    change (0 =? 0) with true; change (1 =? 0) with false; change (2 =? 0) with false; do 3 (xunf; edcase); rewrite ?creg_nz; xunf; try reflexivity.
Qed.
Lemma pair_dstI_sup c ffm ic m : is_pair_load c = true -> pair_free c ffm = true ->
  x_dstI (ext c ffm) ic m true = x_dstI (ext c ffm) ic m false.
Proof.
  intros P F. destruct c; try discriminate P; clear P; cbn [pair_free] in F; xpair; rewrite F; cbn [negb]; edcase; xunf; reflexivity.
Qed.
Lemma pair_srcI_sup c ffm ic m : is_pair_store c = true -> pair_free c ffm = true -> pair_base c ic <> 0 ->
  x_srcI (ext c ffm) ic m true = x_srcI (ext c ffm) ic m false.
Proof.
  intros P F B. destruct c; try discriminate P; clear P; cbn [pair_free] in F; cbn [pair_base] in B; xpair;
    try (apply andb_true_iff in F as [F F']; rewrite F'); rewrite F; cbn [negb];
    try (replace (slice 15 5 ic =? 0) with false by lia); edcase; xunf; try reflexivity.
Qed.

(** ** Special fields *)
From Verif Require Import S_Special.
Lemma C35_lemma c ffm s ic : x_spec (ext c ffm) s ic =
  match special_table c s with
  | Some (lo, len, chk) => if chk && negb (slice lo len ffm =? 0) then Throw EUnsupportedSpecialField else Ok (slice lo len ic)
  | None => Throw (match s with SF__N => EInvalidSpecialField | _ => EUnsupportedSpecialField end)
  end.
Proof.
  destruct c, s; xunf; lazy [spec_of spec_base find fst special_table snd]; fslice; try reflexivity; xunf; dcase; reflexivity.
Qed.

(** ** Jumps *)
Lemma land_pow_zero v r : (N.land v (2 ^ r) =? 0) = negb (N.testbit v r).
Proof.
  destruct (N.testbit v r) eqn:E; cbn [negb].
  - apply N.eqb_neq. intros Z. assert (X : N.testbit (N.land v (2 ^ r)) r = true) by (rewrite N.land_spec, E, N.pow2_bits_true; reflexivity).
    rewrite Z, N.bits_0 in X. discriminate X.
  - apply N.eqb_eq, land_zero_testbit. intros i. rewrite N.pow2_bits_eqb. destruct (r =? i) eqn:Q; [|apply andb_false_r].
    apply N.eqb_eq in Q. subst. now rewrite E.
Qed.
Lemma land_link v : (N.land v link_regs =? 0) = negb (N.testbit v 1 || N.testbit v 5).
Proof.
  change link_regs with (N.lor (2 ^ 1) (2 ^ 5)). rewrite N.land_lor_distr_r, negb_orb, <- !land_pow_zero.
  destruct (N.land v (2 ^ 1) =? 0) eqn:A, (N.land v (2 ^ 5) =? 0) eqn:B; cbn [andb].
  - apply N.eqb_eq in A, B. rewrite A, B. reflexivity.
  - apply N.eqb_neq. apply N.eqb_neq in B. intros Z. apply N.lor_eq_0_iff in Z. tauto.
  - apply N.eqb_neq. apply N.eqb_neq in A. intros Z. apply N.lor_eq_0_iff in Z. tauto.
  - apply N.eqb_neq. apply N.eqb_neq in A. intros Z. apply N.lor_eq_0_iff in Z. tauto.
Qed.
Lemma has_src v : has_source_reg v = true <-> exists r, r <> 0 /\ in_mask r v.
Proof.
  unfold has_source_reg. change (bit1 REGISTER_X0) with (2 ^ 0). rewrite andb_true_iff, !negb_true_iff, !N.eqb_neq.
  unfold in_mask. split.
  - intros [A B]. destruct (N.eq_dec (N.log2 v) 0) as [E|E].
    + exfalso. pose proof (N.log2_spec v ltac:(lia)). rewrite E in *. change (2 ^ N.succ 0) with 2 in *. change (2 ^ 0) with 1 in *. lia.
    + exists (N.log2 v). split; auto. now apply N.bit_log2.
  - intros (r & NZ & H). split; intros ->; [now rewrite N.bits_0 in H|]. rewrite N.pow2_bits_eqb in H. apply N.eqb_eq in H. lia.
Qed.
Definition link_in (v : N) : Prop := in_mask 1 v \/ in_mask 5 v.
Lemma ext_call m s t : jumps m = true -> (N.land EXT_CALL (ext_itype_of m s t) =? EXT_CALL) = true <-> link_in t.
Proof.
  unfold jumps, ext_itype_of. intros ->. rewrite !land_link. unfold link_in, in_mask.
  rewrite <- orb_true_iff. destruct (N.testbit t 1 || N.testbit t 5), (N.testbit s 1 || N.testbit s 5);
  cbn [negb]; repeat match goal with |- context [if ?b then _ else _] => destruct b end; vm_compute; intuition congruence.
Qed.
Lemma ext_return m s t : jumps m = true -> (N.land EXT_RETURN (ext_itype_of m s t) =? EXT_RETURN) = true <->
  link_in s /\ ~ link_in (N.land s t).
Proof.
  unfold jumps, ext_itype_of. intros ->. rewrite !land_link. unfold link_in, in_mask.
  rewrite <- !orb_true_iff. 
  destruct (N.testbit t 1 || N.testbit t 5), (N.testbit s 1 || N.testbit s 5), (N.testbit (N.land s t) 1 || N.testbit (N.land s t) 5);
  cbn [negb]; repeat match goal with |- context [if ?b then _ else _] => destruct b end; vm_compute; intuition congruence.
Qed.
Lemma ext_indirect m s t : jumps m = true -> (N.land EXT_INDIRECT (ext_itype_of m s t) =? EXT_INDIRECT) = true <->
  ~ link_in s /\ exists r, r <> 0 /\ in_mask r s.
Proof.
  intros J. rewrite <- has_src. revert J. 
  unfold jumps, ext_itype_of. intros ->. rewrite !land_link. unfold link_in, in_mask.
  rewrite <- !orb_true_iff. 
  destruct (N.testbit t 1 || N.testbit t 5), (N.testbit s 1 || N.testbit s 5), (has_source_reg s);
  cbn [negb]; repeat match goal with |- context [if ?b then _ else _] => destruct b end; vm_compute; intuition congruence.
Qed.
Lemma ext_none m s t : jumps m = false -> ext_itype_of m s t = 0.
Proof. unfold jumps, ext_itype_of. now intros ->. Qed.
Lemma jump_masks c ffm ic rs rd : jump_regs c ic = Some (rs, rd) -> jump_free c ffm = true ->
  x_src (ext c ffm) ic = Ok (match rs with Some r => 2 ^ r | None => 0 end) /\ x_dst (ext c ffm) ic = Ok (2 ^ rd).
Proof.
  intros J F. destruct c; try discriminate J; cbn [jump_regs] in J; cbn [jump_free] in F;
    try (apply andb_true_iff in F as [F F']);
    assert (X : rs = rs) by reflexivity; inversion J; subst; xunf; fslice; rewrite ?F, ?F'; split; lors.
Qed.
Lemma in_pow r v : in_mask r (2 ^ v) <-> r = v.
Proof. unfold in_mask. rewrite N.pow2_bits_eqb, N.eqb_eq. split; congruence. Qed.
Lemma in_zero r : in_mask r 0 <-> False.
Proof. unfold in_mask. rewrite N.bits_0. split; [discriminate|tauto]. Qed.
Lemma in_land r a b : in_mask r (N.land a b) <-> in_mask r a /\ in_mask r b.
Proof. unfold in_mask. rewrite N.land_spec. apply andb_true_iff. Qed.
Lemma C29_lemma c ffm m ic n u d rs rd : jumps m = true -> jump_regs c ic = Some (rs, rd) -> jump_free c ffm = true ->
  decode_info n u (ext c ffm) m ic = Ok d ->
  (is_ext_type d EXT_CALL = true <-> is_link rd) /\
  (is_ext_type d EXT_RETURN = true <-> exists r, rs = Some r /\ is_link r /\ r <> rd) /\
  (is_ext_type d EXT_INDIRECT = true <-> exists r, rs = Some r /\ r <> 0 /\ ~ is_link r).
Proof.
  intros JM JR JF D. destruct (jump_masks c ffm ic rs rd JR JF) as [A B].
  apply decode_inv in D as (_ & _ & _ & _ & S & T & _ & _ & _ & _ & _ & _ & _ & _ & _ & E).
  unfold is_ext_type. rewrite E.
  assert (d_sources d = match rs with Some r => 2 ^ r | None => 0 end) as -> by congruence.
  assert (d_dests d = 2 ^ rd) as -> by congruence.
  rewrite (ext_call m _ _ JM), (ext_return m _ _ JM), (ext_indirect m _ _ JM). unfold link_in, is_link.
  rewrite !in_land, !in_pow. destruct rs as [r|].
  - rewrite !in_pow. split; [intuition|]. split; split.
    + intros [H1 H2]. exists r. intuition congruence.
    + intros (r' & [= <-] & H1 & H2). intuition congruence.
    + intros [H1 (q & H2 & H3)]. apply in_pow in H3. subst q. exists r. intuition congruence.
    + intros (r' & [= <-] & H1 & H2). split; [intuition congruence|]. exists r. rewrite in_pow. auto.
  - rewrite !in_zero. split; [intuition|]. split; split; try (intros (? & [=] & _)); try tauto.
    intros [_ (q & _ & H)]. now apply in_zero in H.
Qed.
(** ** Suppressed x0, all formats *)
Lemma without_in l e : In e (without_x0 l) <-> In e l /\ e_val e <> 0.
Proof. unfold without_x0. rewrite filter_In, negb_true_iff, N.eqb_neq. tauto. Qed.
Lemma consistent_sub l l' : consistent l -> (forall e, In e l' -> In e l) -> consistent l'.
Proof. intros C S e1 e2 f I1 I2. apply C; auto. Qed.
Lemma built_elems m ss ffm ic : NoDup (map sl_fid ss) ->
  exists o o', add_elems oi_empty (slot_elems m ss ffm ic) = Ok o /\ oi_elems o = slot_elems m ss ffm ic /\
   add_elems oi_empty (without_x0 (slot_elems m ss ffm ic)) = Ok o' /\ oi_elems o' = without_x0 (slot_elems m ss ffm ic).
Proof.
  intros N. destruct (slots_built m ss ffm ic N) as (o & E & El & _). exists o.
  assert (C : consistent (slot_elems m ss ffm ic)) by (apply C40_built; eauto).
  assert (C' : consistent (without_x0 (slot_elems m ss ffm ic))).
  { eapply consistent_sub; eauto. intros e I. now apply without_in in I. }
  apply C40_built in C' as [o' E']. exists o'. repeat split; auto.
  destruct (add_elems_wf _ _ _ oi_wf_empty E') as [_ X]. exact X.
Qed.
Lemma without_id l : (forall e, In e l -> e_val e <> 0) -> without_x0 l = l.
Proof.
  induction l as [|e l IH]; intros H; cbn; auto. assert (e_val e <> 0) by (apply H; now left).
  replace (e_val e =? 0) with false by lia. cbn. f_equal. apply IH. intros. apply H. now right.
Qed.
Lemma C39_src c ffm ic m : keeps_x0 c = false -> pair_ok c ffm -> (is_pair_store c = true -> pair_base c ic <> 0) ->
  exists o o', x_srcI (ext c ffm) ic m false = Ok o /\ x_srcI (ext c ffm) ic m true = Ok o' /\
    oi_elems o' = without_x0 (oi_elems o).
Proof.
  intros K PO PB. unfold pair_ok, is_pair in PO. destruct (is_pair_store c) eqn:P.
  - rewrite orb_true_r in PO. specialize (PO eq_refl). specialize (PB eq_refl).
    destruct (pair_srcI c ffm ic m P PO) as (o & E1 & E2 & _). exists o, o. rewrite pair_srcI_sup by auto.
    repeat split; auto. symmetry. apply without_id. rewrite E2. unfold pair_srcs, pair_data.
    intros e I. destruct c; try discriminate P; destruct (_ =? 0) eqn:Z in I; cbn [In] in I;
      repeat (destruct I as [<-|I]; [cbn [e_val]; solve [assumption|lia]|]); contradiction I.
  - destruct (built_elems m (src_slots c) ffm ic (src_fids c)) as (o & o' & E1 & E2 & E3 & E4).
    exists o, o'. rewrite srcI_conforms, srcI_suppressed by auto. rewrite E2. auto.
Qed.
Lemma C39_dst c ffm ic m : pair_ok c ffm ->
  exists o o', x_dstI (ext c ffm) ic m false = Ok o /\ x_dstI (ext c ffm) ic m true = Ok o' /\
    oi_elems o' = without_x0 (oi_elems o).
Proof.
  intros PO. unfold pair_ok, is_pair in PO. destruct (is_pair_load c) eqn:P.
  - specialize (PO eq_refl).
    destruct (pair_dstI c ffm ic m P PO) as (o & E1 & E2 & _). exists o, o. rewrite pair_dstI_sup by auto.
    repeat split; auto. symmetry. apply without_id. rewrite E2. unfold pair_dests.
    intros e I. destruct (_ =? 0) eqn:Z in I; cbn [In] in I;
      repeat (destruct I as [<-|I]; [cbn [e_val]; lia|]); contradiction I.
  - destruct (built_elems m (dst_slots c) ffm ic (dst_fids c)) as (o & o' & E1 & E2 & E3 & E4).
    exists o, o'. rewrite dstI_conforms, dstI_suppressed by auto. rewrite E2. auto.
Qed.
(** ** Loads *)
Lemma load_addr c ffm ic : is_load c = true -> x_addr (ext c ffm) ic = x_src (ext c ffm) ic /\ x_data (ext c ffm) ic = Ok 0.
Proof. intros L. destruct c; try discriminate L; xunf; split; reflexivity. Qed.
Lemma nonmem_addr c ffm ic : is_load c = false -> is_store c = false ->
  x_addr (ext c ffm) ic = Ok 0 /\ x_data (ext c ffm) ic = Ok 0.
Proof. intros L S. destruct c; try discriminate L; try discriminate S; xunf; split; reflexivity. Qed.
Lemma C41_lemma c ffm m ic n u d : decode_info n u (ext c ffm) m ic = Ok d -> is_store c = false ->
  (is_load c = true -> d_addr d = d_sources d /\ d_data d = 0) /\
  (is_load c = false -> d_addr d = 0 /\ d_data d = 0).
Proof.
  intros D NS. apply decode_inv in D as (_ & _ & _ & _ & S & _ & _ & _ & A & B & _). split; intros L.
  - destruct (load_addr c ffm ic L). split; congruence.
  - destruct (nonmem_addr c ffm ic L NS). split; congruence.
Qed.
(** ** Counts of decoded operands *)
Lemma srcI_wf c ffm ic m o : pair_ok c ffm -> x_srcI (ext c ffm) ic m false = Ok o -> add_elems oi_empty (oi_elems o) = Ok o.
Proof.
  intros PO E. unfold pair_ok, is_pair in PO. destruct (is_pair_store c) eqn:P.
  - rewrite orb_true_r in PO. specialize (PO eq_refl). rewrite pair_srcI_eq in E by auto.
    destruct (add_elems_wf _ _ _ oi_wf_empty E) as [_ X]. now rewrite X.
  - rewrite srcI_conforms in E by auto. destruct (add_elems_wf _ _ _ oi_wf_empty E) as [_ X]. now rewrite X.
Qed.
Lemma dstI_wf c ffm ic m o : pair_ok c ffm -> x_dstI (ext c ffm) ic m false = Ok o -> add_elems oi_empty (oi_elems o) = Ok o.
Proof.
  intros PO E. unfold pair_ok, is_pair in PO. destruct (is_pair_load c) eqn:P.
  - specialize (PO eq_refl). rewrite pair_dstI_eq in E by auto.
    destruct (add_elems_wf _ _ _ oi_wf_empty E) as [_ X]. now rewrite X.
  - rewrite dstI_conforms in E by auto. destruct (add_elems_wf _ _ _ oi_wf_empty E) as [_ X]. now rewrite X.
Qed.
Lemma slot_elems_len m ss ffm ic : (List.length (slot_elems m ss ffm ic) <= List.length ss)%nat.
Proof. unfold slot_elems, live. rewrite map_length. induction ss as [|s ss IH]; cbn; auto. destruct (loc_fixed _ _); cbn; lia. Qed.
Lemma pair_len c m ic : (List.length (pair_srcs c m ic) <= 3)%nat /\ (List.length (pair_dests m (pair_first c ic)) <= 2)%nat.
Proof. unfold pair_srcs, pair_data, pair_dests. split; destruct c; destruct (_ =? 0); cbn; lia. Qed.
Lemma list_short c ffm ic m n u d : pair_ok c ffm -> decode_info n u (ext c ffm) m ic = Ok d ->
  (List.length (oi_elems (d_src_oi d)) <= 3)%nat /\ (List.length (oi_elems (d_dst_oi d)) <= 2)%nat.
Proof.
  intros PO D. unfold pair_ok, is_pair in PO. pose proof D as D'. apply decode_inv in D' as (_ & _ & SI & DI & _). split.
  - destruct (is_pair_store c) eqn:P.
    + rewrite orb_true_r in PO. destruct (pair_srcI c ffm ic m P (PO eq_refl)) as (o & E1 & E2 & _).
      assert (d_src_oi d = o) as -> by congruence. rewrite E2. apply pair_len.
    + destruct (C26_src c ffm m ic n u d P D) as (-> & _). etransitivity; [apply slot_elems_len|]. destruct c; cbn; lia.
  - destruct (is_pair_load c) eqn:P.
    + destruct (pair_dstI c ffm ic m P (PO eq_refl)) as (o & E1 & E2 & _).
      assert (d_dst_oi d = o) as -> by congruence. rewrite E2. apply (pair_len c).
    + destruct (C26_dst c ffm m ic n u d P D) as (-> & _). etransitivity; [apply slot_elems_len|]. destruct c; cbn; lia.
Qed.
Lemma C40_decoded_lemma c ffm m ic n u d : pair_ok c ffm -> decode_info n u (ext c ffm) m ic = Ok d ->
  (oi_n (d_src_oi d) = N.of_nat (List.length (oi_elems (d_src_oi d))) /\ (List.length (oi_elems (d_src_oi d)) <= 3)%nat) /\
  (oi_n (d_dst_oi d) = N.of_nat (List.length (oi_elems (d_dst_oi d))) /\ (List.length (oi_elems (d_dst_oi d)) <= 2)%nat) /\
  forall k, oi_ntypes (d_src_oi d) k = n_typed (oi_elems (d_src_oi d)) k /\
            oi_ntypes (d_dst_oi d) k = n_typed (oi_elems (d_dst_oi d)) k.
Proof.
  intros PO D. destruct (list_short c ffm ic m n u d PO D) as [L1 L2].
  apply decode_inv in D as (_ & _ & SI & DI & _).
  apply srcI_wf in SI; auto. apply dstI_wf in DI; auto.
  apply C40_count_lemma in SI as (_ & A & B & _); [|change (2 ^ 32) with 4294967296; lia].
  apply C40_count_lemma in DI as (_ & A' & B' & _); [|change (2 ^ 32) with 4294967296; lia]. auto.
Qed.
