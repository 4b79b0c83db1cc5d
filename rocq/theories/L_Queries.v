(** Lemmas: register queries count the operands. *)
From Coq Require Import NArith List Bool Lia ZifyBool ZifyN.
From Verif Require Import M_Base M_Meta M_OperandInfo M_Extract M_Decoded M_OpcodeInfo.
From Verif Require Import S_Bits S_Operands S_Slots S_Agree S_Pairs S_Regs S_Queries.
From Verif Require Import L_OperandInfo L_Slots L_Agree L_Decoded L_Regs L_Pairs L_Stores.
Import ListNotations.
Local Open Scope N_scope.

Lemma how_many_snoc p l e : how_many p (l ++ [e]) = how_many p l + (match e_type e with Some k => if p k then 1 else 0 | None => 0 end).
Proof. unfold how_many. rewrite filter_app, app_length. cbn [filter]. destruct (e_type e) as [k|]; [destruct (p k)|]; cbn [length]; lia. Qed.
Lemma n_typed_many k l : NoDup (map e_fid l) -> n_typed l k = how_many (only k) l.
Proof.
  induction l as [|e l IH] using rev_ind; intros N.
  - unfold n_typed. cbn [filter length]. unfold how_many. cbn. reflexivity.
  - rewrite map_app in N. cbn in N. pose proof (NoDup_remove_1 _ _ _ N) as N1. pose proof (NoDup_remove_2 _ _ _ N) as N2. rewrite app_nil_r in *.
    rewrite how_many_snoc, <- IH by auto.
    assert (Q : (if okind_eqb (e_type e) (Some k) then 1 else 0) = (match e_type e with Some k' => if only k k' then 1 else 0 | None => 0 end)).
    { destruct (e_type e) as [k'|]; auto. now destruct k, k'. }
    rewrite <- Q. destruct (e_fid e) as [f|] eqn:E.
    + apply n_typed_snoc_new with (f := f); auto. intros e' I Z. apply N2. rewrite <- Z. now apply in_map.
    + now apply n_typed_snoc_none.
Qed.
Lemma how_many_split p q r l : (forall k, p k = q k || r k) -> (forall k, q k = true -> r k = false) ->
  how_many p l = how_many q l + how_many r l.
Proof.
  intros A B. unfold how_many. induction l as [|e l IH]; cbn [filter length]; [reflexivity|].
  destruct (e_type e) as [k|]; [|exact IH]. rewrite A. specialize (B k).
  destruct (q k); [rewrite B by auto|destruct (r k)]; cbn [orb length]; lia.
Qed.
Lemma how_many_le p l : how_many p l <= N.of_nat (length l).
Proof.
  unfold how_many. induction l as [|e l IH]; cbn [filter length]; [lia|]. destruct (e_type e) as [k|]; [destruct (p k)|]; cbn [length]; lia.
Qed.

Lemma slot_elems_fids m ss ffm ic : NoDup (map sl_fid ss) -> NoDup (map e_fid (slot_elems m ss ffm ic)).
Proof.
  intros N. unfold slot_elems. rewrite map_map. induction ss as [|a ss IH]; cbn; [constructor|].
  inversion N; subst. destruct (negb (loc_fixed (sl_loc a) ffm)); [|now apply IH]. cbn. constructor; [|now apply IH].
  intros I. apply in_map_iff in I as (b & Q & I). apply filter_In in I as [I _]. apply H1. apply in_map_iff. exists b. split; [|exact I].
  cbn in Q. congruence.
Qed.
Lemma pair_fids c m ic : NoDup (map e_fid (pair_srcs c m ic)) /\ NoDup (map e_fid (pair_dests m (pair_first c ic))).
Proof.
  unfold pair_srcs, pair_data, pair_dests. split; destruct c; destruct (_ =? 0); repeat constructor; cbn; intuition congruence.
Qed.
Lemma list_fids c ffm ic m n u d s : pair_ok c ffm -> decode_info n u (ext c ffm) m ic = Ok d -> NoDup (map e_fid (operands d s)).
Proof.
  intros PO D. unfold pair_ok, is_pair in PO. pose proof D as D'. apply decode_inv in D' as (_ & _ & SI & DI & _). destruct s; cbn [operands].
  - destruct (is_pair_store c) eqn:P.
    + rewrite orb_true_r in PO. destruct (pair_srcI c ffm ic m P (PO eq_refl)) as (o & E1 & E2 & _).
      assert (d_src_oi d = o) as -> by congruence. rewrite E2. apply pair_fids.
    + destruct (C26_src c ffm m ic n u d P D) as (-> & _). apply slot_elems_fids, src_fids.
  - destruct (is_pair_load c) eqn:P.
    + destruct (pair_dstI c ffm ic m P (PO eq_refl)) as (o & E1 & E2 & _).
      assert (d_dst_oi d = o) as -> by congruence. rewrite E2. apply (pair_fids c).
    + destruct (C26_dst c ffm m ic n u d P D) as (-> & _). apply slot_elems_fids, dst_fids.
Qed.

Lemma queries_lemma c ffm m ic n u d s : pair_ok c ffm -> decode_info n u (ext c ffm) m ic = Ok d ->
  num_regs d s = N.of_nat (length (operands d s)) /\
  num_int_regs d s = how_many integer (operands d s) /\
  num_float_regs d s = how_many floating (operands d s) /\
  num_vector_regs d s = how_many vector (operands d s) /\
  (forall k, num_regs_by_type d s (Some k) = Ok (how_many (only k) (operands d s))) /\
  d_int_n_operands d = how_many integer (operands d Src ++ operands d Dst) /\
  d_float_n_operands d = how_many floating (operands d Src ++ operands d Dst) /\
  (forall k, d_n_operT d k = how_many (only k) (operands d Src ++ operands d Dst)) /\
  num_regs_by_type d s None = AssertFail /\ get_regs_by_type d s None = AssertFail.
Proof.
  intros PO D. destruct (C40_decoded_lemma _ _ _ _ _ _ _ PO D) as ((A1 & A2) & (B1 & B2) & T).
  assert (NK : forall s k, n_by_kind d s k = how_many (only k) (operands d s)).
  { intros s' k. rewrite <- n_typed_many by (eapply list_fids; eauto). destruct s'; apply (T k). }
  assert (LEN : forall s, N.of_nat (length (operands d s)) <= 3) by (intros []; cbn; lia).
  assert (I : forall l, how_many integer l = how_many (only KWord) l + how_many (only KLong) l).
  { intros. apply how_many_split; intros []; reflexivity || discriminate. }
  assert (F : forall l, how_many floating l = how_many (only KSingle) l + how_many (only KDouble) l).
  { intros. apply how_many_split; intros []; reflexivity || discriminate. }
  assert (V : forall l, how_many vector l = how_many (only KVector) l) by (intros l; unfold how_many; do 2 f_equal; apply filter_ext; intros [? [[]|] ? ? ?]; reflexivity).
  assert (AP : forall p l l', how_many p (l ++ l') = how_many p l + how_many p l') by (intros; unfold how_many; rewrite filter_app, app_length; lia).
  assert (SM : forall x, x < 2 ^ 32 -> u32 x = x) by (intros; unfold u32; apply N.mod_small; auto).
  assert (IN : forall s, num_int_regs d s = how_many integer (operands d s)).
  { intros s'. unfold num_int_regs, d_int_n. rewrite !NK, <- I. apply SM. pose proof (how_many_le integer (operands d s')). specialize (LEN s'). lia. }
  assert (FN : forall s, num_float_regs d s = how_many floating (operands d s)).
  { intros s'. unfold num_float_regs, d_float_n. rewrite !NK, <- F. apply SM. pose proof (how_many_le floating (operands d s')). specialize (LEN s'). lia. }
  split; [destruct s; [exact A1|exact B1]|]. split; [apply IN|]. split; [apply FN|]. split; [unfold num_vector_regs; rewrite NK; symmetry; apply V|].
  split; [intros k; unfold num_regs_by_type; now rewrite NK|].
  pose proof (LEN Src). pose proof (LEN Dst).
  split; [|split; [|split; [|split; reflexivity]]].
  - unfold d_int_n_operands, num_int_regs in *. rewrite !IN, AP. apply SM.
    pose proof (how_many_le integer (operands d Src)). pose proof (how_many_le integer (operands d Dst)). lia.
  - unfold d_float_n_operands, num_float_regs in *. rewrite !FN, AP. apply SM.
    pose proof (how_many_le floating (operands d Src)). pose proof (how_many_le floating (operands d Dst)). lia.
  - intros k. unfold d_n_operT. change (d_n_srcT d k) with (n_by_kind d Src k). change (d_n_dstT d k) with (n_by_kind d Dst k). rewrite !NK, AP. apply SM.
    pose proof (how_many_le (only k) (operands d Src)). pose proof (how_many_le (only k) (operands d Dst)). lia.
Qed.
Lemma masks_lemma d s r :
  (in_mask r (get_int_regs d s) <-> exists k v, integer k = true /\ get_regs_by_type d s (Some k) = Ok v /\ in_mask r v) /\
  (in_mask r (get_float_regs d s) <-> exists k v, floating k = true /\ get_regs_by_type d s (Some k) = Ok v /\ in_mask r v) /\
  (in_mask r (get_vector_regs d s) <-> exists k v, vector k = true /\ get_regs_by_type d s (Some k) = Ok v /\ in_mask r v).
Proof.
  unfold in_mask. destruct s; cbn [get_int_regs get_float_regs get_vector_regs get_regs_by_type];
  unfold d_int_sources, d_int_dests, d_float_sources, d_float_dests; rewrite !N.lor_spec, !orb_true_iff; (split; [|split]); split.
  all: try (intros (k & v & Q & [= <-] & R); destruct k; try discriminate Q; auto).
  all: try (intros [H|H]; (eexists; eexists; split; [|split; [reflexivity|exact H]]; reflexivity)).
  all: intros H; eexists; eexists; (split; [|split; [reflexivity|exact H]]); reflexivity.
Qed.
Lemma both_lemma d r :
  (in_mask r (d_int_operands d) <-> exists s, in_mask r (get_int_regs d s)) /\
  (in_mask r (d_float_operands d) <-> exists s, in_mask r (get_float_regs d s)) /\
  (forall k, in_mask r (d_operT d k) <-> exists s v, get_regs_by_type d s (Some k) = Ok v /\ in_mask r v).
Proof.
  unfold in_mask, d_int_operands, d_float_operands, d_operT. rewrite !N.lor_spec, !orb_true_iff. split; [|split; [|intros k; rewrite N.lor_spec, orb_true_iff]]; split.
  - intros [H|H]; [exists Src|exists Dst]; exact H.
  - intros [[] H]; auto.
  - intros [H|H]; [exists Src|exists Dst]; exact H.
  - intros [[] H]; auto.
  - intros [H|H]; [exists Src|exists Dst]; eexists; split; eauto; reflexivity.
  - intros ([] & v & [= <-] & H); auto.
Qed.
