(** Field extraction (C24). *)
From Coq Require Import NArith ZArith List Bool Lia ZifyBool ZifyN String.
From Verif Require Import M_Base M_Field S_Bits L_Bits.
Import ListNotations.
Local Open Scope N_scope.

Lemma field_exact name rpos len f ic :
  field_ctor name rpos len = Ok f -> f_extract f ic = slice rpos len ic.
Proof.
  intros H. apply field_ctor_ok in H as [-> H]. now rewrite f_extract_slice.
Qed.
Lemma field_range name rpos len f ic :
  field_ctor name rpos len = Ok f -> f_extract f ic < 2 ^ len.
Proof.
  intros H. apply field_ctor_ok in H as [-> H]. apply (f_extract_lt _ ic H).
Qed.
Lemma field_put_get name rpos len f v ic :
  field_ctor name rpos len = Ok f -> v < 2 ^ len -> f_extract f (put rpos len v ic) = v.
Proof.
  intros H Hv. apply field_ctor_ok in H as [-> H].
  apply N.bits_inj. intros i. rewrite f_extract_testbit by auto. cbn [f_rpos f_len].
  rewrite put_testbit. destruct (i <? len) eqn:E; cbn [andb].
  - replace (_ && _) with true by lia. f_equal. lia.
  - symmetry. apply (high_testbit v len); auto. lia.
Qed.
Lemma field_disjoint name rpos len f lo n v ic :
  field_ctor name rpos len = Ok f -> (rpos + len <= lo \/ lo + n <= rpos) ->
  f_extract f (put lo n v ic) = f_extract f ic.
Proof.
  intros H D. apply field_ctor_ok in H as [-> H].
  apply N.bits_inj. intros i. rewrite !f_extract_testbit by auto. cbn [f_rpos f_len].
  rewrite put_testbit. destruct (i <? len) eqn:E; cbn [andb]; auto.
  replace (_ && _) with false by lia. auto.
Qed.
Lemma field_depends name rpos len f a b :
  field_ctor name rpos len = Ok f ->
  (forall i, rpos <= i < rpos + len -> N.testbit a i = N.testbit b i) ->
  f_extract f a = f_extract f b.
Proof.
  intros H D. apply field_ctor_ok in H as [-> H].
  apply N.bits_inj. intros i. rewrite !f_extract_testbit by auto. cbn [f_rpos f_len].
  destruct (i <? len) eqn:E; cbn [andb]; auto. apply D. lia.
Qed.
Lemma field_smask name rpos len f i :
  field_ctor name rpos len = Ok f -> rpos + len <= 64 ->
  N.testbit (f_smask f) i = true <-> rpos <= i < rpos + len.
Proof.
  intros H B. apply field_ctor_ok in H as [-> H]. rewrite f_smask_testbit by auto.
  cbn [f_rpos f_len]. lia.
Qed.
Lemma field_equiv n1 r1 l1 f n2 r2 l2 g :
  field_ctor n1 r1 l1 = Ok f -> field_ctor n2 r2 l2 = Ok g ->
  f_equiv f g = true <-> (forall ic, f_extract f ic = f_extract g ic).
Proof.
  intros Hf Hg. pose proof Hf as Hf'. pose proof Hg as Hg'.
  apply field_ctor_ok in Hf as [-> Hf]. apply field_ctor_ok in Hg as [-> Hg].
  unfold f_equiv. cbn [f_rpos f_len].
  split.
  - intros H ic. assert (r1 = r2 /\ l1 = l2) as [-> ->] by lia. reflexivity.
  - intros H.
    assert (T : forall i j, (i <? l1) && (j =? r1 + i) = (i <? l2) && (j =? r2 + i)).
    { intros i j. specialize (H (2 ^ j)). apply (f_equal (fun x => N.testbit x i)) in H.
      rewrite !f_extract_testbit in H by auto. cbn [f_rpos f_len] in H.
      now rewrite !N.pow2_bits_eqb in H. }
    unfold fok in *. cbn [f_rpos f_len] in *.
    assert (r1 = r2) by (specialize (T 0 r1); lia). subst r2.
    assert (l1 = l2); [|lia].
    pose proof (T (l1 - 1) (r1 + (l1 - 1))). pose proof (T (l2 - 1) (r1 + (l2 - 1))). lia.
Qed.

(** Concatenated fields. *)
Fixpoint concat_bits (fs : list field) (ic i : N) : bool :=
  match fs with
  | [] => false
  | f :: r => if i <? f_len f then N.testbit ic (f_rpos f + i) else concat_bits r ic (i - f_len f)
  end.
Lemma cf_from fs ic off :
  Forall fok fs -> off + cf_len fs <= 64 ->
  exists v, cf_extract_from fs ic off = Ok v /\
    forall i, N.testbit v i = (off <=? i) && concat_bits fs ic (i - off).
Proof.
  intros F. revert off. induction F as [|f fs Hf F IH]; intros off B.
  - exists 0. split; [reflexivity|]. intros. rewrite N.bits_0. cbn. now rewrite andb_false_r.
  - cbn [cf_len fold_right] in B. fold (cf_len fs) in B.
    assert (L : 0 < f_len f) by apply Hf.
    destruct (IH (off + f_len f) ltac:(lia)) as (v & E & T).
    cbn [cf_extract_from]. replace (64 <=? off) with false by lia. rewrite E. cbn [rbind].
    eexists. split; [reflexivity|]. intros i.
    rewrite N.lor_spec, shl64_testbit, T, f_extract_testbit by auto. cbn [concat_bits].
    destruct (off <=? i) eqn:E1; cbn [andb].
    + rewrite andb_true_r. destruct (i - off <? f_len f) eqn:E2.
      * replace (i <? 64) with true by lia. replace (off + f_len f <=? i) with false by lia.
        cbn. now rewrite orb_false_r.
      * rewrite andb_false_l, andb_false_r. cbn [orb].
        replace (off + f_len f <=? i) with true by lia. cbn. f_equal. lia.
    + rewrite andb_false_r. replace (off + f_len f <=? i) with false by lia. reflexivity.
Qed.
Lemma cf_ok fs ic : Forall fok fs -> cf_len fs <= 64 ->
  exists v, cf_extract fs ic = Ok v /\ forall i, N.testbit v i = concat_bits fs ic i.
Proof.
  intros F B. destruct (cf_from fs ic 0 F B) as (v & E & T).
  exists v. split; auto. intros i. rewrite T. rewrite N.sub_0_r. replace (0 <=? i) with true by lia. reflexivity.
Qed.

Lemma concat_spec_testbit parts ic i :
  N.testbit (concat_spec (map (fun f => (f_rpos f, f_len f)) parts) ic) i = concat_bits parts ic i.
Proof.
  revert i. induction parts as [|f r IH]; intros i.
  - apply N.bits_0.
  - cbn [map concat_spec concat_bits].
    set (c := concat_spec _ ic) in *.
    pose proof (put_testbit 0 (f_len f) (slice (f_rpos f) (f_len f) ic) (2 ^ f_len f * c) i) as P.
    unfold put in P.
    assert (NZ : 2 ^ f_len f <> 0) by (apply N.pow_nonzero; discriminate).
    rewrite N.pow_0_r, N.mod_1_r, N.add_0_l, N.add_0_l, N.mul_1_l in P.
    rewrite (N.mul_comm (2 ^ f_len f) c), N.div_mul in P by auto.
    assert (M : slice (f_rpos f) (f_len f) ic mod 2 ^ f_len f = slice (f_rpos f) (f_len f) ic).
    { unfold slice. apply N.mod_mod. auto. }
    rewrite M in P. rewrite P. cbn [N.leb]. rewrite N.sub_0_r.
    replace (0 <=? i) with true by lia. cbn [andb].
    rewrite slice_testbit. destruct (i <? f_len f) eqn:E; cbn [andb]; auto.
    rewrite <- N.shiftl_mul_pow2, shl_testbit, IH. replace (f_len f <=? i) with true by lia. auto.
Qed.
Lemma cf_spec fs ic : Forall fok fs -> cf_len fs <= 64 ->
  cf_extract fs ic = Ok (concat_spec (map (fun f => (f_rpos f, f_len f)) fs) ic).
Proof.
  intros F B. destruct (cf_ok fs ic F B) as (v & E & T). rewrite E. f_equal.
  apply N.bits_inj. intros i. now rewrite T, concat_spec_testbit.
Qed.
Lemma C24_slice name rpos len f ic :
  field_ctor name rpos len = Ok f ->
  f_extract f ic = slice rpos len ic /\ f_extract f ic < 2 ^ len.
Proof. split; [eapply field_exact|eapply field_range]; eauto. Qed.
Lemma C24_concat fs ic :
  (forall f, In f fs -> field_ctor (f_name f) (f_rpos f) (f_len f) = Ok f) -> cf_len fs <= 64 ->
  cf_extract fs ic = Ok (concat_spec (map (fun f => (f_rpos f, f_len f)) fs) ic).
Proof.
  intros H. apply cf_spec. apply Forall_forall. intros f Hf. apply H in Hf.
  now apply field_ctor_ok in Hf as [_ ?].
Qed.
