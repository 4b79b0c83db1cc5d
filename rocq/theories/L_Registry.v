(** Lemmas for the registries (C13, C17). *)
From Coq Require Import NArith ZArith List Bool String Lia ZifyBool ZifyN.
From Verif Require Import M_Base M_Registry S_Maps S_Uids L_Cache.
Import ListNotations.
Local Open Scope N_scope.

Lemma mfind_madd {T} (m : list (string * T)) k v k' :
  mfind (madd m k v) k' = if String.eqb k k' then Some v else mfind m k'.
Proof. reflexivity. Qed.

Section DA.
Context {T : Type}.
(** The vector never holds a slot beyond its size, and its size fits uint32_t. *)
Definition da_ok (a : dynarray T) : Prop :=
  da_size a < w32 /\ forall k v, da_slot a k = Some v -> k < da_size a.

Lemma u32_lt x : u32 x < w32.
Proof. apply N.mod_upper_bound. discriminate. Qed.

Lemma da_add_spec a k v a' : da_ok a -> da_add a k v = Ok a' ->
  da_ok a' /\ k < da_size a' /\ da_up a' = da_up a /\ da_size a <= da_size a' /\
  forall i, da_slot a' i = if i =? k then Some v else da_slot a i.
Proof.
  intros [A B]. unfold da_add.
  destruct (N.leb_spec (da_size a) k) as [L|L].
  - unfold da_resize; cbn [da_size da_slot da_up]. set (n := u32 (k + da_up a)).
    destruct (N.ltb_spec k n) as [K|K]; [|discriminate]. intros E.
    assert (forall i, (if i <? n then da_slot a i else None) = da_slot a i) as S.
    { intros i. destruct (N.ltb_spec i n); [reflexivity|].
      destruct (da_slot a i) eqn:Q; [apply B in Q; lia|reflexivity]. }
    assert (a' = mkDA n (fun i => if i =? k then Some v else if i <? n then da_slot a i else None) (da_up a)) as -> by congruence.
    cbn [da_size da_slot da_up]. pose proof (u32_lt (k + da_up a)). fold n in H.
    repeat split; cbn [da_size da_slot da_up]; auto; try lia.
    + intros i w. destruct (N.eqb_spec i k); [lia|]. rewrite S. intros Q. apply B in Q. lia.
    + intros i. destruct (N.eqb_spec i k); [reflexivity|]. apply S.
  - destruct (N.ltb_spec k (da_size a)) as [K|K]; [|discriminate]. intros E.
    assert (a' = mkDA (da_size a) (fun i => if i =? k then Some v else da_slot a i) (da_up a)) as -> by congruence.
    repeat split; cbn [da_size da_slot da_up]; auto; try lia.
    intros i w. destruct (N.eqb_spec i k); [lia|]. intros Q. apply B in Q. lia.
Qed.

Lemma da_add_ok a k v : da_ok a -> k + da_up a < w32 -> 0 < da_up a -> exists a', da_add a k v = Ok a'.
Proof.
  intros [A B] L U. unfold da_add. destruct (N.leb_spec (da_size a) k).
  - unfold da_resize; cbn [da_size]. unfold u32. rewrite N.mod_small by assumption.
    destruct (N.ltb_spec k (k + da_up a)); [|lia]. eauto.
  - destruct (N.ltb_spec k (da_size a)); [|lia]. eauto.
Qed.

Lemma da_new_ok n u : n < w32 -> da_ok (@da_new T n u).
Proof. intros. split; cbn; [assumption|discriminate]. Qed.
Lemma da_new_up n u : 0 < da_up (@da_new T n u).
Proof. cbn. destruct (N.ltb_spec u 1); lia. Qed.

(** SimpleDynArray refines the last-write map. *)
Definition da_refines (h : list (N * T)) (a : dynarray T) : Prop :=
  da_ok a /\ forall k, match da_slot a k with
                       | Some v => last_under k h v
                       | None => never_under k h
                       end.
Lemma da_refines_add h a k v a' : da_refines h a -> da_add a k v = Ok a' -> da_refines (h ++ [(k, v)]) a'.
Proof.
  intros [O R] E. apply da_add_spec in E as (O' & _ & _ & _ & S); [|assumption]. split; [assumption|].
  intros i. rewrite S. destruct (N.eqb_spec i k) as [->|NE]; [constructor|]. specialize (R i).
  destruct (da_slot a i).
  - constructor; [assumption|congruence].
  - intros w I. apply in_app_or in I as [I|[I|[]]]; [exact (R w I)|congruence].
Qed.
Lemma da_run_refines (h2 : list (N * T)) : forall h1 a a', da_refines h1 a -> da_run a h2 = Ok a' -> da_refines (h1 ++ h2) a'.
Proof.
  induction h2 as [|[k v] h2 IH]; intros h1 a a' R E; cbn in E.
  - assert (a' = a) as -> by congruence. now rewrite app_nil_r.
  - destruct (da_add a k v) as [b| | |] eqn:Q; cbn in E; try discriminate.
    replace (h1 ++ (k, v) :: h2)%list with ((h1 ++ [(k, v)]) ++ h2)%list by now rewrite <- app_assoc.
    eapply IH; [|exact E]. eapply da_refines_add; eauto.
Qed.
Lemma da_refines_new n u : n < w32 -> da_refines [] (da_new n u).
Proof. intros. split; [now apply da_new_ok|]. intros k v []. Qed.

Lemma never_not_last {K V} (k : K) (h : list (K * V)) v : last_under k h v -> In (k, v) h.
Proof. induction 1; apply in_or_app; [right; now left|now left]. Qed.

Lemma C17_array_lemma n u (h : list (N * T)) a : n < w32 -> da_run (da_new n u) h = Ok a ->
  forall k, (forall v, da_lookup a k = Ok v <-> last_under k h v) /\
            (da_contains a k = true <-> exists v, last_under k h v) /\
            (never_under k h -> da_lookup a k = Throw EUnassignedIndex \/ da_lookup a k = Throw EStdOutOfRange).
Proof.
  intros L E k. apply (da_run_refines h [] _ _ (da_refines_new n u L)) in E. cbn in E. destruct E as [[S B] R].
  specialize (R k). unfold da_lookup, da_contains. destruct (da_slot a k) as [w|] eqn:Q.
  - pose proof (B _ _ Q). destruct (N.ltb_spec k (da_size a)); [|lia]. cbn.
    split; [|split].
    + intros v. split; [intros [= <-]; assumption|intros X; f_equal; eapply last_under_fun; eauto].
    + split; eauto.
    + intros X. exfalso. eapply X. eapply never_not_last; eauto.
  - split; [|split].
    + intros v. split; [destruct (k <? da_size a); discriminate|]. intros X. exfalso. eapply R. eapply never_not_last; eauto.
    + rewrite andb_false_r. split; [discriminate|]. intros [v X]. exfalso. eapply R. eapply never_not_last; eauto.
    + intros _. destruct (k <? da_size a); auto.
Qed.

Lemma C17_array_total_lemma n u (h : list (N * T)) : n < w32 -> u < w32 -> Forall (fun p => fst p + N.max 1 u < w32) h ->
  exists a, da_run (da_new n u) h = Ok a.
Proof.
  intros L U F.
  assert (G : forall h (a : dynarray T), da_ok a -> da_up a = N.max 1 u -> Forall (fun p => fst p + N.max 1 u < w32) h ->
             exists a', da_run a h = Ok a').
  { clear h F. induction h as [|[k v] h IH]; intros a O P F; [eexists; reflexivity|].
    inversion F; subst. cbn [fst] in *. destruct (da_add_ok a k v O) as [b E]; [rewrite P; assumption|lia|].
    cbn. rewrite E. cbn. apply da_add_spec in E as (O' & _ & P' & _); [|assumption].
    apply IH; [assumption|congruence|assumption]. }
  apply G; [now apply da_new_ok| |assumption]. cbn. destruct (N.ltb_spec u 1); lia.
Qed.
End DA.

Section DK.
Context {T : Type}.
Notation num h := (map (fun p : string * N * T => (snd (fst p), snd p)) h).
Notation str h := (map (fun p : string * N * T => (fst (fst p), snd p)) h).

Lemma existsb_eqb s l : existsb (String.eqb s) l = true <-> In s l.
Proof.
  rewrite existsb_exists. split.
  - intros (x & I & E). apply String.eqb_eq in E. now subst.
  - intros I. exists s. split; [assumption|apply String.eqb_refl].
Qed.

Lemma mfind_in {A} (m : list (string * A)) s : (exists v, mfind m s = Some v) <-> In s (map fst m).
Proof.
  induction m as [|[k v] m IH]; cbn.
  - split; [intros [v H]; discriminate|intros []].
  - destruct (String.eqb_spec k s) as [->|NE].
    + split; eauto.
    + rewrite IH. split; [auto|]. intros [E|I]; [congruence|assumption].
Qed.

Lemma dk_run_spec (h : list (string * N * T)) : forall d d', da_ok (dk_vec d) -> dk_run d h = Ok d' ->
  exists l, accepted (map fst (dk_map d)) h = l /\
    dk_map d' = (rev (str l) ++ dk_map d)%list /\ da_run (dk_vec d) (num l) = Ok (dk_vec d').
Proof.
  induction h as [|[[s k] v] h IH]; intros d d' O E.
  - exists []. cbn in *. assert (d' = d) as -> by congruence. auto.
  - cbn in E. unfold dk_add in E. cbn [accepted].
    destruct (mfind (dk_map d) s) as [w|] eqn:F.
    + assert (existsb (String.eqb s) (map fst (dk_map d)) = true) as ->
        by (apply existsb_eqb, mfind_in; eauto).
      apply IH; assumption.
    + destruct (existsb (String.eqb s) (map fst (dk_map d))) eqn:X.
      { apply existsb_eqb, mfind_in in X as [w X]. congruence. }
      destruct (da_add (dk_vec d) k v) as [a| | |] eqn:A; cbn in E; try discriminate.
      2: { unfold da_add in A. destruct (da_size _ <=? _); destruct (_ <? _); discriminate. }
      pose proof A as A'. apply da_add_spec in A' as (O' & _); [|assumption].
      destruct (IH (mkDK (madd (dk_map d) s v) a) d' O' E) as (l & L & M & R). cbn [dk_map dk_vec map fst] in *.
      exists ((s, k, v) :: l). split; [|split].
      * unfold madd in L. cbn [map fst] in L. now rewrite L.
      * rewrite M. cbn. unfold madd. now rewrite <- app_assoc.
      * cbn. rewrite A. cbn. exact R.
Qed.

Lemma mfind_rev_nodup {A} (l : list (string * A)) s v : NoDup (map fst l) ->
  (mfind (rev l) s = Some v <-> In (s, v) l).
Proof.
  intros N.
  assert (G : forall (m : list (string * A)), NoDup (map fst m) -> (mfind m s = Some v <-> In (s, v) m)).
  { induction m as [|[k w] m IH]; cbn; intros D; [split; [discriminate|intros []]|].
    inversion D; subst. destruct (String.eqb_spec k s) as [->|NE].
    - split; [intros [= ->]; now left|]. intros [E|I]; [congruence|].
      exfalso. apply H1. apply in_map_iff. exists (s, v). auto.
    - rewrite IH by assumption. split; [auto|]. intros [E|I]; [congruence|assumption]. }
  rewrite G.
  - symmetry. apply in_rev.
  - rewrite map_rev. now apply NoDup_rev.
Qed.

Lemma accepted_nodup h : forall seen,
  NoDup (map fst (str (@accepted T seen h))) /\ forall s, In s (map fst (str (accepted seen h))) -> ~ In s seen.
Proof.
  induction h as [|[[s k] v] h IH]; intros seen; cbn; [split; [constructor|intros ? []]|].
  destruct (existsb (String.eqb s) seen) eqn:X; [apply IH|].
  destruct (IH (s :: seen)) as [A B]. cbn. split.
  - constructor; [|assumption]. intros I. apply (B s I). now left.
  - intros s' [<-|I] J.
    + apply existsb_eqb in J. congruence.
    + apply (B s' I). now right.
Qed.
End DK.

Lemma C17_registry_lemma {T} n u (h : list (string * N * T)) d :
  n < w32 -> dk_run (dk_new n u) h = Ok d ->
  let l := accepted [] h in
  (forall s v, dk_lookup_s d s = Ok v <-> exists k, In (s, k, v) l) /\
  (forall s, dk_contains_s d s = true <-> exists k v, In (s, k, v) l) /\
  (forall s, dk_contains_s d s = false -> dk_lookup_s d s = Throw EStdOutOfRange) /\
  (forall k v, dk_lookup_n d k = Ok v <-> last_under k (map (fun p => (snd (fst p), snd p)) l) v) /\
  (forall k, dk_contains_n d k = true <-> exists s v, In (s, k, v) l) /\
  (forall k, dk_contains_n d k = false -> dk_lookup_n d k = Throw EUnassignedKey \/ dk_lookup_n d k = Throw EStdOutOfRange).
Proof.
  intros L E l. apply dk_run_spec in E as (l' & El & M & R); [|now apply da_new_ok].
  change (accepted [] h = l') in El. fold l in El. subst l'.
  cbn [dk_new dk_map dk_vec] in *. rewrite app_nil_r in M.
  destruct (accepted_nodup h []) as [ND _]. fold l in ND.
  assert (S : forall s v, mfind (dk_map d) s = Some v <-> exists k, In (s, k, v) l).
  { intros s v. rewrite M, mfind_rev_nodup by assumption. rewrite in_map_iff. split.
    - intros ([[s' k] v'] & Q & I). cbn in Q. injection Q as -> ->. eauto.
    - intros [k I]. exists (s, k, v). auto. }
  assert (S' : forall s, dk_contains_s d s = true <-> exists k v, In (s, k, v) l).
  { intros s. unfold dk_contains_s. destruct (mfind (dk_map d) s) eqn:Q.
    - apply S in Q as [k Q]. split; eauto.
    - split; [discriminate|]. intros (k & v & I). assert (mfind (dk_map d) s = Some v) by (apply S; eauto). congruence. }
  assert (AL : forall k, (forall v, da_lookup (dk_vec d) k = Ok v <-> last_under k (map (fun p => (snd (fst p), snd p)) l) v) /\
            (da_contains (dk_vec d) k = true <-> exists v, last_under k (map (fun p => (snd (fst p), snd p)) l) v) /\
            (never_under k (map (fun p => (snd (fst p), snd p)) l) -> da_lookup (dk_vec d) k = Throw EUnassignedIndex \/ da_lookup (dk_vec d) k = Throw EStdOutOfRange)).
  { eapply C17_array_lemma; eauto. }
  assert (LN : forall k, dk_lookup_n d k = match da_lookup (dk_vec d) k with Throw EUnassignedIndex => Throw EUnassignedKey | x => x end).
  { intros k. unfold dk_lookup_n, da_lookup. destruct (k <? da_size (dk_vec d)); [|reflexivity]. now destruct (da_slot _ _). }
  assert (DEC : forall k, (exists s v, In (s, k, v) l) <-> exists v, last_under k (map (fun p => (snd (fst p), snd p)) l) v).
  { intros k. split.
    - intros (s & v & I). clear - I. induction l as [|[[s' k'] v'] l IH] using rev_ind; [destruct I|].
      rewrite map_app. cbn. destruct (N.eq_dec k' k) as [->|NE]; [exists v'; constructor|].
      apply in_app_or in I as [I|[I|[]]]; [|congruence]. destruct (IH I) as [w W]. exists w. now constructor.
    - intros [v I]. apply never_not_last, in_map_iff in I as ([[s k'] v'] & Q & I). cbn in Q. injection Q as -> ->. eauto. }
  repeat split.
  - intros Q. apply S. unfold dk_lookup_s in Q. destruct (mfind (dk_map d) s); congruence.
  - intros Q. apply S in Q. unfold dk_lookup_s. now rewrite Q.
  - apply S'.
  - apply S'.
  - intros s. unfold dk_contains_s, dk_lookup_s. destruct (mfind (dk_map d) s); [discriminate|reflexivity].
  - rewrite LN. intros Q. apply AL. destruct (da_lookup (dk_vec d) k) as [w|[]| |]; congruence.
  - intros Q. apply AL in Q. rewrite LN, Q. reflexivity.
  - intros Q. apply DEC, AL. exact Q.
  - intros Q. apply AL, DEC. exact Q.
  - intros k Q. rewrite LN.
    assert (never_under k (map (fun p => (snd (fst p), snd p)) l)) as NU.
    { intros v I. apply in_map_iff in I as ([[s k'] v'] & X & I). cbn in X. injection X as -> ->.
      assert (dk_contains_n d k = true) by (apply AL, DEC; eauto). congruence. }
    apply AL in NU as [-> | ->]; auto.
Qed.

Lemma C17_duplicate_lemma {T} (d : dualreg T) s k v :
  dk_contains_s d s = true <-> dk_add d s k v = Throw EDuplicateKey.
Proof.
  unfold dk_contains_s, dk_add. destruct (mfind (dk_map d) s).
  - split; reflexivity.
  - split; [discriminate|]. unfold da_add.
    destruct (da_size (dk_vec d) <=? k); destruct (k <? _); discriminate.
Qed.
