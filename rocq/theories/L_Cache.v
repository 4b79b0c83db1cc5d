(** Lemmas for the opcode cache and the stash (C15, C16). *)
From Coq Require Import NArith ZArith List Bool Lia ZifyBool ZifyN.
From Verif Require Import M_Base M_Cache S_Maps.
Import ListNotations.
Local Open Scope N_scope.

Lemma last_under_fun {K V} (k : K) (h : list (K * V)) w w' :
  last_under k h w -> last_under k h w' -> w = w'.
Proof.
  intros A. revert w'. induction A as [h w|h k' w1 w A IH NE]; intros w' B.
  - inversion B as [h' x Q|h' kk x y Q1 Q2 Q]; subst; apply app_inj_tail in Q as [_ Q]; congruence.
  - inversion B as [h' x Q|h' kk x y Q1 Q2 Q]; subst.
    + apply app_inj_tail in Q as [_ Q]. congruence.
    + apply app_inj_tail in Q as [Q _]. subst. now apply IH.
Qed.

Section C.
Context {V : Type}.

Lemma cache_run_snoc size (h : list (N * V)) p : cache_run size (h ++ [p]) = cache_allocate size (cache_run size h) (fst p) (snd p).
Proof. unfold cache_run. now rewrite fold_left_app. Qed.

(** A hit returns something stored for an opcode with the same line and tag, and
    nothing was stored in that line afterwards. *)
Lemma cache_hit_inv size (h : list (N * V)) ic v :
  cache_lookup size (cache_run size h) ic = Some v ->
  exists h1 i h2, h = h1 ++ (i, v) :: h2 /\ cache_hash size i = cache_hash size ic /\ u32 i = ic /\
    Forall (fun p => cache_hash size (fst p) <> cache_hash size ic) h2.
Proof.
  induction h as [|p h IH] using rev_ind; [discriminate|].
  rewrite cache_run_snoc. destruct p as [i w]. cbn [fst snd].
  unfold cache_lookup, cache_allocate.
  destruct (N.eqb_spec (cache_hash size ic) (cache_hash size i)) as [E|E]; cbn [ln_handle ln_tag].
  - destruct (N.eqb_spec (u32 i) ic) as [T|T]; [|discriminate].
    intros [= ->]. exists h, i, []. repeat split; auto.
  - intros H. destruct IH as (h1 & j & h2 & -> & A & B & F).
    + unfold cache_lookup. exact H.
    + exists h1, j, (h2 ++ [(i, w)]). rewrite <- app_assoc. split; [reflexivity|].
      split; [assumption|]. split; [assumption|]. apply Forall_app. split; [assumption|].
      constructor; [|constructor]. cbn. congruence.
Qed.

Lemma last_under_app h1 (k : N) (v : V) h2 :
  Forall (fun p => fst p <> k) h2 -> last_under k (h1 ++ (k, v) :: h2) v.
Proof.
  induction h2 as [|[k' v'] h2 IH] using rev_ind; intros F.
  - constructor.
  - apply Forall_app in F as [F1 F2]. inversion F2; subst.
    replace (h1 ++ (k, v) :: h2 ++ [(k', v')])%list with ((h1 ++ (k, v) :: h2) ++ [(k', v')])%list
      by (now rewrite <- app_assoc).
    constructor; auto.
Qed.


Lemma tag_line_unique i j :
  i < cache_bound -> j < cache_bound ->
  u32 i = u32 j -> i mod CACHE_SIZE = j mod CACHE_SIZE -> i = j.
Proof.
  unfold cache_bound, CACHE_SIZE, u32, w32. intros A B C D.
  pose proof (N.div_mod i 4294967296 ltac:(lia)) as Ei.
  pose proof (N.div_mod j 4294967296 ltac:(lia)) as Ej.
  rewrite C in Ei. set (r := j mod 4294967296) in *.
  set (a := i / 4294967296) in *. set (b := j / 4294967296) in *.
  assert (a < 1023) by (unfold a; apply N.div_lt_upper_bound; lia).
  assert (b < 1023) by (unfold b; apply N.div_lt_upper_bound; lia).
  pose proof (N.div_mod i 1023 ltac:(lia)) as Fi.
  pose proof (N.div_mod j 1023 ltac:(lia)) as Fj.
  rewrite D in Fi. set (s := j mod 1023) in *.
  set (x := i / 1023) in *. set (y := j / 1023) in *.
  (* 2^32 = 4 mod 1023, and 256 * 4 = 1024 = 1 mod 1023 *)
  assert (a = b); [|lia].
  zify. clear - Ei Ej Fi Fj H H0.
  assert (exists k, Z.of_N a - Z.of_N b = 1023 * k)%Z as [k Hk].
  { exists (256 * (Z.of_N x - Z.of_N y) - (256 * 4198404 + 1) * (Z.of_N a - Z.of_N b))%Z. nia. }
  nia.
Qed.

Lemma cache_hash_small ic : cache_hash CACHE_SIZE ic = ic mod CACHE_SIZE.
Proof.
  unfold cache_hash, u32, CACHE_SIZE. apply N.mod_small.
  pose proof (N.mod_upper_bound ic 1023 ltac:(lia)). unfold w32. lia.
Qed.

Lemma C16_lemma (h : list (N * V)) ic v :
  Forall (fun p => fst p < cache_bound) h ->
  cache_lookup CACHE_SIZE (cache_run CACHE_SIZE h) ic = Some v ->
  last_under ic h v.
Proof.
  intros B H. apply cache_hit_inv in H as (h1 & i & h2 & -> & Hh & Ht & F).
  rewrite !cache_hash_small in Hh.
  apply Forall_app in B as [_ B]. inversion B as [|? ? Bi _]; subst. cbn in Bi.
  assert (i < w32 -> u32 i = i) by (intros; unfold u32; apply N.mod_small; assumption).
  assert (L : u32 i < w32) by (apply N.mod_upper_bound; unfold w32; lia).
  assert (i = u32 i) as E.
  { apply tag_line_unique; [assumption| unfold cache_bound, w32 in *; lia | | congruence].
    unfold u32. rewrite N.mod_mod; [reflexivity|unfold w32; lia]. }
  rewrite <- E. apply last_under_app.
  eapply Forall_impl; [|exact F]. cbn. intros a N X. apply N. now rewrite X, <- E.
Qed.

Lemma C16_hit_lemma h ic (v : V) : ic < w32 ->
  cache_lookup CACHE_SIZE (cache_allocate CACHE_SIZE (cache_run CACHE_SIZE h) ic v) ic = Some v.
Proof.
  intros L. unfold cache_lookup, cache_allocate. rewrite N.eqb_refl. cbn.
  unfold u32. rewrite N.mod_small by assumption. now rewrite N.eqb_refl.
Qed.

(** Stash. *)
Section St.
Variables (hs ms : N) (hf : N -> N).
Notation stash_run := (stash_run hs ms hf).
Lemma stash_run_snoc (h : list (N * V)) p : stash_run (h ++ [p]) = stash_set hs ms hf (stash_run h) (fst p) (snd p).
Proof. unfold M_Cache.stash_run. now rewrite fold_left_app. Qed.

Definition node_ok (h : list (N * V)) (n : snode V) : Prop :=
  match n with None => True | Some (k, v) => last_under k h v end.

Lemma node_ok_snoc h n k v (OK : node_ok h n) :
  (forall w, n = Some (k, w) -> False) \/ n = Some (k, v) -> node_ok (h ++ [(k, v)]) n.
Proof.
  intros D. destruct n as [[k' w]|]; [|exact I]. cbn in *.
  destruct (N.eq_dec k k') as [->|NE].
  - destruct D as [D|D]; [exfalso; eapply D; reflexivity|]. injection D as ->. constructor.
  - constructor; assumption.
Qed.

(** Every node holds the last value stored under its key, in the slot of that key. *)
Definition stash_inv (h : list (N * V)) (s : stash V) : Prop :=
  node_ok h (st_mru s) /\
  (forall i, node_ok h (st_hash s i) /\ forall k v, st_hash s i = Some (k, v) -> i = stash_index hf k mod hs) /\
  (forall i, node_ok h (st_map s i) /\ forall k v, st_map s i = Some (k, v) -> i = stash_index hf k mod ms).

Lemma stash_run_inv (h : list (N * V)) : stash_inv h (stash_run h).
Proof.
  induction h as [|[k v] h (M & H & P)] using rev_ind.
  - repeat split; cbn; auto; discriminate.
  - rewrite stash_run_snoc. cbn [fst snd]. unfold stash_set.
    split; [|split]; cbn [st_mru st_hash st_map].
    + constructor.
    + intros i. destruct (H i) as [H1 H2]. destruct (N.eqb_spec i (stash_index hf k mod hs)) as [->|NE].
      * split; [constructor|]. intros k' v' [= -> ->]. reflexivity.
      * split; [|exact H2]. apply node_ok_snoc; [exact H1|].
        left. intros w E. apply NE. exact (H2 _ _ E).
    + intros i. destruct (P i) as [H1 H2]. destruct (N.eqb_spec i (stash_index hf k mod ms)) as [->|NE].
      * split; [constructor|]. intros k' v' [= -> ->]. reflexivity.
      * split; [|exact H2]. apply node_ok_snoc; [exact H1|].
        left. intros w E. apply NE. exact (H2 _ _ E).
Qed.

Lemma snode_get_ok h n k v : node_ok h n -> snode_get n k = Some v -> last_under k h v.
Proof.
  destruct n as [[k' w]|]; cbn; [|discriminate]. intros H.
  destruct (N.eqb_spec k' k) as [->|]; [|discriminate]. now intros [= <-].
Qed.

Lemma C15_lemma (h : list (N * V)) k v : stash_lookup hs ms hf (stash_run h) k = Some v -> last_under k h v.
Proof.
  destruct (stash_run_inv h) as (M & H & P). unfold stash_lookup. intros E.
  destruct (snode_get (st_mru _) k) eqn:A; [injection E as <-; eapply snode_get_ok; eauto|].
  destruct (snode_get (st_hash _ _) k) eqn:B;
    [injection E as <-; eapply snode_get_ok; [|exact B]; apply H|].
  eapply snode_get_ok; [|exact E]; apply P.
Qed.

Lemma map_slot_kept (h2 : list (N * V)) : forall (s : stash V) k v,
  st_map s (stash_index hf k mod ms) = Some (k, v) ->
  Forall (fun p => stash_index hf (fst p) mod ms <> stash_index hf k mod ms) h2 ->
  st_map (fold_left (fun s p => stash_set hs ms hf s (fst p) (snd p)) h2 s)
     (stash_index hf k mod ms) = Some (k, v).
Proof.
  induction h2 as [|[k' v'] h2 IH]; intros s k v E F; [exact E|].
  inversion F as [|? ? F1 F2]; subst. cbn [fold_left fst snd] in *. apply IH; [|exact F2].
  cbn [stash_set st_map]. destruct (N.eqb_spec (stash_index hf k mod ms) (stash_index hf k' mod ms)); [congruence|exact E].
Qed.

(** A stored pair stays until a key of the same map slot is stored. *)
Lemma C15_retained_lemma (h1 : list (N * V)) k v h2 :
  Forall (fun p => stash_index hf (fst p) mod ms <> stash_index hf k mod ms) h2 ->
  stash_lookup hs ms hf (stash_run (h1 ++ (k, v) :: h2)) k = Some v.
Proof.
  intros F.
  assert (E : st_map (stash_run (h1 ++ (k, v) :: h2)) (stash_index hf k mod ms) = Some (k, v)).
  { unfold M_Cache.stash_run. rewrite fold_left_app. cbn [fold_left fst snd]. apply map_slot_kept; [|exact F].
    cbn [stash_set st_map]. now rewrite N.eqb_refl. }
  assert (X : last_under k (h1 ++ (k, v) :: h2) v).
  { apply last_under_app. eapply Forall_impl; [|exact F]. cbn. intros a A B. apply A. now rewrite B. }
  destruct (stash_lookup hs ms hf (stash_run (h1 ++ (k, v) :: h2)) k) as [w|] eqn:L.
  - apply C15_lemma in L. f_equal. exact (last_under_fun _ _ _ _ L X).
  - exfalso. unfold stash_lookup in L.
    destruct (snode_get (st_mru _) k); [discriminate|].
    destruct (snode_get (st_hash _ _) k); [discriminate|].
    rewrite E in L. cbn in L. rewrite N.eqb_refl in L. discriminate.
Qed.
End St.
End C.

Lemma C16_hit_lemma' {V} (h : list (N * V)) ic (v : V) : ic < w32 ->
  cache_lookup CACHE_SIZE (cache_run CACHE_SIZE (h ++ [(ic, v)])) ic = Some v.
Proof. intros L. rewrite cache_run_snoc. now apply C16_hit_lemma. Qed.

Lemma C16_refuted_lemma : exists (h : list (N * bool)) (ic : N) (v : bool),
    Forall (fun p => fst p < w64) h /\
    cache_lookup CACHE_SIZE (cache_run CACHE_SIZE h) ic = Some v /\
    never_under ic h.
Proof.
  exists [(0x13 + 1023 * w32, true)], 0x13, true. split; [repeat constructor|]. split; [reflexivity|].
  intros v [E|[]]. discriminate.
Qed.
