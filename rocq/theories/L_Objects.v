(** Instruction objects: every object handed out is new, and no call but the caller's own
    changes one.  Holds for every history, trace records included. *)
From Coq Require Import Arith NArith List Bool Lia ZifyBool ZifyN ZifyNat String.
From Verif Require Import M_Base M_Extract M_Decoded M_Cache M_Registry M_Trie M_Builder M_DTable.
From Verif Require Import S_Maps S_History L_History.
Import ListNotations.
Local Open Scope N_scope.

Section Objects.
Context {A U : Type} (u0 : U).
Notation dt := (dt A U).
Notation op := (op A U).

Record winv (d : dt) : Prop := mkWI {
  wi_heap : forall k, (k < dt_next d)%nat <-> dt_heap d k <> None;
  wi_out : forall k, In k (dt_out d) -> (k < dt_next d)%nat;
  wi_nodup : NoDup (dt_out d);
  wi_ic : forall i k, ln_handle (dt_ic d i) = Some k -> (k < dt_next d)%nat }.
(** No object is changed, some may be added. *)
Definition grow (d d' : dt) : Prop :=
  winv d' /\ dt_out d' = dt_out d /\ (dt_next d <= dt_next d')%nat /\
  forall k, (k < dt_next d)%nat -> dt_heap d' k = dt_heap d k.
Definition fresh (d d' : dt) (r : res nat) : Prop :=
  forall k, r = Ok k -> (dt_next d <= k < dt_next d')%nat.
Lemma grow_refl d : winv d -> grow d d.
Proof. intros H. split; [auto|]. split; [auto|]. split; [lia|auto]. Qed.
Lemma grow_trans d d' d'' : grow d d' -> grow d' d'' -> grow d d''.
Proof.
  intros (H1 & H2 & H3 & H4) (K1 & K2 & K3 & K4). split; [auto|]. split; [congruence|]. split; [lia|].
  intros k H. rewrite K4 by lia. auto.
Qed.
Lemma grow_alloc d o : winv d -> grow d (fst (alloc d o)).
Proof.
  intros [H1 H2 H3 H4]. split; [|split; [reflexivity|split; [cbn; lia|]]].
  - constructor; cbn [alloc fst dt_heap dt_next dt_out dt_ic]; auto.
    + intros k. destruct (Nat.eqb_spec k (dt_next d)) as [->|N]; [split; [discriminate|lia]|]. rewrite <- H1. lia.
    + intros k Q. apply H2 in Q. lia.
    + intros i k Q. apply H4 in Q. lia.
  - intros k Q. cbn. destruct (Nat.eqb_spec k (dt_next d)); [lia|reflexivity].
Qed.
Lemma grow_same d d' : winv d -> sameo d d' -> grow d d'.
Proof.
  intros [H1 H2 H3 H4] (S1 & S2 & S3 & S4). split; [|split; [auto|split; [lia|intros; now rewrite S2]]].
  constructor; rewrite ?S1, ?S2, ?S3, ?S4; auto.
Qed.
Lemma grow_ic d ic k : winv d -> (k < dt_next d)%nat -> grow d (set_ic d (cache_allocate CACHE_SIZE (dt_ic d) ic k)).
Proof.
  intros [H1 H2 H3 H4] L. split; [|split; [reflexivity|split; [cbn; lia|reflexivity]]].
  constructor; cbn; auto. intros i j. unfold cache_allocate. destruct (i =? _); [|apply H4]. cbn. congruence.
Qed.
Lemma copy_grow d i d' r : winv d -> copy_out d i = (d', r) -> grow d d' /\ fresh d d' r.
Proof.
  intros W. unfold copy_out. destruct (dt_heap d i) as [o|].
  - intros Q. assert (d' = fst (alloc d o)) as -> by (cbn in *; congruence). assert (r = Ok (dt_next d)) as -> by (cbn in *; congruence).
    split; [now apply grow_alloc|]. intros k [= <-]. cbn. lia.
  - intros [= <- <-]. split; [now apply grow_refl|discriminate].
Qed.
Lemma fresh_trans d d1 d' r : grow d d1 -> fresh d1 d' r -> fresh d d' r.
Proof. intros (_ & _ & L & _) F k Q. apply F in Q. lia. Qed.
Lemma info_grow d ic d' r : winv d -> get_info d ic = (d', r) -> grow d d'.
Proof. intros W H. apply get_info_same in H as (S & _). now apply grow_same. Qed.
(** A new object, cached for the opcode. *)
Definition cached_new_obj (d : dt) (ic : N) (o : obj A U) : dt :=
  set_ic (fst (alloc d o)) (cache_allocate CACHE_SIZE (dt_ic d) ic (dt_next d)).
Lemma cached_new_grow d ic o : winv d -> grow d (cached_new_obj d ic o) /\ (dt_next d < dt_next (cached_new_obj d ic o))%nat.
Proof.
  intros W. pose proof (grow_alloc d o W) as G. split; [|cbn; lia].
  apply (grow_trans _ _ _ G). apply (grow_ic (fst (alloc d o)) ic (dt_next d)); [apply G|cbn; lia].
Qed.
Lemma make_grow d ic a d' r : winv d -> make_inst u0 d ic a = (d', r) -> grow d d' /\ fresh d d' r.
Proof.
  intros W. unfold make_inst. destruct (cache_lookup CACHE_SIZE (dt_ic d) ic) as [i|]; [now apply copy_grow|].
  destruct (get_info d ic) as [d1 r1] eqn:E. apply (info_grow _ _ _ _ W) in E.
  destruct r1 as [v| | |]; try (intros [= <- <-]; split; [exact E|discriminate]).
  assert (winv d1) as W1 by apply E.
  destruct (cached_new_grow d1 ic (mkObj v a u0) W1) as [G L].
  intros H. change (copy_out (cached_new_obj d1 ic (mkObj v a u0)) (dt_next d1) = (d', r)) in H.
  apply copy_grow in H as [H1 H2]; [|apply G].
  split; [eapply grow_trans; [exact E|eapply grow_trans; eauto]|].
  eapply fresh_trans; [exact E|]. eapply fresh_trans; [exact G|exact H2].
Qed.
Lemma leaf_same (d : dt) i mn ic x d' r : leaf_get d i mn ic x = (d', r) -> sameo d d'.
Proof.
  unfold leaf_get. destruct (stash_lookup _ _ _ _ _); [intros [= <- <-]; apply sameo_refl|].
  destruct (let* f := _ in _); intros [= <- <-]; repeat split.
Qed.
Lemma trace_grow d ic mn x a d' r : winv d -> make_inst_from_trace u0 d ic mn x a = (d', r) -> grow d d' /\ fresh d d' r.
Proof.
  intros W. unfold make_inst_from_trace. destruct (make_inst u0 d ic a) as [d1 r1] eqn:E. apply (make_grow _ _ _ _ _ W) in E as [G F].
  destruct r1 as [j| | |]; try (intros [= <- <-]; split; [exact G|exact F]).
  destruct (dt_heap d1 j) as [o|]; [|intros [= <- <-]; split; [exact G|discriminate]].
  destruct (String.eqb _ mn); [intros [= <- <-]; split; [exact G|exact F]|].
  destruct (bld _ _ _ _ _ _) as [[b i]| | |]; try (intros [= <- <-]; split; [exact G|discriminate]).
  destruct (leaf_get (set_b d1 b) i mn ic x) as [d2 r2] eqn:EL. apply leaf_same in EL.
  assert (grow d1 d2) as G2.
  { apply grow_same; [apply G|]. destruct EL as (L1 & L2 & L3 & L4). repeat split; [rewrite L1|rewrite L2|rewrite L3|rewrite L4]; reflexivity. }
  destruct r2 as [v| | |]; try (intros [= <- <-]; split; [eapply grow_trans; eauto|discriminate]).
  assert (winv d2) as W2 by apply G2. destruct (cached_new_grow d2 ic (mkObj v a u0) W2) as [G3 L3].
  intros Q. assert (d' = cached_new_obj d2 ic (mkObj v a u0)) as -> by exact (f_equal fst (eq_sym Q)).
  assert (r = Ok (dt_next d2)) as -> by exact (f_equal snd (eq_sym Q)).
  pose proof (grow_trans _ _ _ G G2) as G4. split; [eapply grow_trans; eauto|].
  eapply fresh_trans; [exact G4|]. intros k [= <-]. lia.
Qed.
Lemma direct_grow d mn uid x a d' r : winv d -> make_inst_directly u0 d mn uid x a = (d', r) -> grow d d' /\ fresh d d' r.
Proof.
  intros W. unfold make_inst_directly.
  match goal with |- context [let '(_, _) := ?e in _] => destruct e as [d1 r1] eqn:E end.
  assert (sameo d d1) as S.
  { destruct (uid =? INVALID_UID); [injection E as <- _; apply sameo_refl|].
    destruct (ir_mnemonic _ uid); try (injection E as <- _; apply sameo_refl).
    destruct (find_ifact_uid _ uid) as [[b o]| | |]; injection E as <- _; repeat split. }
  pose proof (grow_same _ _ W S) as G.
  destruct r1 as [[mn' [i|]]| | |]; try (intros [= <- <-]; split; [exact G|discriminate]).
  destruct (let* f := _ in _) as [v| | |]; try (intros [= <- <-]; split; [exact G|discriminate]).
  intros Q. assert (d' = fst (alloc d1 (mkObj v a u0))) as -> by (cbn in *; congruence).
  assert (r = Ok (dt_next d1)) as -> by (cbn in *; congruence).
  split; [eapply grow_trans; [exact G|apply grow_alloc; apply G]|].
  eapply fresh_trans; [exact G|]. intros k [= <-]. cbn. lia.
Qed.

(** One call: what it hands out is new; what the caller held it still holds, unchanged unless
    named. *)
Definition steps (d d' : dt) (o : op) (a : res (ans A U)) : Prop :=
  winv d' /\ dt_out d' = (rev (handed [o] [a]) ++ dt_out d)%list /\
  forall k i, held d k = Some i -> ~ touches o k -> held d' k = Some i /\ dt_heap d' i = dt_heap d i.
Lemma held_app (d d' : dt) l : dt_out d' = (l ++ dt_out d)%list -> forall k i, held d k = Some i -> held d' k = Some i.
Proof.
  intros E k i. unfold held. rewrite E, rev_app_distr. intros H. rewrite nth_error_app1; [auto|].
  apply nth_error_Some. congruence.
Qed.
Lemma held_in (d : dt) k i : held d k = Some i -> In i (dt_out d).
Proof. unfold held. intros H. apply nth_error_In in H. now apply in_rev. Qed.
Lemma held_once (d : dt) j k i : NoDup (dt_out d) -> held d j = Some i -> held d k = Some i -> j = k.
Proof.
  unfold held. intros N H1 H2. apply NoDup_rev in N. rewrite NoDup_nth_error in N. apply N; [|congruence].
  apply nth_error_Some. congruence.
Qed.
Lemma steps_grow d d' o a : winv d -> grow d d' -> handed [o] [a] = [] -> steps d d' o a.
Proof.
  intros W (G1 & G2 & G3 & G4) H. split; [auto|]. rewrite H. split; [auto|]. intros k i Hk _. split; [now apply (held_app d d' [])|].
  apply G4. apply (wi_out _ W). eapply held_in; eauto.
Qed.
Lemma steps_lift d d' r o : winv d -> grow d d' -> fresh d d' r ->
  (match o with ORead _ => False | _ => True end) -> steps d (fst (lift_obj (d', r))) o (snd (lift_obj (d', r))).
Proof.
  intros W G F NR. destruct r as [k| | |]; try (apply steps_grow; auto; destruct o; reflexivity).
  cbn [lift_obj]. assert (dt_next d <= k < dt_next d')%nat as L by (apply F; reflexivity).
  destruct (dt_heap d' k) as [ob|]; [|apply steps_grow; auto; destruct o; reflexivity].
  destruct G as (G1 & G2 & G3 & G4). cbn [fst snd].
  assert (handed [o] [Ok (AObj k ob)] = [k]) as HH by (destruct o; try reflexivity; contradiction).
  split; [|split].
  - destruct G1 as [W1 W2 W3 W4]. constructor; cbn [hand_out dt_heap dt_next dt_out dt_ic]; auto.
    + intros j [<-|Q]; [lia|auto].
    + constructor; [|auto]. rewrite G2. intros Q. apply (wi_out _ W) in Q. lia.
  - rewrite HH. cbn. now rewrite G2.
  - intros j i Hj _. split; [apply (held_app d _ [k]); [cbn; now rewrite G2|auto]|].
    cbn. apply G4. apply (wi_out _ W). eapply held_in; eauto.
Qed.
Lemma winv_put d i o : winv d -> (i < dt_next d)%nat -> winv (put d i o).
Proof.
  intros [W1 W2 W3 W4] L. constructor; cbn; auto. intros k. destruct (Nat.eqb_spec k i) as [->|]; [|auto]. split; [discriminate|auto].
Qed.
Lemma steps_put d k i ob ob' o : winv d -> held d k = Some i -> dt_heap d i = Some ob -> touches o k ->
  steps d (put d i ob') o (Ok AUnit).
Proof.
  intros W H E T. pose proof (wi_out _ W _ (held_in _ _ _ H)) as L. split; [now apply winv_put|]. split.
  - destruct o; reflexivity.
  - intros j i' Hj NT. split; [exact Hj|]. cbn. destruct (Nat.eqb_spec i' i) as [->|]; [|reflexivity].
    assert (j = k) as -> by (eapply held_once; eauto; apply W). now elim NT.
Qed.
Lemma handed_not_obj (o : op) (a : res (ans A U)) : (forall k ob, a <> Ok (AObj k ob)) -> handed [o] [a] = [].
Proof. intros N. unfold handed. cbn. destruct o; try reflexivity; destruct a as [[]| | |]; try reflexivity; exfalso; eapply N; reflexivity. Qed.
Lemma step_steps d o : winv d -> steps d (fst (step u0 d o)) o (snd (step u0 d o)).
Proof.
  intros W. destruct o as [ic|ic a|ic mn x a|mn uid x a|k mn x| |k u|k]; cbn [step].
  - destruct (get_info d ic) as [d' r] eqn:E. apply (info_grow _ _ _ _ W) in E.
    destruct r; cbn [fst snd]; apply steps_grow; auto.
  - destruct (make_inst u0 d ic a) as [d' r] eqn:E. apply (make_grow _ _ _ _ _ W) in E as [G F]. now apply steps_lift.
  - destruct (make_inst_from_trace u0 d ic mn x a) as [d' r] eqn:E. apply (trace_grow _ _ _ _ _ _ _ W) in E as [G F]. now apply steps_lift.
  - destruct (make_inst_directly u0 d mn uid x a) as [d' r] eqn:E. apply (direct_grow _ _ _ _ _ _ _ W) in E as [G F]. now apply steps_lift.
  - destruct (held d k) as [i|] eqn:HK; [|apply steps_grow; [auto|now apply grow_refl|reflexivity]].
    unfold morph_inst. destruct (find_ifact (dt_b d) mn); [|apply steps_grow; [auto|now apply grow_refl|reflexivity]].
    destruct (let* f := _ in _) as [v| | |]; try (apply steps_grow; [auto|now apply grow_refl|reflexivity]).
    destruct (dt_heap d i) as [ob|] eqn:E; [|apply steps_grow; [auto|now apply grow_refl|reflexivity]].
    cbn [lift_unit fst snd]. eapply (steps_put d k i ob (mkObj v (ob_args ob) (ob_user ob))); eauto. reflexivity.
  - unfold flush_caches. cbn [dt_tree set_oc set_ic].
    assert (winv (set_oc (set_ic d cache_new) cache_new)) as W'.
    { destruct W. constructor; cbn; auto. discriminate. }
    assert (grow d (set_oc (set_ic d cache_new) cache_new)) as G by (split; [auto|split; [reflexivity|split; [cbn; lia|reflexivity]]]).
    destruct (flush_tree (dt_tree d)) as [fs| | |]; cbn [lift_unit fst snd]; apply steps_grow; auto.
    destruct G as (G1 & G2 & G3 & G4). split; [|auto]. destruct G1. constructor; auto.
  - destruct (held d k) as [i|] eqn:HK; [|apply steps_grow; [auto|now apply grow_refl|reflexivity]].
    destruct (dt_heap d i) as [ob|] eqn:E; [|apply steps_grow; [auto|now apply grow_refl|reflexivity]].
    cbn [fst snd]. eapply (steps_put d k i ob (mkObj (ob_info ob) (ob_args ob) u)); eauto. reflexivity.
  - destruct (held d k) as [i|]; [|apply steps_grow; [auto|now apply grow_refl|reflexivity]].
    destruct (dt_heap d i); apply steps_grow; auto; now apply grow_refl.
Qed.
Lemma handed_cons (o : op) (a : res (ans A U)) r l : handed (o :: r) (a :: l) = (handed [o] [a] ++ handed r l)%list.
Proof. unfold handed. cbn [combine flat_map]. now rewrite app_nil_r. Qed.
Lemma run_objects ops : forall d, winv d ->
  winv (fst (run u0 d ops)) /\ dt_out (fst (run u0 d ops)) = (rev (handed ops (snd (run u0 d ops))) ++ dt_out d)%list.
Proof.
  induction ops as [|o r IH]; intros d W; [split; [exact W|reflexivity]|]. cbn [run].
  destruct (step_steps d o W) as (S1 & S2 & _). destruct (step u0 d o) as [d' a]. cbn [fst snd] in *.
  destruct (IH d' S1) as [I1 I2]. destruct (run u0 d' r) as [d'' l]. cbn [fst snd] in *.
  assert (dt_out d'' = (rev (handed (o :: r) (a :: l)) ++ dt_out d)%list) as Q
    by (rewrite handed_cons, rev_app_distr, <- app_assoc, <- S2; exact I2).
  assert (H0 : handed (o :: r) [a] = handed [o] [a]) by (rewrite handed_cons; destruct r; cbn; now rewrite app_nil_r).
  destruct a; cbn [fst snd]; try (split; assumption); rewrite H0; split; auto.
Qed.
Lemma winv_new s : winv (dt_new s).
Proof. constructor; cbn; try discriminate; try tauto; [|constructor]. intros k. split; [lia|congruence]. Qed.

Lemma distinct_lemma s (ops : list op) : NoDup (handed ops (snd (run u0 (dt_new s) ops))).
Proof.
  destruct (run_objects ops (dt_new s) (winv_new s)) as [W E]. cbn [dt_out dt_new] in E. rewrite app_nil_r in E.
  pose proof (wi_nodup _ W) as N. rewrite E in N. apply NoDup_rev in N. now rewrite rev_involutive in N.
Qed.
Lemma read_step (d : dt) k : snd (step u0 d (ORead k)) =
  match held d k with Some i => match dt_heap d i with Some o => Ok (AObj i o) | None => UB end | None => Ok AUnit end.
Proof. cbn [step]. destruct (held d k) as [i|]; [destruct (dt_heap d i)|]; reflexivity. Qed.
Lemma reads_lemma s (ops ops' : list op) k ob : Forall (fun o => ~ touches o k) ops' ->
  snd (step u0 (fst (run u0 (dt_new s) ops)) (ORead k)) = Ok ob -> ob <> AUnit ->
  snd (step u0 (fst (run u0 (fst (run u0 (dt_new s) ops)) ops')) (ORead k)) = Ok ob.
Proof.
  destruct (run_objects ops (dt_new s) (winv_new s)) as [W _]. revert W. generalize (fst (run u0 (dt_new s) ops)). intros d W F.
  revert d W. induction F as [|o r NT _ IH]; intros d W H N; [exact H|]. cbn [run].
  destruct (step_steps d o W) as (W' & _ & K). specialize (IH (fst (step u0 d o)) W').
  assert (snd (step u0 (fst (step u0 d o)) (ORead k)) = Ok ob) as H'.
  { rewrite read_step in *. destruct (held d k) as [i|] eqn:HK; [|congruence]. specialize (K k i HK NT) as [-> ->]. exact H. }
  specialize (IH H' N). destruct (step u0 d o) as [d' a]. cbn [fst snd] in *.
  destruct (run u0 d' r) as [d'' l]. destruct a; cbn [fst] in *; auto.
Qed.

(** *** Without trace records a cached object is never one the caller holds *)
Notation make d ic a := (make_inst u0 d ic a).
Lemma put_oinv (d : dt) i o : oinv d -> dt_heap d i <> None -> oinv (put d i o).
Proof.
  intros [H1 H2 H3 H4] N. constructor; cbn; auto. intros k. destruct (Nat.eqb_spec k i) as [->|]; [|auto].
  split; [discriminate|]. intros _. now apply H1.
Qed.
Lemma lift_oinv (d d' : dt) r : oinv d -> makes d d' r -> oinv (fst (lift_obj (d', r))).
Proof.
  intros O (M1 & M2 & M3 & M4). destruct r as [k| | |]; try exact M1. cbn [lift_obj].
  destruct M4 as (K1 & K2 & K3). destruct (dt_heap d' k) eqn:E; [|exact M1]. destruct M1 as [H1 H2 H3 H4].
  constructor; cbn [fst hand_out dt_heap dt_next dt_out dt_ic]; auto.
  - intros j [<-|Q]; [apply H1; congruence|auto].
  - constructor; [|auto]. rewrite M2. intros Q. apply (oi_out _ O) in Q. apply (oi_heap _ O) in Q. congruence.
  - intros i j Q. split; [now apply (H4 i)|]. intros [->|Q']; [now apply K3 in Q|]. now apply (H4 i j Q).
Qed.
Lemma step_oinv d (o : op) : oinv d -> no_trace o -> oinv (fst (step u0 d o)).
Proof.
  intros O NT. destruct o as [ic|ic a|ic mn x a|mn uid x a|k mn x| |k u|k]; cbn [step no_trace] in *; try contradiction.
  - destruct (get_info d ic) as [d' r] eqn:E. apply get_info_same in E as (S & _). pose proof (sameo_oinv _ _ S O). destruct r; auto.
  - destruct (make d ic a) as [d' r] eqn:E. apply (make_makes u0 (dt_b d, dt_tree d)) in E; [|exact O]. apply (lift_oinv d d' r O E).
  - destruct (make_inst_directly u0 d mn uid x a) as [d' r] eqn:E. apply (direct_makes u0 (dt_b d, dt_tree d)) in E; [|exact O]. apply (lift_oinv d d' r O E).
  - destruct (held d k) as [i|] eqn:HK; [|exact O]. unfold morph_inst. destruct (find_ifact _ _); [|exact O].
    destruct (let* f := _ in _); try exact O. destruct (dt_heap d i) eqn:E; [|exact O]. apply put_oinv; [exact O|congruence].
  - unfold flush_caches. cbn [dt_tree set_oc set_ic]. destruct (flush_tree _); cbn; destruct O; constructor; cbn; auto; discriminate.
  - destruct (held d k) as [i|] eqn:HK; [|exact O]. destruct (dt_heap d i) eqn:E; [|exact O]. apply put_oinv; [exact O|congruence].
  - destruct (held d k) as [i|] eqn:HK; [|exact O]. destruct (dt_heap d i); exact O.
Qed.
Lemma run_oinv (ops : list op) : forall d, oinv d -> Forall no_trace ops -> oinv (fst (run u0 d ops)).
Proof.
  induction ops as [|o r IH]; intros d O F; [exact O|]. inversion F as [|? ? F1 F2]; subst. cbn [run].
  pose proof (step_oinv d o O F1) as O'. destruct (step u0 d o) as [d' a]. specialize (IH d' O' F2). cbn [fst] in *.
  destruct (run u0 d' r) as [d'' l]. destruct a; auto.
Qed.
(** Changing an object and making an instruction. *)
Lemma leaf_get_put (d : dt) j ob i mn ic x : leaf_get (put d j ob) i mn ic x =
  (put (fst (leaf_get d i mn ic x)) j ob, snd (leaf_get d i mn ic x)).
Proof.
  unfold leaf_get. cbn [put set_heap dt_stash dt_b]. destruct (stash_lookup _ _ _ _ _); [reflexivity|].
  destruct (let* f := _ in _); reflexivity.
Qed.
Lemma get_info_put (d : dt) j ob ic : get_info (put d j ob) ic = (put (fst (get_info d ic)) j ob, snd (get_info d ic)).
Proof.
  unfold get_info. cbn [put set_heap dt_oc]. destruct (cache_lookup _ _ _); [reflexivity|].
  fold (put d j ob). unfold tree_get. cbn [put set_heap dt_tree]. fold (put d j ob).
  destruct (tree_sel _ ic) as [[mn p]| | |]; try reflexivity. destruct (x_illop _ ic) as [[]| | |]; try reflexivity.
  rewrite leaf_get_put. destruct (leaf_get d _ _ _ _) as [d' [v| | |]]; reflexivity.
Qed.
Lemma make_put (d : dt) j ob ic a : oinv d -> In j (dt_out d) ->
  snd (step u0 (put d j ob) (OMake ic a)) = snd (step u0 d (OMake ic a)).
Proof.
  intros O HJ. cbn [step]. unfold make_inst. cbn [put set_heap dt_ic]. fold (put d j ob).
  destruct (cache_lookup CACHE_SIZE (dt_ic d) ic) as [i|] eqn:E.
  - assert (i <> j) as N.
    { unfold cache_lookup in E. destruct (ln_handle (dt_ic d (cache_hash CACHE_SIZE ic))) as [i'|] eqn:E'; [|discriminate].
      destruct (_ =? ic); [|discriminate]. injection E as ->. apply (oi_ic _ O) in E' as [_ E']. congruence. }
    unfold copy_out. cbn [put set_heap dt_heap]. destruct (Nat.eqb_spec i j); [contradiction|].
    destruct (dt_heap d i) as [o|]; [|reflexivity]. cbn. now rewrite !Nat.eqb_refl.
  - rewrite get_info_put. destruct (get_info d ic) as [d' [v| | |]] eqn:EG; cbn [fst snd]; try reflexivity.
    apply get_info_same in EG as ((_ & _ & S3 & S4) & _). cbn.
    assert (dt_next d' <> j) as N by (apply (oi_out _ O) in HJ; rewrite S3; lia).
    unfold copy_out, set_ic. cbn [dt_heap]. repeat (rewrite ?Nat.eqb_refl; cbn [dt_heap dt_next alloc lift_obj snd]). reflexivity.
Qed.
Lemma morph_step (d : dt) k mn x : step u0 d (OMorph k mn x) =
  match held d k with Some i => lift_unit (morph_inst d i mn x) | None => (d, Ok AUnit) end.
Proof. reflexivity. Qed.
Lemma mutate_step (d : dt) k u : step u0 d (OMutate k u) =
  match held d k with
  | Some i => match dt_heap d i with
              | None => (d, UB)
              | Some o => (put d i (mkObj (ob_info o) (ob_args o) u), Ok AUnit)
              end
  | None => (d, Ok AUnit)
  end.
Proof. reflexivity. Qed.
Lemma private_lemma s (ops : list op) o ic a : Forall no_trace ops ->
  (match o with OMutate _ _ | OMorph _ _ _ => True | _ => False end) ->
  let d := fst (run u0 (dt_new s) ops) in
  snd (step u0 (fst (step u0 d o)) (OMake ic a)) = snd (step u0 d (OMake ic a)).
Proof.
  intros F T. pose proof (run_oinv ops (dt_new s) (oinv_new s) F) as O. cbv zeta. revert O. generalize (fst (run u0 (dt_new s) ops)).
  intros d O. destruct o as [ | | | |k mn x| |k u|k]; try contradiction; rewrite ?morph_step, ?mutate_step.
  - destruct (held d k) as [i|] eqn:HK; [|reflexivity]. unfold morph_inst. destruct (find_ifact _ _); [|reflexivity].
    destruct (let* f := _ in _) as [v| | |]; try reflexivity. destruct (dt_heap d i) as [ob|] eqn:E; [|reflexivity].
    cbn [lift_unit fst]. apply (make_put d i (mkObj v (ob_args ob) (ob_user ob)) ic a O). eapply held_in; eauto.
  - destruct (held d k) as [i|] eqn:HK; [|reflexivity]. destruct (dt_heap d i) as [ob|] eqn:E; [|reflexivity].
    cbn [fst]. apply (make_put d i (mkObj (ob_info ob) (ob_args ob) u) ic a O). eapply held_in; eauto.
Qed.
End Objects.
