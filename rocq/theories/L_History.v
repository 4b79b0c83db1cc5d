(** Histories of calls on a decoder (C08-C12). *)
From Coq Require Import NArith ZArith Arith List Bool String Lia.
From Verif Require Import M_Base M_Field M_Forms M_Meta M_Extract M_Decoded M_Cache M_Registry M_Trie M_Builder M_DTable.
From Verif Require Import S_Bits S_Maps S_Trie S_Table S_History L_Cache L_Registry L_Uids L_Table L_Calm L_Decode L_Ids.
Import ListNotations.
Local Open Scope N_scope.

(** ** The UID stash of a configured builder is empty *)
Lemma upd_fact_stash b i g b' : upd_fact b i g = Ok b' -> b_stash b' = b_stash b.
Proof. intros H. apply upd_fact_inv in H as (f & _ & ->). reflexivity. Qed.
Lemma register_stash b mn b' u : register_inst b mn = Ok (b', u) -> b_stash b' = b_stash b.
Proof. intros H. apply register_inst_inv in H. tauto. Qed.
Lemma bld_stash b mn fname xp st m b' i : bld b mn fname xp st m = Ok (b', i) -> b_stash b' = b_stash b.
Proof.
  unfold bld. destruct (String.eqb xp "").
  - match goal with |- context [let (_, _) := ?e in _] => destruct e as [b1 j] eqn:E1 end.
    assert (b_stash b1 = b_stash b) as S1.
    { destruct (find_ifact b fname); [congruence|]. unfold new_fact in E1. injection E1 as <- _. reflexivity. }
    set (b2 := if String.eqb mn fname then b1 else _).
    assert (b_stash b2 = b_stash b) as S2 by (unfold b2; destruct (String.eqb mn fname); exact S1).
    destruct (upd_fact b2 j _) as [b3| | |] eqn:E3; cbn [rbind]; try discriminate. apply upd_fact_stash in E3.
    destruct (register_inst b3 mn) as [[b4 u]| | |] eqn:E4; cbn [rbind]; try discriminate. apply register_stash in E4.
    destruct (upd_fact b4 j _) as [b5| | |] eqn:E5; cbn [rbind]; try discriminate. apply upd_fact_stash in E5.
    intros H. assert (b' = b5) as -> by congruence. congruence.
  - destruct (find_ifact b xp) as [j|]; [|discriminate]. destruct (ir_alias _ _ _ _) as [ir| | |]; cbn [rbind]; try discriminate.
    set (b2 := set_inst _ _ _).
    destruct (upd_fact b2 j _) as [b3| | |] eqn:E3; cbn [rbind]; try discriminate. apply upd_fact_stash in E3.
    destruct (upd_fact b3 j _) as [b4| | |] eqn:E4; cbn [rbind]; try discriminate. apply upd_fact_stash in E4.
    intros H. assert (b' = b4) as -> by congruence. rewrite E4, E3. reflexivity.
Qed.
Lemma overlay_stash b mn o r x b' : build_overlay b mn o r x = Ok b' -> b_stash b' = b_stash b.
Proof.
  unfold build_overlay. destruct (overlay_parse o) as [[[base mask] v]| | |]; cbn [rbind]; try discriminate.
  destruct (mfind (b_metas b) base); [|discriminate]. destruct (meta_overrides _ _ _); cbn [rbind]; try discriminate.
  destruct (register_inst b mn) as [[b1 u]| | |] eqn:E; cbn [rbind]; try discriminate. apply register_stash in E.
  match goal with |- context [if ?c then Throw _ else _] => destruct c; [discriminate|] end.
  destruct (find_ifact b1 base); [|discriminate]. intros H. apply upd_fact_stash in H. congruence.
Qed.
Lemma custom_stash b mn ts b' : add_custom b mn ts = Ok b' -> b_stash b' = b_stash b.
Proof.
  unfold add_custom, new_fact. set (b2 := set_reg _ _).
  destruct (register_inst b2 mn) as [[b3 u]| | |] eqn:E; cbn [rbind]; try discriminate. apply register_stash in E.
  intros H. apply upd_fact_stash in H. rewrite H, E. reflexivity.
Qed.
Lemma configured_stash uids annos nu incl excl recs s : make_decoder uids annos nu incl excl recs = Ok s ->
  b_stash (fst s) = dk_new INITIAL_SIZE DEFAULT_UP_SIZE.
Proof.
  intros H. unfold make_decoder in H. destruct (builder_new uids annos nu) as [b0| | |] eqn:E; cbn [rbind] in H; try discriminate.
  assert (b_stash b0 = dk_new INITIAL_SIZE DEFAULT_UP_SIZE) as S0.
  { unfold builder_new in E. destruct (ir_new uids nu) as [[nu1 ir]| | |]; cbn [rbind] in E; try discriminate.
    set (b1 := mkB _ _ _ _ _ _ _) in E. destruct (add_custom b1 "nop" _) as [b2| | |] eqn:E1; cbn [rbind] in E; try discriminate.
    apply custom_stash in E1, E. rewrite E, E1. reflexivity. }
  destruct (configure_keep (fun _ b => b_stash b = dk_new INITIAL_SIZE DEFAULT_UP_SIZE)
    (fun _ _ _ _ Q => Q)
    (fun _ b r mn st m b' i _ Q H => eq_trans (bld_stash b mn _ _ st m b' i H) Q)
    (fun _ b r mn o x b' _ _ Q H => eq_trans (overlay_stash b mn o r x b' H) Q)
    incl excl recs [] (b0, tree_new) s S0 H) as (P & Q & _). exact Q.
Qed.

(** ** Lookup by UID *)
Record stash_ok (b : builder) : Prop := mkSO {
  so_vec : da_ok (dk_vec (b_stash b));
  so_up : da_up (dk_vec (b_stash b)) = DEFAULT_UP_SIZE;
  so_slot : forall u i, da_slot (dk_vec (b_stash b)) u = Some i ->
    exists mn, ir_mnemonic (b_inst b) u = Ok mn /\ find_ifact b mn = Some i;
  so_map : forall mn i, mfind (dk_map (b_stash b)) mn = Some i ->
    exists u j, da_slot (dk_vec (b_stash b)) u = Some j /\ ir_mnemonic (b_inst b) u = Ok mn }.
Definition named_once (r : instreg) : Prop := forall u u' mn, ir_mnemonic r u = Ok mn -> ir_mnemonic r u' = Ok mn -> u = u'.
Lemma ir_mnemonic_slot r u mn : ir_mnemonic r u = Ok mn -> da_slot (ir_arr r) u = Some mn.
Proof. unfold ir_mnemonic, da_lookup. destruct (u <? _); [|discriminate]. destruct (da_slot _ u); [|discriminate]. congruence. Qed.
Lemma reg_named_once al nu r : reg_ok al nu r -> named_once r.
Proof.
  intros R u u' mn H H'. apply ir_mnemonic_slot, (ro_back _ _ _ R) in H. apply ir_mnemonic_slot, (ro_back _ _ _ R) in H'. congruence.
Qed.
Lemma stash_ok_empty b : b_stash b = dk_new INITIAL_SIZE DEFAULT_UP_SIZE -> stash_ok b.
Proof.
  intros E. split; rewrite E; cbn; try discriminate; [|reflexivity]. apply da_new_ok. reflexivity.
Qed.
Lemma da_contains_slot {T} (a : dynarray T) k : da_ok a -> da_contains a k = true <-> da_slot a k <> None.
Proof.
  intros [_ B]. unfold da_contains. destruct (da_slot a k) as [v|] eqn:E.
  - apply B in E. rewrite andb_true_r, N.ltb_lt. split; [discriminate|auto].
  - rewrite andb_false_r. split; [discriminate|congruence].
Qed.
Lemma find_uid_ok b u mn : stash_ok b -> named_once (b_inst b) -> u + DEFAULT_UP_SIZE < w32 -> ir_mnemonic (b_inst b) u = Ok mn ->
  exists st, stash_ok (set_stash b st) /\ find_ifact_uid b u = Ok (set_stash b st, find_ifact b mn).
Proof.
  intros [V P S M] N L E. unfold find_ifact_uid. change (dk_contains_n (b_stash b) u) with (da_contains (dk_vec (b_stash b)) u).
  assert (b = set_stash b (b_stash b)) as BB by (destruct b; reflexivity).
  destruct (da_contains _ u) eqn:C.
  - unfold da_contains in C. apply andb_true_iff in C as [C1 C2]. unfold dk_lookup_n. rewrite C1.
    destruct (da_slot (dk_vec (b_stash b)) u) as [i|] eqn:SL; [|discriminate]. cbn [rbind].
    destruct (S _ _ SL) as (mn' & E' & F). assert (mn' = mn) as -> by congruence.
    exists (b_stash b). rewrite <- BB, F. split; [split; auto|reflexivity].
  - rewrite E. cbn [rbind]. destruct (find_ifact b mn) as [i|] eqn:F.
    2:{ exists (b_stash b). rewrite <- BB. split; [split; auto|reflexivity]. }
    assert (SN : da_slot (dk_vec (b_stash b)) u = None).
    { destruct (da_slot _ u) eqn:SL; [|reflexivity]. assert (da_contains (dk_vec (b_stash b)) u = true) by (apply da_contains_slot; congruence). congruence. }
    unfold dk_add. destruct (mfind (dk_map (b_stash b)) mn) as [j|] eqn:MF.
    { destruct (M _ _ MF) as (u' & j' & Q1 & Q2). assert (u' = u) as -> by exact (N _ _ _ Q2 E). congruence. }
    destruct (da_add_ok (dk_vec (b_stash b)) u i V) as (vec & AD); [rewrite P; exact L|rewrite P; reflexivity|].
    rewrite AD. cbn [rbind]. eexists. split; [|reflexivity].
    apply (da_add_spec _ _ _ _ V) in AD as (V' & _ & UP & _ & SL).
    split; cbn [b_stash set_stash dk_vec dk_map b_inst]; auto; [congruence| |].
    + intros k j. rewrite SL. destruct (N.eqb_spec k u) as [->|NE]; [|apply S].
      intros Q. assert (i = j) as <- by congruence. eauto.
    + intros m j. unfold madd. cbn [mfind]. destruct (String.eqb_spec mn m) as [<-|NM].
      * intros _. exists u, i. rewrite SL, N.eqb_refl. auto.
      * intros Q. destruct (M _ _ Q) as (u' & j' & Q1 & Q2). exists u', j'. split; [|exact Q2]. rewrite SL.
        destruct (N.eqb_spec u' u) as [->|]; [congruence|exact Q1].
Qed.

(** ** Caches and stashes as sets of stored pairs *)
Definition line_all {V} (P : N -> V -> Prop) (c : cache V) : Prop :=
  forall i v, ln_handle (c i) = Some v -> exists ic, ic < cache_bound /\ i = cache_hash CACHE_SIZE ic /\ ln_tag (c i) = u32 ic /\ P ic v.
Lemma line_all_new {V} (P : N -> V -> Prop) : line_all P cache_new.
Proof. intros i v. discriminate. Qed.
Lemma line_all_alloc {V} (P : N -> V -> Prop) c ic v : ic < cache_bound -> P ic v -> line_all P c -> line_all P (cache_allocate CACHE_SIZE c ic v).
Proof.
  intros B H L i w. unfold cache_allocate. destruct (N.eqb_spec i (cache_hash CACHE_SIZE ic)) as [->|]; [|apply L].
  cbn [ln_handle ln_tag]. intros Q. assert (v = w) as <- by congruence. eauto.
Qed.
Lemma line_all_hit {V} (P : N -> V -> Prop) c ic v : ic < cache_bound -> line_all P c -> cache_lookup CACHE_SIZE c ic = Some v -> P ic v.
Proof.
  intros B L. unfold cache_lookup. destruct (ln_handle _) as [w|] eqn:E; [|discriminate].
  destruct (N.eqb_spec (ln_tag (c (cache_hash CACHE_SIZE ic))) ic) as [T|]; [|discriminate]. intros Q. assert (w = v) as -> by congruence.
  destruct (L _ _ E) as (jc & B' & H1 & H2 & H3). rewrite !cache_hash_small in H1.
  assert (jc = ic) as ->; [|exact H3]. apply tag_line_unique; auto. rewrite <- H2, T. unfold u32.
  rewrite T in H2. rewrite N.mod_small; [reflexivity|]. rewrite H2. apply u32_lt.
Qed.
Lemma line_all_impl {V} (P Q : N -> V -> Prop) c : (forall ic v, P ic v -> Q ic v) -> line_all P c -> line_all Q c.
Proof. intros I L i v H. destruct (L i v H) as (ic & H1 & H2 & H3 & H4). exists ic. auto. Qed.

Definition node_all {V} (P : N -> V -> Prop) (n : snode V) : Prop := match n with Some (k, v) => P k v | None => True end.
Definition stash_all {V} (P : N -> V -> Prop) (s : stash V) : Prop :=
  node_all P (st_mru s) /\ (forall i, node_all P (st_hash s i)) /\ forall i, node_all P (st_map s i).
Lemma stash_all_new {V} (P : N -> V -> Prop) : stash_all P stash_new.
Proof. repeat split. Qed.
Lemma stash_all_set {V} (P : N -> V -> Prop) a b f s k v : P k v -> stash_all P s -> stash_all P (stash_set a b f s k v).
Proof.
  intros H (S1 & S2 & S3). repeat split; cbn; auto; intros i; [destruct (i =? _ mod a)|destruct (i =? _ mod b)]; cbn; auto.
Qed.
Lemma snode_all_get {V} (P : N -> V -> Prop) n k v : node_all P n -> snode_get n k = Some v -> P k v.
Proof.
  destruct n as [[k' w]|]; cbn; [|discriminate]. intros H. destruct (N.eqb_spec k' k) as [->|]; [|discriminate]. congruence.
Qed.
Lemma stash_all_hit {V} (P : N -> V -> Prop) a b f s k v : stash_all P s -> stash_lookup a b f s k = Some v -> P k v.
Proof.
  intros (S1 & S2 & S3) E. unfold stash_lookup in E.
  destruct (snode_get (st_mru s) k) eqn:E1; [assert (v0 = v) as -> by congruence; eapply snode_all_get; eauto|].
  destruct (snode_get (st_hash s _) k) eqn:E2; [assert (v0 = v) as -> by congruence; eapply snode_all_get; [|exact E2]; auto|].
  eapply snode_all_get; [|exact E]; auto.
Qed.

(** ** The invariant *)
Section Inv.
Context {A U : Type} (u0 : U) (s : builder * tree).
Notation dt := (dt A U).
Let pure := pure_info (fst s) (snd s).
Context (SU : named_once (b_inst (fst s))).

(** The parts of the state concerned with decode information. *)
Record hinv (d : dt) : Prop := mkHI {
  hi_tree : dt_tree d = snd s;
  hi_facts : b_facts (dt_b d) = b_facts (fst s);
  hi_reg : b_reg (dt_b d) = b_reg (fst s);
  hi_inst : b_inst (dt_b d) = b_inst (fst s);
  hi_stash : stash_ok (dt_b d);
  hi_oc : line_all (fun ic v => pure ic = Ok v) (dt_oc d);
  hi_xs : forall i, stash_all (fun ic v => pure ic = Ok v) (dt_stash d i) }.
(** The objects: allocated below [dt_next]; a cached one is not held by the caller and is as
    it was made. *)
Record oinv (d : dt) : Prop := mkOI {
  oi_heap : forall k, (k < dt_next d)%nat <-> dt_heap d k <> None;
  oi_out : forall k, In k (dt_out d) -> (k < dt_next d)%nat;
  oi_nodup : NoDup (dt_out d);
  oi_ic : forall i k, ln_handle (dt_ic d i) = Some k -> (k < dt_next d)%nat /\ ~ In k (dt_out d) }.
Definition cached_ok (d : dt) : Prop :=
  line_all (fun ic k => exists v a, pure ic = Ok v /\ dt_heap d k = Some (mkObj v a u0)) (dt_ic d).

Lemma hinv_new : stash_ok (fst s) -> hinv (dt_new s).
Proof. intros H. constructor; try reflexivity; try exact H; [apply line_all_new|intros; apply stash_all_new]. Qed.
Lemma oinv_new : oinv (dt_new s).
Proof.
  constructor; cbn; try (intros; tauto); try discriminate; [|constructor]. intros k. split; [lia|congruence].
Qed.
Lemma cached_new : cached_ok (dt_new s).
Proof. apply line_all_new. Qed.

(** Same objects. *)
Definition sameo (d d' : dt) : Prop :=
  dt_ic d' = dt_ic d /\ dt_heap d' = dt_heap d /\ dt_next d' = dt_next d /\ dt_out d' = dt_out d.
Lemma sameo_refl d : sameo d d.
Proof. repeat split. Qed.
Lemma sameo_oinv d d' : sameo d d' -> oinv d -> oinv d'.
Proof. intros (E1 & E2 & E3 & E4) []. constructor; rewrite ?E1, ?E2, ?E3, ?E4; auto. Qed.
Lemma sameo_cached d d' : sameo d d' -> cached_ok d -> cached_ok d'.
Proof. intros (E1 & E2 & E3 & E4). unfold cached_ok. rewrite E1, E2. auto. Qed.

Lemma get_info_same d ic d' r : get_info d ic = (d', r) -> sameo d d' /\ dt_b d' = dt_b d /\ dt_tree d' = dt_tree d.
Proof.
  unfold get_info. destruct (cache_lookup _ _ ic); [intros [= <- <-]; repeat split|].
  unfold tree_get. destruct (tree_sel (dt_tree d) ic) as [[mn p]| | |]; try (intros [= <- <-]; repeat split).
  destruct (x_illop _ ic) as [[]| | |]; try (intros [= <- <-]; repeat split).
  unfold leaf_get. destruct (stash_lookup _ _ _ _ ic); [intros [= <- <-]; repeat split|].
  destruct (let* f := _ in _); intros [= <- <-]; repeat split.
Qed.
Lemma get_info_ok d ic d' r : hinv d -> ic < cache_bound -> get_info d ic = (d', r) -> hinv d' /\ r = pure ic.
Proof.
  intros H B. pose proof H as [T F R I S O X]. unfold get_info. destruct (cache_lookup _ _ ic) as [v|] eqn:EC.
  { intros [= <- <-]. split; [exact H|]. symmetry. exact (line_all_hit _ _ _ _ B O EC). }
  assert (forall dd rr, tree_get d ic = (dd, rr) -> hinv dd /\ rr = pure ic) as TG.
  { intros dd rr. unfold tree_get, pure, pure_info. rewrite T. destruct (tree_sel (snd s) ic) as [[mn p]| | |] eqn:ET; cbn [rbind];
      try (intros [= <- <-]; split; [exact H|reflexivity]).
    destruct (x_illop _ ic) as [[]| | |] eqn:EI; cbn [rbind]; try (intros [= <- <-]; split; [exact H|reflexivity]).
    unfold leaf_get. destruct (stash_lookup _ _ _ _ ic) as [v|] eqn:ES.
    - intros [= <- <-]. split; [exact H|]. pose proof (stash_all_hit _ _ _ _ _ _ _ (X _) ES) as Q. cbv beta in Q.
      unfold pure, pure_info in Q. rewrite ET in Q. cbn [rbind] in Q. rewrite EI in Q. cbn [rbind] in Q. symmetry. exact Q.
    - assert (get_fact (dt_b d) (pay_fact p) = get_fact (fst s) (pay_fact p)) as -> by (unfold get_fact; now rewrite F).
      destruct (let* f := _ in _) as [v| | |] eqn:EL; intros [= <- <-]; (split; [|reflexivity]); try exact H.
      constructor; cbn; auto. intros i. destruct (Nat.eqb i (pay_fact p)); [|apply X].
      apply stash_all_set; [|apply X]. unfold pure, pure_info. rewrite ET. cbn [rbind]. rewrite EI. exact EL. }
  destruct (tree_get d ic) as [d1 r1] eqn:E1. destruct (TG _ _ eq_refl) as [H1 ->].
  destruct (pure ic) as [v| | |] eqn:EP; intros [= <- <-]; (split; [|reflexivity]); try exact H1.
  destruct H1. constructor; cbn; auto. apply line_all_alloc; auto.
Qed.

Lemma alloc_oinv d o : oinv d -> oinv (fst (alloc d o)).
Proof.
  intros [H1 H2 H3 H4]. constructor; cbn [alloc fst dt_heap dt_next dt_out dt_ic]; auto.
  - intros k. destruct (Nat.eqb_spec k (dt_next d)) as [->|N]; [split; [discriminate|lia]|]. rewrite <- H1. lia.
  - intros k Q. apply H2 in Q. lia.
  - intros i k Q. destruct (H4 i k Q). split; [lia|auto].
Qed.
Lemma alloc_hinv d o : hinv d -> hinv (fst (alloc d o)).
Proof. intros []. constructor; cbn; auto. Qed.
Lemma alloc_cached d o : oinv d -> cached_ok d -> cached_ok (fst (alloc d o)).
Proof.
  intros H C. unfold cached_ok in *. cbn [dt_ic dt_heap alloc fst].
  intros i k Q. destruct (C i k Q) as (ic & H1 & H2 & H3 & v & a & H4 & H5). exists ic. repeat split; auto.
  exists v, a. split; [exact H4|]. destruct (Nat.eqb_spec k (dt_next d)) as [->|]; [|exact H5].
  assert (dt_next d < dt_next d)%nat; [|lia]. apply (oi_heap _ H). congruence.
Qed.
Lemma alloc_kept d o k : oinv d -> dt_heap d k <> None -> dt_heap (fst (alloc d o)) k = dt_heap d k.
Proof.
  intros H N. cbn. destruct (Nat.eqb_spec k (dt_next d)) as [->|]; [|reflexivity].
  exfalso. apply (oi_heap _ H) in N. lia.
Qed.

(** What a call that makes an object does: the object is new, the rest of the heap is as
    before, and the caller holds what it held. *)
Definition makes (d d' : dt) (r : res nat) : Prop :=
  oinv d' /\ dt_out d' = dt_out d /\ (forall k, dt_heap d k <> None -> dt_heap d' k = dt_heap d k) /\
  match r with
  | Ok k => dt_heap d k = None /\ dt_heap d' k <> None /\ forall i, ln_handle (dt_ic d' i) <> Some k
  | UB => True
  | _ => True
  end.
Lemma sameo_makes_err d d' r : oinv d -> sameo d d' -> (forall k, r <> Ok k) -> makes d d' r.
Proof.
  intros O S N. split; [eapply sameo_oinv; eauto|]. destruct S as (S1 & S2 & S3 & S4). split; [auto|].
  split; [intros; now rewrite S2|]. destruct r; auto. exfalso. eapply N; reflexivity.
Qed.
Lemma copy_makes d i d' r : oinv d -> copy_out d i = (d', r) -> makes d d' r /\
  (forall o, dt_heap d i = Some o -> exists k, r = Ok k /\ dt_heap d' k = Some o).
Proof.
  intros O. unfold copy_out. destruct (dt_heap d i) as [o|] eqn:E.
  - cbn. intros Q. assert (d' = fst (alloc d o)) as -> by (cbn; congruence). assert (r = Ok (dt_next d)) as -> by congruence.
    split.
    + split; [now apply alloc_oinv|]. split; [reflexivity|]. split; [intros; now apply alloc_kept|].
      split; [|split].
      * destruct (dt_heap d (dt_next d)) eqn:Q'; [|reflexivity]. assert (dt_next d < dt_next d)%nat by (apply (oi_heap _ O); congruence). lia.
      * cbn. rewrite Nat.eqb_refl. discriminate.
      * intros j Q'. cbn in Q'. apply (oi_ic _ O) in Q'. lia.
    + intros o' Q'. exists (dt_next d). split; [auto|]. cbn. rewrite Nat.eqb_refl. exact Q'.
  - intros [= <- <-]. split; [apply sameo_makes_err; [auto|apply sameo_refl|discriminate]|discriminate].
Qed.
Lemma make_makes d ic a d' r : oinv d -> make_inst u0 d ic a = (d', r) -> makes d d' r.
Proof.
  intros O. unfold make_inst. destruct (cache_lookup CACHE_SIZE (dt_ic d) ic) as [i|].
  { intros H. now apply copy_makes in H as [H _]. }
  destruct (get_info d ic) as [d1 r1] eqn:E. apply get_info_same in E as (S & _).
  destruct r1 as [v| | |]; try (intros [= <- <-]; apply sameo_makes_err; [auto|auto|discriminate]).
  pose proof (sameo_oinv _ _ S O) as O1.
  assert (alloc d1 (mkObj v a u0) = (fst (alloc d1 (mkObj v a u0)), dt_next d1)) as EA by reflexivity.
  rewrite EA. remember (fst (alloc d1 (mkObj v a u0))) as d2 eqn:E2. clear EA.
  pose proof (alloc_oinv d1 (mkObj v a u0) O1) as O2. rewrite <- E2 in O2.
  assert (O3 : oinv (set_ic d2 (cache_allocate CACHE_SIZE (dt_ic d2) ic (dt_next d1)))).
  { destruct O2 as [P1 P2 P3 P4]. constructor; cbn [dt_heap dt_next dt_out dt_ic set_ic]; auto.
    intros j k. unfold cache_allocate. destruct (j =? _); [|apply P4]. cbn [ln_handle]. intros [= <-]. subst d2. cbn.
    split; [lia|]. intros Q. apply (oi_out _ O1) in Q. lia. }
  intros H. apply (copy_makes _ _ _ _ O3) in H as [(K1 & K2 & K3 & K4) _].
  destruct S as (S1 & S2 & S3 & S4). subst d2.
  assert (forall k, dt_heap d k <> None -> dt_heap (fst (alloc d1 (mkObj v a u0))) k = dt_heap d k) as HK.
  { intros k N. rewrite <- S2 in N. rewrite alloc_kept; auto. now rewrite S2. }
  split; [exact K1|]. split; [rewrite K2; exact S4|]. split.
  - intros k N. rewrite K3; [exact (HK k N)|]. cbn [set_ic dt_heap]. rewrite HK; auto.
  - destruct r as [k| | |]; auto. destruct K4 as (K4 & K5 & K6). split; [|auto].
    destruct (dt_heap d k) eqn:Q; [|reflexivity]. cbn [set_ic dt_heap] in K4. rewrite HK in K4; congruence.
Qed.
Lemma direct_makes d mn uid x a d' r : oinv d -> make_inst_directly u0 d mn uid x a = (d', r) -> makes d d' r.
Proof.
  intros O. unfold make_inst_directly.
  match goal with |- context [let '(_, _) := ?e in _] => destruct e as [d1 r1] eqn:E end.
  assert (sameo d d1) as S.
  { destruct (uid =? INVALID_UID); [injection E as <- _; apply sameo_refl|].
    destruct (ir_mnemonic _ uid); try (injection E as <- _; apply sameo_refl).
    destruct (find_ifact_uid _ uid) as [[b o]| | |]; injection E as <- _; repeat split. }
  pose proof (sameo_oinv _ _ S O) as O1.
  destruct r1 as [[mn' [i|]]| | |]; try (intros [= <- <-]; apply sameo_makes_err; [auto|auto|discriminate]).
  destruct (let* f := _ in _) as [v| | |]; try (intros [= <- <-]; apply sameo_makes_err; [auto|auto|discriminate]).
  intros Q. assert (d' = fst (alloc d1 (mkObj v a u0))) as -> by (cbn in *; congruence).
  assert (r = Ok (dt_next d1)) as -> by (cbn in *; congruence).
  destruct S as (S1 & S2 & S3 & S4).
  split; [now apply alloc_oinv|]. split; [exact S4|]. split; [intros; rewrite alloc_kept; auto; now rewrite S2|].
  split; [|split].
  - rewrite <- S2. destruct (dt_heap d1 (dt_next d1)) eqn:Q'; [|reflexivity].
    assert (dt_next d1 < dt_next d1)%nat by (apply (oi_heap _ O1); congruence). lia.
  - cbn. rewrite Nat.eqb_refl. discriminate.
  - intros j Q'. cbn in Q'. apply (oi_ic _ O1) in Q'. lia.
Qed.

(** *** Against the decoder without caches *)
Definition made (d' : dt) (r : res nat) (p : res info) : Prop :=
  match p with
  | Ok v => exists k a, r = Ok k /\ dt_heap d' k = Some (mkObj v a u0)
  | Throw e => r = Throw e
  | AssertFail => r = AssertFail
  | UB => r = UB
  end.
Lemma makes_cached d d' : dt_ic d' = dt_ic d -> (forall k, dt_heap d k <> None -> dt_heap d' k = dt_heap d k) ->
  cached_ok d -> cached_ok d'.
Proof.
  intros E K C. unfold cached_ok. rewrite E. eapply line_all_impl; [|exact C].
  intros ic k (v & a & H1 & H2). exists v, a. split; [exact H1|]. rewrite K; congruence.
Qed.
Lemma copy_same d i d' r : copy_out d i = (d', r) -> dt_ic d' = dt_ic d /\ (hinv d -> hinv d').
Proof.
  unfold copy_out. destruct (dt_heap d i); cbn; intros [= <- <-]; (split; [reflexivity|]); auto. intros []. constructor; cbn; auto.
Qed.
Lemma make_ok d ic a d' r : hinv d -> oinv d -> cached_ok d -> ic < cache_bound -> make_inst u0 d ic a = (d', r) ->
  hinv d' /\ cached_ok d' /\ made d' r (pure ic).
Proof.
  intros H O C B M. pose proof (make_makes _ _ _ _ _ O M) as (M1 & M2 & M3 & M4). revert M. unfold make_inst.
  destruct (cache_lookup CACHE_SIZE (dt_ic d) ic) as [i|] eqn:EC.
  { intros Q. pose proof (line_all_hit _ _ _ _ B C EC) as (v & a' & P1 & P2).
    pose proof Q as Q'. apply copy_same in Q' as [Q1 Q2]. apply (copy_makes _ _ _ _ O) in Q as [_ Q].
    destruct (Q _ P2) as (k & -> & HK). split; [auto|]. split; [eapply makes_cached; eauto|]. rewrite P1. cbn. eauto. }
  destruct (get_info d ic) as [d1 r1] eqn:E. pose proof E as E'. apply get_info_same in E' as (S & _).
  apply (get_info_ok _ _ _ _ H B) in E as [H1 ->].
  destruct (pure ic) as [v| | |] eqn:EP; try (intros [= <- <-]; split; [exact H1|]; split; [eapply sameo_cached; eauto|reflexivity]).
  pose proof (sameo_oinv _ _ S O) as O1. pose proof (sameo_cached _ _ S C) as C1.
  assert (alloc d1 (mkObj v a u0) = (fst (alloc d1 (mkObj v a u0)), dt_next d1)) as EA by reflexivity.
  rewrite EA. remember (fst (alloc d1 (mkObj v a u0))) as d2 eqn:E2. clear EA. intros Q.
  set (d3 := set_ic d2 _) in Q.
  assert (dt_heap d3 (dt_next d1) = Some (mkObj v a u0)) as HN by (unfold d3; subst d2; cbn; now rewrite Nat.eqb_refl).
  assert (hinv d3) as H3. { apply (alloc_hinv _ (mkObj v a u0)) in H1. rewrite <- E2 in H1. destruct H1. constructor; auto. }
  assert (cached_ok d3) as C3.
  { unfold cached_ok, d3. cbn [set_ic dt_ic dt_heap]. apply line_all_alloc; [exact B| |].
    - exists v, a. split; [exact EP|exact HN].
    - subst d2. apply alloc_cached; auto. }
  assert (oinv d3) as O3.
  { pose proof (alloc_oinv d1 (mkObj v a u0) O1) as O2. rewrite <- E2 in O2. destruct O2 as [P1 P2 P3 P4].
    constructor; cbn [d3 dt_heap dt_next dt_out dt_ic set_ic]; auto.
    intros j k. unfold cache_allocate. destruct (j =? _); [|apply P4]. cbn [ln_handle]. intros [= <-]. subst d2. cbn.
    split; [lia|]. intros Q'. apply (oi_out _ O1) in Q'. lia. }
  pose proof Q as Q'. apply copy_same in Q' as [Q1 Q2].
  apply (copy_makes _ _ _ _ O3) in Q as [(K1 & K2 & K3 & _) Q]. destruct (Q _ HN) as (k & -> & HK).
  split; [auto|]. split; [eapply makes_cached; eauto|]. cbn. eauto.
Qed.
Lemma direct_ok d mn uid x a d' r : hinv d -> oinv d -> cached_ok d -> uid + DEFAULT_UP_SIZE < w32 ->
  make_inst_directly u0 d mn uid x a = (d', r) -> hinv d' /\ cached_ok d' /\ made d' r (plain_direct s mn uid x).
Proof.
  intros H O C B. pose proof H as [T F R I S OC X]. unfold make_inst_directly, plain_direct.
  assert (FF : forall b m, b_reg b = b_reg (fst s) -> find_ifact b m = find_ifact (fst s) m) by (intros b m Q; unfold find_ifact; now rewrite Q).
  assert (GF : forall b i, b_facts b = b_facts (fst s) -> get_fact b i = get_fact (fst s) i) by (intros b i Q; unfold get_fact; now rewrite Q).
  assert (END : forall dd m rr, hinv dd -> sameo d dd -> 
    (match find_ifact (fst s) m with
     | None => (dd, Throw EUnknownMnemonic)
     | Some i => match (let* f := get_fact (dt_b dd) i in bypass_info f m x) with
                 | Ok v => let (d, k) := alloc dd (mkObj v a u0) in (d, Ok k)
                 | Throw e => (dd, Throw e) | AssertFail => (dd, AssertFail) | UB => (dd, UB) end
     end) = (d', rr) -> hinv d' /\ cached_ok d' /\ made d' rr (match find_ifact (fst s) m with
  | None => Throw EUnknownMnemonic
  | Some i => let* f := get_fact (fst s) i in bypass_info f m x
  end)).
  { intros dd m rr HD SO. destruct (find_ifact (fst s) m) as [i|].
    2:{ intros [= <- <-]. split; [exact HD|]. split; [eapply sameo_cached; eauto|reflexivity]. }
    rewrite (GF (dt_b dd)) by exact (hi_facts _ HD).
    destruct (let* f := _ in _) as [v| | |]; try (intros [= <- <-]; split; [exact HD|]; split; [eapply sameo_cached; eauto|reflexivity]).
    assert (alloc dd (mkObj v a u0) = (fst (alloc dd (mkObj v a u0)), dt_next dd)) as -> by reflexivity.
    intros Q. assert (d' = fst (alloc dd (mkObj v a u0))) as -> by congruence. assert (rr = Ok (dt_next dd)) as -> by congruence.
    split; [now apply alloc_hinv|]. split; [apply alloc_cached; [eapply sameo_oinv; eauto|eapply sameo_cached; eauto]|].
    cbn. exists (dt_next dd), a. rewrite Nat.eqb_refl. auto. }
  destruct (uid =? INVALID_UID); cbn [rbind].
  - rewrite (FF (dt_b d)) by exact R. intros Q. apply (END d mn r H (sameo_refl d)). rewrite <- Q. destruct (find_ifact (fst s) mn); reflexivity.
  - rewrite I. destruct (ir_mnemonic (b_inst (fst s)) uid) as [m| | |] eqn:EM; cbn [rbind];
      try (intros [= <- <-]; split; [exact H|]; split; [exact C|reflexivity]).
    destruct (find_uid_ok (dt_b d) uid m S) as (st & S' & ->); [rewrite I; exact SU|exact B|rewrite I; exact EM|].
    rewrite (FF (dt_b d)) by exact R.
    assert (hinv (set_b d (set_stash (dt_b d) st))) as H' by (constructor; cbn; auto).
    intros Q. apply (END (set_b d (set_stash (dt_b d) st)) m r H'); [repeat split|].
    rewrite <- Q. destruct (find_ifact (fst s) m); reflexivity.
Qed.

Definition content (d : dt) (k : nat) : option (pobj U) := option_map (fun o => (ob_info o, ob_user o)) (dt_heap d k).
Record sim (d : dt) (h : list (pobj U)) : Prop := mkSim {
  si_h : hinv d; si_o : oinv d; si_c : cached_ok d;
  si_held : map (content d) (rev (dt_out d)) = map Some h }.
Lemma sim_new : stash_ok (fst s) -> sim (dt_new s) [].
Proof. intros H. split; [now apply hinv_new|apply oinv_new|apply cached_new|reflexivity]. Qed.
Lemma sim_nth d h k : sim d h -> match held d k with
  | Some i => In i (dt_out d) /\ exists o, dt_heap d i = Some o /\ nth_error h k = Some (ob_info o, ob_user o)
  | None => nth_error h k = None end.
Proof.
  intros [H O C E]. unfold held.
  pose proof (f_equal (fun l => nth_error l k) E) as Q. cbv beta in Q. rewrite !nth_error_map in Q.
  destruct (nth_error (rev (dt_out d)) k) as [i|] eqn:EN; cbn [option_map] in Q.
  - apply nth_error_In in EN. apply in_rev in EN. split; [exact EN|].
    destruct (dt_heap d i) as [o|] eqn:EH.
    + exists o. split; [auto|]. unfold content in Q. rewrite EH in Q. cbn in Q. destruct (nth_error h k); cbn in Q; congruence.
    + exfalso. apply (oi_out _ O), (oi_heap _ O) in EN. congruence.
  - destruct (nth_error h k); [discriminate|reflexivity].
Qed.
(** A new object is handed out. *)
Lemma sim_give d h d' r p : sim d h -> hinv d' -> cached_ok d' -> makes d d' r -> made d' r p ->
  sim (fst (lift_obj (d', r))) (fst (give u0 h p)) /\ view (snd (lift_obj (d', r))) = snd (give u0 h p).
Proof.
  intros [H O C E] H' C' (M1 & M2 & M3 & M4) MD.
  assert (HE : map (content d') (rev (dt_out d')) = map Some h).
  { rewrite M2, <- E. apply map_ext_in. intros k Hk. apply in_rev in Hk. unfold content. rewrite M3; [reflexivity|].
    apply (oi_heap _ O). exact (oi_out _ O _ Hk). }
  destruct p as [v| | |]; cbn in MD; try (rewrite MD; cbn; split; [split; assumption|reflexivity]).
  destruct MD as (k & a & -> & HK). cbn [lift_obj]. rewrite HK. cbn [fst snd]. split; [|reflexivity].
  destruct M4 as (N1 & N2 & N3).
  split; cbn [hand_out].
  - destruct H'. constructor; auto.
  - destruct M1 as [P1 P2 P3 P4]. constructor; cbn [dt_heap dt_next dt_out dt_ic].
    + exact P1.
    + intros j [<-|Q]; [apply P1; congruence|auto].
    + constructor; [|exact P3]. rewrite M2. intros Q. apply (oi_out _ O), (oi_heap _ O) in Q. congruence.
    + intros i j Q. destruct (P4 i j Q). split; [auto|]. intros [<-|Q']; [exact (N3 _ Q)|auto].
  - exact C'.
  - cbn [dt_out rev fst give]. rewrite !map_app. rewrite <- HE.
    assert (forall l (a b : option (pobj U)), a = b -> (l ++ [a] = l ++ [b])%list) as AP by (intros l x y ->; reflexivity).
    unfold hand_out at 2. cbn [dt_out rev]. rewrite map_app.
    change (content (hand_out d' k)) with (content d'). apply AP. unfold content. rewrite HK. reflexivity.
Qed.
Lemma nth_error_change (h : list (pobj U)) : forall k g j, nth_error (change h k g) j =
  if Nat.eqb j k then option_map g (nth_error h j) else nth_error h j.
Proof.
  induction h as [|o r IH]; intros [|k] g [|j]; cbn; try reflexivity. - destruct (Nat.eqb j k); reflexivity. - apply IH.
Qed.
Lemma nth_error_eq {T} (l l' : list T) : (forall k, nth_error l k = nth_error l' k) -> l = l'.
Proof.
  revert l'. induction l as [|a l IH]; intros [|a' l'] H; [reflexivity|discriminate (H O)..|].
  pose proof (H O) as Q. cbn in Q. f_equal; [congruence|]. apply IH. intros k. exact (H (S k)).
Qed.
Definition put (d : dt) (i : nat) (o : obj A U) : dt := set_heap d (fun j => if Nat.eqb j i then Some o else dt_heap d j).
Lemma sim_change d h k i o o' g : sim d h -> held d k = Some i -> dt_heap d i = Some o ->
  g (ob_info o, ob_user o) = (ob_info o', ob_user o') -> sim (put d i o') (change h k g).
Proof.
  intros SM HK HO G. pose proof (sim_nth _ _ k SM) as NK. rewrite HK in NK. destruct NK as (IN & o1 & Q1 & NK).
  assert (o1 = o) as -> by congruence. destruct SM as [H O C E]. split.
  - destruct H. constructor; auto.
  - destruct O as [P1 P2 P3 P4]. constructor; cbn [put set_heap dt_heap dt_next dt_out dt_ic]; auto.
    intros j. rewrite P1. destruct (Nat.eqb_spec j i) as [->|]; [|tauto]. rewrite HO. split; congruence.
  - unfold cached_ok. cbn [put set_heap dt_heap dt_ic]. intros l j Q.
    destruct (oi_ic _ O _ _ Q) as [_ NI]. destruct (C _ _ Q) as (ic & C1 & C2 & C3 & v & a & C4 & C5).
    exists ic. repeat split; auto. exists v, a. split; [auto|]. destruct (Nat.eqb_spec j i) as [->|]; [contradiction|auto].
  - apply nth_error_eq. intros j. rewrite !nth_error_map, nth_error_change.
    pose proof (f_equal (fun l => nth_error l j) E) as Q. cbv beta in Q. rewrite !nth_error_map in Q.
    cbn [put set_heap dt_out]. unfold held in HK.
    destruct (Nat.eqb_spec j k) as [->|NJ].
    + rewrite HK, NK. cbn. unfold content, put. cbn. rewrite Nat.eqb_refl. cbn. now rewrite G.
    + rewrite <- Q. destruct (nth_error (rev (dt_out d)) j) as [i'|] eqn:EJ; [|reflexivity]. cbn [option_map].
      unfold content, put. cbn [set_heap dt_heap]. destruct (Nat.eqb_spec i' i) as [->|]; [|reflexivity].
      exfalso. apply NJ. eapply (proj1 (NoDup_nth_error (rev (dt_out d)))); [apply NoDup_rev; exact (oi_nodup _ O)| |congruence].
      apply nth_error_Some. congruence.
Qed.

Lemma can_flush_tree : can_flush (A := A) (U := U) s <-> exists fs, flush_tree (snd s) = Ok fs.
Proof.
  unfold can_flush, flush_caches. cbn [dt_tree set_oc set_ic dt_new].
  destruct (flush_tree (snd s)) as [fs| | |]; cbn [snd]; split; try discriminate; try reflexivity; eauto; intros (? & ?); discriminate.
Qed.
Lemma step_sim d h o : sim d h -> covered s o ->
  sim (fst (step u0 d o)) (fst (pstep u0 s h o)) /\ view (snd (step u0 d o)) = snd (pstep u0 s h o).
Proof.
  intros SM CV. pose proof SM as [H O C E]. destruct o as [ic|ic a|ic mn x a|mn uid x a|k mn x| |k u|k]; cbn [step pstep covered] in *.
  - destruct (get_info d ic) as [d' r] eqn:EG. pose proof EG as EG'. apply get_info_same in EG' as (SO & _).
    apply (get_info_ok _ _ _ _ H CV) in EG as [H' ->]. rewrite decode_pure. fold (pure ic).
    assert (sim d' h) as SM'.
    { split; [exact H'|eapply sameo_oinv; eauto|eapply sameo_cached; eauto|]. destruct SO as (S1 & S2 & S3 & S4).
      unfold content. rewrite S2, S4. exact E. }
    destruct (pure ic); split; auto.
  - destruct (make_inst u0 d ic a) as [d' r] eqn:EM. rewrite decode_pure. fold (pure ic).
    pose proof (make_makes _ _ _ _ _ O EM) as MK. destruct (make_ok _ _ _ _ _ H O C CV EM) as (H' & C' & MD).
    exact (sim_give d h d' r (pure ic) SM H' C' MK MD).
  - destruct CV as [B AG]. unfold make_inst_from_trace.
    destruct (make_inst u0 d ic a) as [d' r] eqn:EM. rewrite decode_pure in *. fold (pure ic) in *.
    pose proof (make_makes _ _ _ _ _ O EM) as MK. destruct (make_ok _ _ _ _ _ H O C B EM) as (H' & C' & MD).
    pose proof (sim_give d h d' r (pure ic) SM H' C' MK MD) as GV.
    destruct r as [k| | |]; try exact GV.
    destruct (pure ic) as [v| | |] eqn:EP; try discriminate MD. destruct MD as (k' & a' & K1 & K2).
    assert (k' = k) as -> by congruence. rewrite K2. unfold ob_mnemonic. cbn [ob_info]. rewrite (AG v eq_refl), String.eqb_refl. exact GV.
  - destruct (make_inst_directly u0 d mn uid x a) as [d' r] eqn:EM.
    pose proof (direct_makes _ _ _ _ _ _ _ O EM) as MK. destruct (direct_ok _ _ _ _ _ _ _ H O C CV EM) as (H' & C' & MD).
    exact (sim_give d h d' r _ SM H' C' MK MD).
  - pose proof (sim_nth _ _ k SM) as NK. destruct (held d k) as [i|] eqn:HK.
    2:{ rewrite NK. split; [exact SM|reflexivity]. }
    destruct NK as (IN & o & HO & ->). unfold morph_inst, plain_direct. cbn [rbind]. rewrite N.eqb_refl. cbn [rbind].
    assert (find_ifact (dt_b d) mn = find_ifact (fst s) mn) as -> by (unfold find_ifact; now rewrite (hi_reg _ H)).
    destruct (find_ifact (fst s) mn) as [j|]; [|split; [exact SM|reflexivity]].
    assert (get_fact (dt_b d) j = get_fact (fst s) j) as -> by (unfold get_fact; now rewrite (hi_facts _ H)).
    destruct (let* f := _ in _) as [v| | |]; try (split; [exact SM|reflexivity]).
    rewrite HO. split; [|reflexivity]. cbn [fst lift_unit]. exact (sim_change d h k i o (mkObj v (ob_args o) (ob_user o)) _ SM HK HO eq_refl).
  - unfold flush_caches. cbn [dt_tree set_oc set_ic]. rewrite (hi_tree _ H). apply can_flush_tree in CV as (fs & ->). split; [|reflexivity]. cbn [fst lift_unit].
    split.
    + destruct H. constructor; cbn; auto; [apply line_all_new|]. intros i. destruct (existsb _ fs); [apply stash_all_new|auto].
    + destruct O. constructor; cbn; auto. discriminate.
    + apply line_all_new.
    + exact E.
  - pose proof (sim_nth _ _ k SM) as NK. destruct (held d k) as [i|] eqn:HK.
    + destruct NK as (IN & o & HO & _). rewrite HO. split; [|reflexivity].
      exact (sim_change d h k i o (mkObj (ob_info o) (ob_args o) u) _ SM HK HO eq_refl).
    + split; [|reflexivity]. assert (change h k (fun o => (fst o, u)) = h) as Q; [|cbn [fst]; rewrite Q; exact SM].
      apply nth_error_eq. intros j. rewrite nth_error_change. destruct (Nat.eqb_spec j k) as [->|]; [|reflexivity]. now rewrite NK.
  - pose proof (sim_nth _ _ k SM) as NK. destruct (held d k) as [i|] eqn:HK.
    + destruct NK as (IN & o & HO & ->). rewrite HO. split; [exact SM|reflexivity].
    + rewrite NK. split; [exact SM|reflexivity].
Qed.
Lemma run_sim ops : forall d h, sim d h -> Forall (covered s) ops -> map view (snd (run u0 d ops)) = prun u0 s h ops.
Proof.
  induction ops as [|o r IH]; intros d h SM F; [reflexivity|]. inversion F as [|? ? F1 F2]; subst. cbn [run prun].
  destruct (step_sim d h o SM F1) as [S1 S2]. destruct (step u0 d o) as [d' a]. destruct (pstep u0 s h o) as [h' p]. cbn [fst snd] in *.
  subst p. specialize (IH d' h' S1 F2). destruct (run u0 d' r) as [d'' l]. cbn [snd] in IH.
  destruct a as [v| | |]; cbn; try reflexivity; now rewrite IH.
Qed.
Lemma state_sim ops : forall d h, sim d h -> Forall (covered s) ops -> exists h', sim (fst (run u0 d ops)) h'.
Proof.
  induction ops as [|o r IH]; intros d h SM F; [exists h; exact SM|]. inversion F as [|? ? F1 F2]; subst. cbn [run].
  destruct (step_sim d h o SM F1) as [S1 S2]. destruct (step u0 d o) as [d' a]. cbn [fst] in S1.
  destruct (IH _ _ S1 F2) as (h' & S3). destruct (run u0 d' r) as [d'' l]. cbn [fst] in S3.
  destruct a; [exists h'; exact S3..| |]; eauto.
Qed.
End Inv.
