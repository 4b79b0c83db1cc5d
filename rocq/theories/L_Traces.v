(** Histories with trace records that contradict the decoder: what stays unaffected. *)
From Coq Require Import Arith NArith List Bool Lia ZifyBool ZifyN ZifyNat String.
From Verif Require Import M_Base M_Meta M_Extract M_Decoded M_Cache M_Registry M_Trie M_Builder M_DTable.
From Verif Require Import S_Maps S_Trie S_Table S_History L_Trie L_Table L_Uids L_Decode L_History L_Objects.
Import ListNotations.
Local Open Scope N_scope.

Section Traces.
Context {A U : Type} (u0 : U) (s : builder * tree) (T : N -> Prop).
Notation dt := (dt A U).
Notation op := (op A U).
Notation pure ic := (pure_info (fst s) (snd s) ic).
Notation old := (List.length (b_facts (fst s))).
(** [GD]: the factories whose stashes hold nothing but decode information of the table. *)
Context (GD : nat -> Prop) (GO : forall i, GD i -> (i < old)%nat).
Context (VP : forall ic mn p, tree_sel (snd s) ic = Ok (mn, p) -> GD (pay_fact p)).

(** The factories of the table are as configured; names unknown to the table are bound to
    later factories. *)
Record bext (b : builder) : Prop := mkBX {
  bx_old : forall j, (j < old)%nat -> nth_error (b_facts b) j = nth_error (b_facts (fst s)) j;
  bx_len : (old <= List.length (b_facts b))%nat;
  bx_reg : forall k i, find_ifact (fst s) k = None -> find_ifact b k = Some i -> (old <= i)%nat }.
Lemma bext_new : bext (fst s).
Proof. constructor; auto. congruence. Qed.
Lemma bext_same b b' : b_facts b' = b_facts b -> b_reg b' = b_reg b -> bext b -> bext b'.
Proof. intros F R [B1 B2 B3]. constructor; rewrite ?F; auto. unfold find_ifact in *. rewrite R. auto. Qed.
Lemma bext_upd b i g b' : (old <= i)%nat -> upd_fact b i g = Ok b' -> bext b -> bext b'.
Proof.
  intros L H [B1 B2 B3]. apply upd_fact_inv in H as (f & _ & ->). constructor; cbn [set_facts b_facts]; auto.
  - intros j Hj. rewrite <- B1 by auto. rewrite nth_set_nth_ne; [reflexivity|lia].
  - rewrite length_set_nth. exact B2.
Qed.
Lemma bld_ext b mn st m b' i : bext b -> find_ifact (fst s) mn = None -> bld b mn mn "" st m = Ok (b', i) ->
  bext b' /\ (old <= i)%nat.
Proof.
  intros B N. unfold bld. change (String.eqb "" "") with true. cbv zeta iota. rewrite String.eqb_refl.
  match goal with |- context [let (_, _) := ?e in _] => destruct e as [b1 j] eqn:E1 end.
  assert (bext b1 /\ (old <= j)%nat) as [B1 J1].
  { destruct (find_ifact b mn) as [j0|] eqn:EF.
    - injection E1 as <- <-. split; [exact B|]. eapply bx_reg; eauto.
    - cbn in E1. injection E1 as <- <-. destruct B as [B1 B2 B3]. split; [|exact B2]. constructor; cbn [b_facts set_reg set_facts].
      + intros k Hk. rewrite nth_error_app1 by lia. auto.
      + rewrite app_length. cbn. lia.
      + intros k i0 NK. unfold find_ifact. cbn [set_reg b_reg set_facts]. rewrite mfind_madd.
        destruct (String.eqb mn k) eqn:EK; [|intros Q; eapply B3; eauto].
        intros [= <-]. exact B2. }
  match goal with |- context [upd_fact b1 j ?g] => destruct (upd_fact b1 j g) as [b2| | |] eqn:U1 end; cbn [rbind]; try discriminate. apply bext_upd in U1; auto.
  destruct (register_inst b2 mn) as [[b3 u]| | |] eqn:R; cbn [rbind]; try discriminate.
  apply register_inst_inv in R as (_ & _ & R1 & R2 & _). assert (bext b3) as B3 by (eapply bext_same; eauto).
  match goal with |- context [upd_fact b3 j ?g] => destruct (upd_fact b3 j g) as [b4| | |] eqn:U2 end; cbn [rbind]; try discriminate. apply bext_upd in U2; auto.
  intros [= <- <-]. auto.
Qed.

Record tdec (d : dt) : Prop := mkTD {
  td_tree : dt_tree d = snd s;
  td_b : bext (dt_b d);
  td_oc : line_all (fun ic v => pure ic = Ok v) (dt_oc d);
  td_xs : forall i, GD i -> stash_all (fun ic v => pure ic = Ok v) (dt_stash d i) }.
(** The cached objects of the opcodes outside [T] are as made, and not in [l]. *)
Definition lines (d : dt) (l : list nat) : Prop :=
  line_all (fun ic k => T ic \/ (~ In k l /\ exists v a, pure ic = Ok v /\ dt_heap d k = Some (mkObj v a u0))) (dt_ic d).
Record tinv (d : dt) : Prop := mkTI { ti_dec : tdec d; ti_w : winv d; ti_lines : lines d (dt_out d) }.

Lemma tdec_same d d' : dt_b d' = dt_b d -> dt_tree d' = dt_tree d -> dt_oc d' = dt_oc d -> dt_stash d' = dt_stash d -> tdec d -> tdec d'.
Proof. intros E1 E2 E3 E4 []. constructor; rewrite ?E1, ?E2, ?E3, ?E4; auto. Qed.
Lemma tget_info d ic d' r : tdec d -> ic < cache_bound -> get_info d ic = (d', r) -> tdec d' /\ r = pure ic.
Proof.
  intros H B. pose proof H as [TT BX O X]. unfold get_info. destruct (cache_lookup _ _ ic) as [v|] eqn:EC.
  { intros [= <- <-]. split; [exact H|]. symmetry. exact (line_all_hit _ _ _ _ B O EC). }
  assert (forall dd rr, tree_get d ic = (dd, rr) -> tdec dd /\ rr = pure ic) as TG.
  { intros dd rr. unfold tree_get, pure_info. rewrite TT. destruct (tree_sel (snd s) ic) as [[mn p]| | |] eqn:ET; cbn [rbind];
      try (intros [= <- <-]; split; [exact H|reflexivity]).
    destruct (x_illop _ ic) as [[]| | |] eqn:EI; cbn [rbind]; try (intros [= <- <-]; split; [exact H|reflexivity]).
    pose proof (VP _ _ _ ET) as LP.
    unfold leaf_get. destruct (stash_lookup _ _ _ _ ic) as [v|] eqn:ES.
    - intros [= <- <-]. split; [exact H|]. pose proof (stash_all_hit _ _ _ _ _ _ _ (X _ LP) ES) as Q. cbv beta in Q.
      unfold pure_info in Q. rewrite ET in Q. cbn [rbind] in Q. rewrite EI in Q. cbn [rbind] in Q. symmetry. exact Q.
    - assert (get_fact (dt_b d) (pay_fact p) = get_fact (fst s) (pay_fact p)) as -> by (unfold get_fact; rewrite (bx_old _ BX); auto).
      destruct (let* f := _ in _) as [v| | |] eqn:EL; intros [= <- <-]; (split; [|reflexivity]); try exact H.
      constructor; cbn; auto. intros i Li. destruct (Nat.eqb_spec i (pay_fact p)) as [->|]; [|now apply X].
      apply stash_all_set; [|now apply X]. unfold pure_info. rewrite ET. cbn [rbind]. rewrite EI. exact EL. }
  destruct (tree_get d ic) as [d1 r1] eqn:E1. destruct (TG _ _ eq_refl) as [H1 ->].
  destruct (pure ic) as [v| | |] eqn:EP; intros [= <- <-]; (split; [|reflexivity]); try exact H1.
  destruct H1. constructor; cbn; auto. apply line_all_alloc; auto.
Qed.
Lemma lines_grow d d' l : winv d -> grow d d' -> dt_ic d' = dt_ic d -> lines d l -> lines d' l.
Proof.
  intros W (_ & _ & _ & G) E L. unfold lines. rewrite E. intros i k Q. destruct (L i k Q) as (ic & H1 & H2 & H3 & H4).
  exists ic. split; [auto|]. split; [auto|]. split; [auto|]. destruct H4 as [H4|(H4 & v & a & H5 & H6)]; [now left|right].
  split; [auto|]. exists v, a. split; [auto|]. rewrite G; [auto|]. eapply wi_ic; eauto.
Qed.
Lemma lines_cons d k l : (forall i, ln_handle (dt_ic d i) <> Some k) -> lines d l -> lines d (k :: l).
Proof.
  intros N L i j Q. destruct (L i j Q) as (ic & H1 & H2 & H3 & H4). exists ic. split; [auto|]. split; [auto|]. split; [auto|].
  destruct H4 as [H4|(H4 & H5)]; [now left|right]. split; [|auto]. intros [->|Q']; [exact (N i Q)|auto].
Qed.
Lemma tcopy d i d' r : winv d -> copy_out d i = (d', r) -> dt_ic d' = dt_ic d /\ (tdec d -> tdec d') /\
  (forall k, r = Ok k -> forall j, ln_handle (dt_ic d' j) <> Some k) /\
  (forall o, dt_heap d i = Some o -> exists k, r = Ok k /\ dt_heap d' k = Some o).
Proof.
  intros W. unfold copy_out. destruct (dt_heap d i) as [o|] eqn:E.
  - cbn. intros [= <- <-]. split; [reflexivity|]. split; [intros []; constructor; auto|]. split.
    + intros k [= <-] j Q. cbn in Q. apply (wi_ic _ W) in Q. lia.
    + intros o' [= <-]. exists (dt_next d). split; [reflexivity|]. cbn. now rewrite Nat.eqb_refl.
  - intros [= <- <-]. split; [reflexivity|]. split; [auto|]. split; discriminate.
Qed.
(** makeInst: the state, and what it returns. *)
Definition okmake (d d' : dt) (r : res nat) : Prop :=
  tdec d' /\ lines d' (dt_out d) /\ forall k, r = Ok k -> lines d' (k :: dt_out d).
Lemma okmake_err d d' r : tdec d' -> lines d' (dt_out d) -> (forall k, r <> Ok k) -> okmake d d' r.
Proof. intros H1 H2 H3. split; [auto|]. split; [auto|]. intros k Q. now apply H3 in Q. Qed.
Lemma tmake d ic a d' r : tinv d -> ic < cache_bound -> make_inst u0 d ic a = (d', r) ->
  okmake d d' r /\ (~ T ic -> made u0 d' r (pure ic)).
Proof.
  intros [D W L] B. unfold make_inst. destruct (cache_lookup CACHE_SIZE (dt_ic d) ic) as [i|] eqn:EC.
  { intros Q. pose proof (copy_grow _ _ _ _ W Q) as [G F]. destruct (tcopy _ _ _ _ W Q) as (Q1 & Q2 & Q3 & Q4).
    pose proof (lines_grow _ _ _ W G Q1 L) as L'.
    split; [split; [auto|split; [auto|intros k E; apply lines_cons; auto]]|]. intros NT.
    destruct (line_all_hit _ _ _ _ B L EC) as [H|(_ & v & a' & H1 & H2)]; [contradiction|].
    destruct (Q4 _ H2) as (k & -> & HK). rewrite H1. cbn. eauto. }
  destruct (get_info d ic) as [d1 r1] eqn:E. pose proof E as E'. apply get_info_same in E' as (S & _).
  apply (tget_info _ _ _ _ D B) in E as [D1 ->].
  assert (grow d d1) as G1 by now apply grow_same.
  assert (lines d1 (dt_out d)) as L1 by (apply (lines_grow d); auto; apply S).
  destruct (pure ic) as [v| | |] eqn:EP; try (intros [= <- <-]; split; [apply okmake_err; [auto|auto|discriminate]|reflexivity]).
  assert (winv d1) as W1 by apply G1.
  destruct (cached_new_grow d1 ic (mkObj v a u0) W1) as [G2 L2].
  intros H. change (copy_out (cached_new_obj d1 ic (mkObj v a u0)) (dt_next d1) = (d', r)) in H.
  remember (cached_new_obj d1 ic (mkObj v a u0)) as d2 eqn:E2.
  assert (winv d2) as W2 by apply G2.
  assert (dt_heap d2 (dt_next d1) = Some (mkObj v a u0)) as HN by (subst d2; cbn; now rewrite Nat.eqb_refl).
  assert (lines d2 (dt_out d)) as L3.
  { assert (lines (fst (alloc d1 (mkObj v a u0))) (dt_out d)) as L3 by (apply (lines_grow d1); auto; now apply grow_alloc).
    subst d2. unfold lines, cached_new_obj. cbn [set_ic dt_ic dt_heap]. apply line_all_alloc; [exact B| |exact L3].
    right. split; [|exists v, a; split; [exact EP|exact HN]]. intros Q. apply (wi_out _ W) in Q. destruct G1 as (_ & _ & G1 & _). lia. }
  assert (tdec d2) as D2 by (subst d2; destruct D1; constructor; auto).
  pose proof (copy_grow _ _ _ _ W2 H) as [G _]. destruct (tcopy _ _ _ _ W2 H) as (Q1 & Q2 & Q3 & Q4).
  pose proof (lines_grow _ _ _ W2 G Q1 L3) as L'.
  split; [split; [auto|split; [auto|intros k Ek; apply lines_cons; auto]]|]. intros _.
  destruct (Q4 _ HN) as (k & -> & HK). cbn. eauto.
Qed.
Definition agrees (ic : N) (tmn : string) : Prop := forall v, pure ic = Ok v -> d_mnemonic (i_di v) = tmn.
Definition tok (o : op) : Prop :=
  match o with
  | OGetInfo ic | OMake ic _ => ic < cache_bound
  | OTrace ic tmn _ _ => ic < cache_bound /\ ((agrees ic tmn /\ ~ T ic) \/ (find_ifact (fst s) tmn = None /\ T ic))
  | _ => True
  end.
Lemma ttrace d ic tmn x a d' r : tinv d -> tok (OTrace ic tmn x a) -> make_inst_from_trace u0 d ic tmn x a = (d', r) -> okmake d d' r.
Proof.
  intros TI (B & TK). pose proof TI as [D W L]. unfold make_inst_from_trace.
  destruct (make_inst u0 d ic a) as [d1 r1] eqn:E. pose proof E as E'. apply (make_grow u0 _ _ _ _ _ W) in E' as [G F].
  apply (tmake _ _ _ _ _ TI B) in E as [(D1 & L1 & L2) MD].
  destruct r1 as [j| | |]; try (intros [= <- <-]; apply okmake_err; [auto|auto|discriminate]).
  destruct (dt_heap d1 j) as [o|] eqn:HJ; [|intros [= <- <-]; apply okmake_err; [auto|auto|discriminate]].
  destruct (String.eqb_spec (ob_mnemonic o) tmn) as [EQ|NE]; [intros [= <- <-]; split; [auto|split; auto]|].
  destruct TK as [[AG NT]|[UN HT]].
  { exfalso. specialize (MD NT). destruct (pure ic) as [v| | |] eqn:EP; try discriminate. destruct MD as (k & a' & Q1 & Q2).
    assert (k = j) as -> by congruence. assert (o = mkObj v a' u0) as -> by congruence. apply NE. now apply AG. }
  destruct (bld _ _ _ _ _ _) as [[b i]| | |] eqn:EB; try (intros [= <- <-]; apply okmake_err; [auto|auto|discriminate]).
  apply bld_ext in EB as [BX LI]; [|apply D1|exact UN].
  destruct (leaf_get (set_b d1 b) i tmn ic x) as [d2 r2] eqn:EL. pose proof EL as SL. apply leaf_same in SL.
  assert (grow d1 d2) as G2.
  { apply grow_same; [apply G|]. destruct SL as (S1 & S2 & S3 & S4). repeat split; [rewrite S1|rewrite S2|rewrite S3|rewrite S4]; reflexivity. }
  assert (tdec d2) as D2.
  { destruct D1 as [T1 B1 O1 X1]. unfold leaf_get in EL. cbn [set_b dt_stash dt_b] in EL.
    destruct (stash_lookup _ _ _ _ _); [injection EL as <- <-; constructor; auto|].
    destruct (let* f := _ in _) as [v| | |]; injection EL as <- <-; constructor; cbn; auto.
    intros k Hk. destruct (Nat.eqb_spec k i) as [->|]; [apply GO in Hk; lia|auto]. }
  assert (lines d2 (dt_out d)) as L3 by (apply (lines_grow d1); auto; [apply G|apply SL]).
  destruct r2 as [v| | |]; try (intros [= <- <-]; apply okmake_err; [auto|auto|discriminate]).
  assert (winv d2) as W2 by apply G2.
  intros Q. assert (d' = cached_new_obj d2 ic (mkObj v a u0)) as -> by exact (f_equal fst (eq_sym Q)).
  assert (r = Ok (dt_next d2)) as -> by exact (f_equal snd (eq_sym Q)). clear Q.
  assert (lines (fst (alloc d2 (mkObj v a u0))) (dt_out d)) as L4 by (apply (lines_grow d2); auto; now apply grow_alloc).
  assert (lines (fst (alloc d2 (mkObj v a u0))) (dt_next d2 :: dt_out d)) as L5.
  { apply lines_cons; [|exact L4]. intros q Q. cbn in Q. apply (wi_ic _ W2) in Q. lia. }
  split; [destruct D2; constructor; auto|]. split; [|intros k [= <-]]; unfold lines, cached_new_obj;
    cbn [set_ic dt_ic dt_heap]; (apply line_all_alloc; [exact B|now left|]); [exact L4|exact L5].
Qed.
Lemma lift_tinv d d' r : tinv d -> grow d d' -> fresh d d' r -> okmake d d' r -> tinv (fst (lift_obj (d', r))).
Proof.
  intros [D W L] G F (H1 & H2 & H3). pose proof (steps_lift d d' r OFlush W G F I) as (W' & _). destruct G as (G1 & G2 & _).
  assert (tinv d') as TI by (split; [auto|auto|now rewrite G2]).
  destruct r as [k| | |]; try exact TI. cbn [lift_obj] in *. destruct (dt_heap d' k); [|exact TI].
  cbn [fst] in *. split; [destruct H1; constructor; auto|auto|]. cbn [hand_out dt_out]. rewrite G2. exact (H3 k eq_refl).
Qed.
Lemma tput d i o : tinv d -> In i (dt_out d) -> tinv (put d i o).
Proof.
  intros [D W L] H. split; [destruct D; constructor; auto|apply winv_put; [auto|now apply (wi_out _ W)]|].
  intros j k Q. destruct (L j k Q) as (ic & H1 & H2 & H3 & H4). exists ic. split; [auto|]. split; [auto|]. split; [auto|].
  destruct H4 as [H4|(H4 & v & a & H5 & H6)]; [now left|right]. split; [auto|]. exists v, a. split; [auto|].
  cbn. destruct (Nat.eqb_spec k i) as [->|]; [contradiction|auto].
Qed.
Lemma find_uid_same b uid b' o : find_ifact_uid b uid = Ok (b', o) -> b_facts b' = b_facts b /\ b_reg b' = b_reg b.
Proof.
  unfold find_ifact_uid. destruct (dk_contains_n _ _).
  - destruct (dk_lookup_n _ _); cbn [rbind]; try discriminate. intros Q. assert (b' = b) as -> by congruence. auto.
  - destruct (ir_mnemonic _ _) as [mn| | |]; cbn [rbind]; try discriminate. destruct (find_ifact b mn) as [i|].
    + destruct (dk_add _ _ _ _) as [st| | |]; cbn [rbind]; try discriminate.
      intros Q. assert (b' = set_stash b st) as -> by congruence. split; reflexivity.
    + intros Q. assert (b' = b) as -> by congruence. auto.
Qed.
Lemma tdirect d mn uid x a d' r : tinv d -> make_inst_directly u0 d mn uid x a = (d', r) -> okmake d d' r.
Proof.
  intros [D W L]. unfold make_inst_directly.
  match goal with |- context [let '(_, _) := ?e in _] => destruct e as [d1 r1] eqn:E end.
  assert (sameo d d1 /\ tdec d1) as [S D1].
  { destruct (uid =? INVALID_UID); [injection E as <- _; split; [apply sameo_refl|auto]|].
    destruct (ir_mnemonic _ uid); try (injection E as <- _; split; [apply sameo_refl|auto]).
    destruct (find_ifact_uid _ uid) as [[b o]| | |] eqn:EU; injection E as <- _; (split; [repeat split|]); auto.
    apply find_uid_same in EU as [F R]. destruct D as [T1 B1 O1 X1]. constructor; cbn; auto. eapply bext_same; eauto. }
  pose proof (grow_same _ _ W S) as G. assert (lines d1 (dt_out d)) as L1 by (apply (lines_grow d); auto; apply S).
  destruct r1 as [[mn' [i|]]| | |]; try (intros [= <- <-]; apply okmake_err; [auto|auto|discriminate]).
  destruct (let* f := _ in _) as [v| | |]; try (intros [= <- <-]; apply okmake_err; [auto|auto|discriminate]).
  intros Q. assert (d' = fst (alloc d1 (mkObj v a u0))) as -> by (cbn in *; congruence).
  assert (r = Ok (dt_next d1)) as -> by (cbn in *; congruence). assert (winv d1) as W1 by apply G.
  assert (lines (fst (alloc d1 (mkObj v a u0))) (dt_out d)) as L2 by (apply (lines_grow d1); auto; now apply grow_alloc).
  split; [destruct D1; constructor; auto|]. split; [exact L2|]. intros k [= <-]. apply lines_cons; [|exact L2].
  intros q Q'. cbn in Q'. apply (wi_ic _ W1) in Q'. lia.
Qed.
Lemma step_tinv d (o : op) : tinv d -> tok o -> tinv (fst (step u0 d o)).
Proof.
  intros TI TK. pose proof TI as [D W L]. destruct o as [ic|ic a|ic mn x a|mn uid x a|k mn x| |k u|k].
  - cbn [step]. destruct (get_info d ic) as [d' r] eqn:E. pose proof E as E'. apply get_info_same in E' as (S & _).
    apply (tget_info _ _ _ _ D TK) in E as [D' _]. pose proof (grow_same _ _ W S) as G.
    assert (tinv d') as TI'. { split; [auto|apply G|]. destruct G as (G1 & -> & G3). apply (lines_grow d); auto; [now apply grow_same|apply S]. }
    destruct r; exact TI'.
  - cbn [step]. destruct (make_inst u0 d ic a) as [d' r] eqn:E. destruct (make_grow u0 _ _ _ _ _ W E) as [G F].
    apply (lift_tinv d d' r TI G F). now apply (tmake _ _ _ _ _ TI TK) in E as [E _].
  - cbn [step]. destruct (make_inst_from_trace u0 d ic mn x a) as [d' r] eqn:E. destruct (trace_grow u0 _ _ _ _ _ _ _ W E) as [G F].
    apply (lift_tinv d d' r TI G F). now apply (ttrace _ _ _ _ _ _ _ TI TK) in E.
  - cbn [step]. destruct (make_inst_directly u0 d mn uid x a) as [d' r] eqn:E. destruct (direct_grow u0 _ _ _ _ _ _ _ W E) as [G F].
    apply (lift_tinv d d' r TI G F). now apply (tdirect _ _ _ _ _ _ _ TI) in E.
  - rewrite morph_step. destruct (held d k) as [i|] eqn:HK; [|exact TI]. unfold morph_inst.
    destruct (find_ifact _ _); [|exact TI]. destruct (let* f := _ in _) as [v| | |]; try exact TI. destruct (dt_heap d i) as [ob|]; [|exact TI].
    apply (tput d i (mkObj v (ob_args ob) (ob_user ob)) TI). eapply held_in; eauto.
  - cbn [step]. unfold flush_caches. cbn [dt_tree set_oc set_ic].
    assert (tinv (set_oc (set_ic d cache_new) cache_new)) as TI'.
    { split; [destruct D; constructor; auto; apply line_all_new|destruct W; constructor; cbn; auto; discriminate|apply line_all_new]. }
    destruct (flush_tree (dt_tree d)) as [fs| | |]; try exact TI'. cbn [lift_unit fst].
    destruct TI' as [D' W' L']. split; [|destruct W'; constructor; auto|exact L']. destruct D'. constructor; auto.
    intros i Li. cbn. destruct (existsb _ fs); [apply stash_all_new|]. now apply (td_xs _ D).
  - rewrite mutate_step. destruct (held d k) as [i|] eqn:HK; [|exact TI]. destruct (dt_heap d i) as [ob|]; [|exact TI].
    apply (tput d i (mkObj (ob_info ob) (ob_args ob) u) TI). eapply held_in; eauto.
  - cbn [step]. destruct (held d k) as [i|]; [|exact TI]. destruct (dt_heap d i); exact TI.
Qed.
Lemma run_tinv (ops : list op) : forall d, tinv d -> Forall tok ops -> tinv (fst (run u0 d ops)).
Proof.
  induction ops as [|o r IH]; intros d O F; [exact O|]. inversion F as [|? ? F1 F2]; subst. cbn [run].
  pose proof (step_tinv d o O F1) as O'. destruct (step u0 d o) as [d' a]. specialize (IH d' O' F2). cbn [fst] in *.
  destruct (run u0 d' r) as [d'' l]. destruct a; auto.
Qed.
Lemma tinv_new : tinv (dt_new s).
Proof.
  split; [constructor; [reflexivity|apply bext_new|apply line_all_new|intros; apply stash_all_new]|apply winv_new|apply line_all_new].
Qed.
Lemma info_pure d ic : tinv d -> ic < cache_bound -> snd (step u0 d (OGetInfo ic)) = let* v := pure ic in Ok (AInfo v).
Proof.
  intros [D _ _] B. cbn [step]. destruct (get_info d ic) as [d' r] eqn:E. apply (tget_info _ _ _ _ D B) in E as [_ ->].
  destruct (pure ic); reflexivity.
Qed.
Lemma make_pure d ic a : tinv d -> ic < cache_bound -> ~ T ic ->
  view (snd (step u0 d (OMake ic a))) = let* v := pure ic in Ok (PObj (v, u0)).
Proof.
  intros TI B NT. cbn [step]. destruct (make_inst u0 d ic a) as [d' r] eqn:E. apply (tmake _ _ _ _ _ TI B) in E as [_ E]. specialize (E NT).
  destruct (pure ic) as [v| | |]; cbn [made] in E; [|now subst r..]. destruct E as (k & a' & -> & HK). cbn [lift_obj]. rewrite HK. reflexivity.
Qed.
End Traces.

Section Disputed.
Context {A U : Type} (u0 : U) (uids : list (string * N)) (annos : list (string * anno)) (nu : N)
  (incl excl : list pattern) (recs : list irec) (s : builder * tree).
Context (HD : make_decoder uids annos nu incl excl recs = Ok s) (HS : separated (encodings (kept incl excl recs))).
Notation op := (op A U).
Lemma payload_valid ic mn p : tree_sel (snd s) ic = Ok (mn, p) -> (pay_fact p < List.length (b_facts (fst s)))%nat.
Proof.
  destruct s as [b t]. unfold make_decoder in HD. cbn [fst snd].
  destruct (builder_new uids annos nu) as [b0| | |] eqn:EB; cbn [rbind] in HD; try discriminate.
  destruct (configured _ _ _ _ _ _ _ _ _ EB HD HS) as (X & P & TT & M & I & F & R).
  intros ET. pose proof (tree_sel_ok t X ic TT) as TS. rewrite ET in TS. destruct TS as (x & Hx & -> & FP & _).
  rewrite Forall_forall in F. destruct (F x Hx) as (r & _ & _ & _ & _ & _ & f & m & RG & _).
  assert (pay_fact p = pay_fact (snd x)) as ->.
  { unfold final_pay in FP. destruct (has_fixed x); [destruct FP as (m' & _ & ->)|subst p]; reflexivity. }
  apply nth_error_Some. congruence.
Qed.
Lemma unknown_opcode mn : get_opcode s mn = Throw EUnknownMnemonic <-> find_ifact (fst s) mn = None.
Proof.
  unfold get_opcode. destruct (find_ifact (fst s) mn) as [i|]; [|split; auto]. unfold get_fact.
  destruct (nth_error _ i); split; discriminate.
Qed.
Lemma agreed_dec ic mn : agreed (A := A) (U := U) s ic mn \/ ~ agreed (A := A) (U := U) s ic mn.
Proof.
  unfold agreed. destruct (decode s ic) as [v| | |]; try (left; discriminate).
  destruct (string_dec (d_mnemonic (i_di v)) mn) as [E|N]; [left; intros v' [= <-]; auto|right; intros H; apply N, H; auto].
Qed.
Lemma foreign_tok (h : list op) : Forall (foreign s h) h -> Forall (tok s (disputed s h)) h.
Proof.
  intros F. apply Forall_forall. intros o Ho. rewrite Forall_forall in F. specialize (F o Ho).
  destruct o as [ic|ic a|ic mn x a|mn uid x a|k mn x| |k u|k]; cbn [foreign tok] in *; auto.
  destruct F as [B F]. split; [exact B|]. destruct (agreed_dec ic mn) as [AG|NA].
  - destruct (find_ifact (fst s) mn) as [i|] eqn:EF.
    + left. split; [|intros Q; apply F, unknown_opcode in Q; congruence]. intros v Hv. apply AG. now rewrite decode_pure.
    + assert (disputed s h ic \/ ~ disputed s h ic) as [Q|Q]; [|right; auto|].
      { clear. unfold disputed. induction h as [|o r IH]; [right; intros (mn & x & a & [] & _)|].
        destruct IH as [(mn & x & a & H1 & H2)|N]; [left; exists mn, x, a; split; [now right|auto]|].
        destruct o as [| |ic' mn x a| | | | |]; try (right; intros (mn' & x' & a' & [Q|Q] & Q'); [discriminate|apply N; eauto]).
        destruct (N.eq_dec ic' ic) as [->|NE]; [|right; intros (mn' & x' & a' & [Q|Q] & Q'); [congruence|apply N; eauto]].
        destruct (agreed_dec ic mn) as [AG|NA]; [|left; exists mn, x, a; split; [now left|auto]].
        right. intros (mn' & x' & a' & [Q|Q] & Q'); [|apply N; eauto]. apply Q'. injection Q as <- _ _. exact AG. }
      left. split; [|exact Q]. intros v Hv. apply AG. now rewrite decode_pure.
  - right. assert (disputed s h ic) as Q by (exists mn, x, a; auto). split; [|exact Q]. now apply unknown_opcode, F.
Qed.
Lemma info_lemma (h : list op) ic : Forall (foreign s h) h -> ic < cache_bound ->
  snd (step u0 (fst (run u0 (dt_new s) h)) (OGetInfo ic)) = snd (step u0 (dt_new s) (OGetInfo ic)).
Proof.
  intros F B. apply foreign_tok in F.
  rewrite !(info_pure u0 s (disputed s h) (fun i => (i < List.length (b_facts (fst s)))%nat) (fun _ H => H) payload_valid); auto; [apply tinv_new|]. apply run_tinv; auto; [exact payload_valid|apply tinv_new].
Qed.
Lemma make_lemma (h : list op) ic a : Forall (foreign s h) h -> ic < cache_bound -> ~ disputed s h ic ->
  view (snd (step u0 (fst (run u0 (dt_new s) h)) (OMake ic a))) = view (snd (step u0 (dt_new s) (OMake ic a))).
Proof.
  intros F B ND. apply foreign_tok in F.
  rewrite !(make_pure u0 s (disputed s h) (fun i => (i < List.length (b_facts (fst s)))%nat) (fun _ H => H) payload_valid); auto; [apply tinv_new|]. apply run_tinv; auto; [exact payload_valid|apply tinv_new].
Qed.
End Disputed.
