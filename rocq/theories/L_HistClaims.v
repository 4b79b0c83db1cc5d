(** Claims about histories of calls (C08-C12): lemmas. *)
From Coq Require Import NArith List Bool Lia ZifyBool ZifyN ZifyNat String Permutation.
From Verif Require Import M_Base M_Field M_Forms M_Meta M_OperandInfo M_Extract M_Decoded M_Cache M_Registry
  M_Trie M_Builder M_DTable M_Direct.
From Verif Require Import S_Maps S_Trie S_Table S_Shipped S_History S_Uids.
From Verif Require Import L_Trie L_Table L_Ids L_Uids L_Decode L_History L_Claims.
Import ListNotations.
Local Open Scope N_scope.

(** ** flushCaches succeeds on separated tables *)
Lemma flush_special tab d X : leaf_ok tab d X -> exists fs, flush_node (Special tab d) = Ok fs.
Proof.
  intros (_ & _ & (X' & _ & F) & _). cbn [flush_node]. induction F as [|x e r r' H _ IH].
  - eexists. reflexivity.
  - destruct H as (_ & _ & _ & _ & ->). destruct IH as (fs & ->). eexists. reflexivity.
Qed.
Lemma flush_repr n E : repr n E -> exists fs, flush_node n = Ok fs.
Proof.
  induction 1 as [f tab d E F H1 H2 IH2 H3 H4 IH4|tab d E F L].
  - cbn [flush_node]. induction (nseq 0 (N.to_nat (f_size f))) as [|i r IH].
    + destruct d as [c|]; [apply (IH4 c eq_refl)|eexists; reflexivity].
    + destruct IH as (fs & IH). rewrite IH. destruct (tab i) as [c|] eqn:E1; cbn [rbind].
      * destruct (IH2 i c E1) as (fs' & ->). eexists. reflexivity.
      * eexists. reflexivity.
  - eapply flush_special; eauto.
Qed.
Lemma flush_tree_ok t X : tree_ok t X -> exists fs, flush_tree t = Ok fs.
Proof.
  intros [_ H]. unfold flush_tree. induction (nseq 0 6) as [|c r (fs & IH)]; cbn [flush_tree_from].
  - eexists. reflexivity.
  - rewrite IH. destruct (t c) as [n|] eqn:E; cbn [rbind].
    + destruct (H c) as [_ H']. destruct (flush_repr _ _ (H' _ E)) as (a & ->). eexists. reflexivity.
    + eexists. reflexivity.
Qed.
Lemma can_flush_lemma {A U} uids annos nu incl excl recs s :
  make_decoder uids annos nu incl excl recs = Ok s -> separated (encodings (kept incl excl recs)) -> can_flush (A := A) (U := U) s.
Proof.
  unfold make_decoder. intros H S. destruct (builder_new uids annos nu) as [b0| | |] eqn:E; cbn [rbind] in H; try discriminate.
  destruct s as [b t]. destruct (configured _ _ _ _ _ _ _ _ _ E H S) as (X & P & T & _).
  apply can_flush_tree. exact (flush_tree_ok _ _ T).
Qed.
Lemma ready uids annos nu incl excl recs s : 0 < nu < w32 -> make_decoder uids annos nu incl excl recs = Ok s ->
  named_once (b_inst (fst s)) /\ stash_ok (fst s).
Proof.
  intros N H. split.
  - destruct (configured_ids _ _ _ _ _ _ _ N H) as (P & [_ R _] & _). eapply reg_named_once; eauto.
  - apply stash_ok_empty. eapply configured_stash; eauto.
Qed.

Section Hist.
Context {A U : Type} (u0 : U) (uids : list (string * N)) (annos : list (string * anno)) (nu : N)
  (incl excl : list pattern) (recs : list irec) (s : builder * tree).
Context (NU : 0 < nu < w32) (HD : make_decoder uids annos nu incl excl recs = Ok s).
Notation op := (op A U).
Notation d0 := (dt_new (A := A) (U := U) s).

Lemma plain_lemma (ops : list op) : Forall (covered s) ops -> map view (snd (run u0 d0 ops)) = prun u0 s [] ops.
Proof. destruct (ready _ _ _ _ _ _ _ NU HD) as [N S]. apply run_sim; [exact N|]. now apply sim_new. Qed.

Lemma pstep_query (o : op) h h' : is_query o -> snd (pstep u0 s h o) = snd (pstep u0 s h' o).
Proof.
  destruct o; cbn [is_query pstep]; intros Q; try contradiction; [reflexivity|..];
    unfold give; match goal with |- context [match ?r with _ => _ end] => now destruct r end.
Qed.
Lemma history_lemma (h : list op) o : Forall (covered s) h -> covered s o -> is_query o ->
  view (snd (step u0 (fst (run u0 d0 h)) o)) = view (snd (step u0 d0 o)).
Proof.
  intros F C Q. destruct (ready _ _ _ _ _ _ _ NU HD) as [N S].
  destruct (state_sim u0 s N h d0 [] (sim_new u0 s S) F) as (h' & SM).
  destruct (step_sim u0 s N _ _ o SM C) as [_ ->]. destruct (step_sim u0 s N _ _ o (sim_new u0 s S) C) as [_ ->].
  now apply pstep_query.
Qed.

Lemma prun_visible (ops : list op) : forall h, visible ops (prun u0 s h ops) = prun u0 s h (filter (fun o => negb (is_flush o)) ops).
Proof.
  induction ops as [|o r IH]; intros h; [reflexivity|]. unfold visible in *.
  destruct (is_flush o) eqn:E.
  - destruct o; try discriminate. cbn [prun pstep filter is_flush negb combine map fst snd]. apply IH.
  - cbn [prun filter]. rewrite E. cbn [negb prun]. destruct (pstep u0 s h o) as [h' a]. specialize (IH h').
    destruct a; cbn [combine filter map fst snd]; rewrite ?E; cbn [negb map snd]; rewrite ?IH; try reflexivity; destruct r; reflexivity.
Qed.
Lemma visible_map {T T'} (f : T -> T') (ops : list op) : forall l, visible ops (map f l) = map f (visible ops l).
Proof.
  unfold visible. induction ops as [|o r IH]; intros [|a l]; [reflexivity..|].
  cbn [map combine filter fst]. destruct (negb (is_flush o)); cbn [map snd]; now rewrite IH.
Qed.
Lemma flush_lemma (ops : list op) : Forall (covered s) ops ->
  map view (visible ops (snd (run u0 d0 ops))) = map view (snd (run u0 d0 (filter (fun o => negb (is_flush o)) ops))).
Proof.
  intros F. rewrite <- visible_map, plain_lemma by exact F. rewrite plain_lemma; [apply prun_visible|].
  apply Forall_forall. intros o H. apply filter_In in H as [H _]. rewrite Forall_forall in F. auto.
Qed.
End Hist.
