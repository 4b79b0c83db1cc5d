(** Annotations are local too (C61). *)
From Coq Require Import NArith List Bool String Lia.
From Verif Require Import M_Base M_Field M_Forms M_Meta M_OperandInfo M_Extract M_Decoded M_Cache M_Registry M_Trie M_Builder M_DTable.
From Verif Require Import S_Bits L_Bits S_Trie S_Agree S_Table S_Anno S_Local L_Count L_Trie L_Meta L_Agree L_Table L_Calm L_Decode L_Ids L_Total L_AnnoDecode L_Local.
Import ListNotations.
Local Open Scope N_scope.

Lemma hit_plain uids annos nu incl excl recs s (HD : make_decoder uids annos nu incl excl recs = Ok s) (W : well_formed (kept incl excl recs)) r mn0 mn mask ic :
  In r (kept incl excl recs) -> is_inst r mn0 -> overlay_hit (kept incl excl recs) mn mn0 mask ic -> r_expand r = ""%string /\ fname_of r mn0 = mn0.
Proof.
  intros Hr HI (ro & Q1 & Q2). destruct (wf_base _ W _ _ _ _ _ Q1 Q2) as [SO _]. split.
  - unfold make_decoder in HD. destruct s as [b t].
    destruct (builder_new uids annos nu) as [b0| | |] eqn:EB; cbn [rbind] in HD; try discriminate.
    destruct (configured _ _ _ _ _ _ _ _ _ EB HD (wf_cells _ W)) as (X & P & _ & _ & I & _ & HP).
    destruct Q2 as (Q2 & jo & Q3 & Q4 & Q5). pose proof (sole_sub _ _ _ _ _ HP SO) as SP.
    destruct (bi_overlays _ _ _ I ro mn) as (j & g & o & G1 & G2 & G3); [apply HP; split; [auto|congruence]|congruence|auto|].
    pose proof G3 as (_ & (jo' & G4 & G5) & G11 & _). apply overlay_parse_inv in G5 as [G5 G6].
    assert (jo' = jo) as -> by congruence. assert (ov_base o = mn0) as G7 by congruence.
    destruct (bi_ols _ _ _ I _ _ _ G1 G2) as (G8 & _). rewrite G7 in G8.
    destruct (bi_keys _ _ _ I _ _ G8) as [C|(r0 & K1 & K2 & K3 & K4)]; [destruct SP; tauto|].
    assert (r_mn r0 = Some mn0) as K5 by (destruct K4 as [K4|K4]; [auto|now apply SP]).
    rewrite (bi_uniq _ _ _ I r r0 mn0); auto; [apply HP; split; [auto|destruct HI; congruence]|split; auto].
  - unfold fname_of. destruct (proj2 (proj2 SO) r Hr (proj1 HI)) as [->| ->]; reflexivity.
Qed.

Section Local.
Context (uids uids' : list (string * N)) (annos : list (string * anno)) (nu nu' : N)
  (incl excl incl' excl' : list pattern) (recs recs' : list irec) (s s' : builder * tree) (ic : N).
Context (HD : make_decoder uids annos nu incl excl recs = Ok s)
  (HD' : make_decoder uids' annos nu' incl' excl' recs' = Ok s').
Let K := kept incl excl recs.
Let K' := kept incl' excl' recs'.
Context (WF : well_formed K) (WF' : well_formed K').
Context (HL : forall r e, matches e ic -> listed K r e <-> listed K' r e).
Lemma anno_local {A U} v v' : decode (A := A) (U := U) s ic = Ok v -> decode (A := A) (U := U) s' ic = Ok v' ->
  same_answer (Ok v) (Ok v') -> i_anno v = i_anno v'.
Proof.
  intros D D' SA.
  destruct (annotation_lemma _ _ _ _ _ _ _ HD WF ic v D) as (r & e & L & S & Q).
  destruct (annotation_lemma _ _ _ _ _ _ _ HD' WF' ic v' D') as (r' & e' & L' & S' & Q').
  assert (e' = e) as ->.
  { apply (selected_unique incl excl recs ic); [apply WF| |exact S]. destruct S' as (S1 & S2 & S3).
    split; [eapply listed_enc, HL; [exact S2|exact L']|]. split; [exact S2|].
    intros e0 H1 H2. apply S3; [|exact H2]. destruct (enc_listed _ _ H1) as (r0 & H3). eapply listed_enc, HL; [exact H2|exact H3]. }
  assert (LR : listed K r' e) by (apply (HL r' e); [apply S|exact L']).
  assert (r' = r) as ->.
  { eapply (insts_unique _ _ _ _ _ _ _ HD (wf_cells _ WF) r' r (en_mn e)); [apply LR|apply L|..];
      [apply (listed_mn r' e (proj2 L'))|apply (listed_mn r e (proj2 L))]. }
  destruct (listed_mn _ _ (proj2 L)) as (HI & _).
  assert (MN : d_mnemonic (i_di v') = d_mnemonic (i_di v)).
  { destruct SA as (_ & B & _). apply (f_equal d_mnemonic) in B. symmetry. exact B. }
  assert (PL : r_expand r = ""%string -> fname_of r (en_mn e) = en_mn e -> base_anno annos r (en_mn e) = either annos (en_mn e) (en_mn e)).
  { intros E1 E2. unfold base_anno. rewrite E1, E2. reflexivity. }
  rewrite MN in Q'. destruct Q as [[Q1 Q2]|[[mask Q1] Q2]], Q' as [[Q1' Q2']|[[mask' Q1'] Q2']].
  - rewrite Q2, Q2'. reflexivity.
  - rewrite Q2, Q2', Q1. destruct (hit_plain _ _ _ _ _ _ _ HD' WF' r _ _ _ _ (proj1 L') HI Q1'). auto.
  - rewrite Q2, Q2', Q1'. symmetry. destruct (hit_plain _ _ _ _ _ _ _ HD WF r _ _ _ _ (proj1 L) HI Q1). auto.
  - rewrite Q2, Q2'. reflexivity.
Qed.
End Local.
Lemma local_anno uids uids' annos nu nu' incl excl incl' excl' recs recs' s s' ic :
  0 < nu < w32 -> 0 < nu' < w32 ->
  make_decoder uids annos nu incl excl recs = Ok s -> make_decoder uids' annos nu' incl' excl' recs' = Ok s' ->
  well_formed (kept incl excl recs) -> well_formed (kept incl' excl' recs') ->
  (forall r, concerns (kept incl excl recs) ic r <-> concerns (kept incl' excl' recs') ic r) ->
  forall A U v v', decode (A := A) (U := U) s ic = Ok v -> decode (A := A) (U := U) s' ic = Ok v' -> i_anno v = i_anno v'.
Proof.
  intros HN HN' HD HD' WF WF' HC A U v v' D D'. pose proof (local_lemma _ _ _ _ _ _ _ _ _ _ _ _ _ _ _ HN HN' HD HD' WF WF' HC A U) as SA.
  rewrite D, D' in SA. apply (anno_local _ _ _ _ _ _ _ _ _ _ _ _ _ ic HD HD' WF WF') with (A := A) (U := U); auto.
  intros r e M. assert (C : In e (rec_encs r) -> exists e, In e (rec_encs r) /\ matches e ic) by (intros H; exists e; auto).
  split; intros [L1 L2]; (split; [|exact L2]); [apply (proj1 (HC r))|apply (proj2 (HC r))]; (split; [exact L1|]); left; auto.
Qed.
Lemma extend_anno uids uids' annos nu nu' incl excl recs more s s' ic : 0 < nu < w32 -> 0 < nu' < w32 ->
  make_decoder uids annos nu incl excl recs = Ok s -> make_decoder uids' annos nu' incl excl (recs ++ more) = Ok s' ->
  well_formed (kept incl excl recs) -> well_formed (kept incl excl (recs ++ more)) ->
  unconcerned (kept incl excl more) ic ->
  forall A U v v', decode (A := A) (U := U) s ic = Ok v -> decode (A := A) (U := U) s' ic = Ok v' -> i_anno v = i_anno v'.
Proof.
  intros HN HN' HD HD' WF WF' UC A U v v' D D'. pose proof (extend_lemma _ _ _ _ _ _ _ _ _ _ _ _ _ HN HN' HD HD' WF WF' UC A U) as SA.
  rewrite D, D' in SA. apply (anno_local _ _ _ _ _ _ _ _ _ _ _ _ _ ic HD HD' WF WF') with (A := A) (U := U); auto.
  exact (ext_listed incl excl recs more ic UC).
Qed.
