(** The answer for an opcode depends on the records that have a say in it only (C61). *)
From Coq Require Import NArith List Bool String Lia.
From Verif Require Import M_Base M_Field M_Forms M_Meta M_OperandInfo M_Extract M_Decoded M_Cache M_Registry M_Trie M_Builder M_DTable.
From Verif Require Import S_Bits L_Bits S_Trie S_Agree S_Table S_Local L_Count L_Trie L_Meta L_Agree L_Table L_Calm L_Decode L_Ids L_Total.
Import ListNotations.
Local Open Scope N_scope.

Section Local.
Context (uids uids' : list (string * N)) (annos annos' : list (string * anno)) (nu nu' : N)
  (incl excl incl' excl' : list pattern) (recs recs' : list irec) (s s' : builder * tree) (ic : N).
Context (HN : 0 < nu < w32) (HN' : 0 < nu' < w32)
  (HD : make_decoder uids annos nu incl excl recs = Ok s)
  (HD' : make_decoder uids' annos' nu' incl' excl' recs' = Ok s').
Let K := kept incl excl recs.
Let K' := kept incl' excl' recs'.
Context (WF : well_formed K) (WF' : well_formed K').
Context (HL : forall r e, matches e ic -> listed K r e <-> listed K' r e).
Context (HO : forall r e ro mn mask, listed K r e -> matches e ic -> overlays ro mn (en_mn e) mask (N.land ic mask) ->
  In ro K <-> In ro K').
Context (HX : forall r e m, listed K r e -> matches e ic -> r_expand r <> ""%string ->
  (exists m0, expansion_meta K (r_expand r) m0) -> expansion_meta K' (r_expand r) m -> expansion_meta K (r_expand r) m).

Lemma enc_listed E e : In e (encodings E) -> exists r, listed E r e.
Proof. unfold encodings. intros H. apply in_flat_map in H as (r & H). exists r. exact H. Qed.
Lemma listed_enc E r e : listed E r e -> In e (encodings E).
Proof. intros H. apply in_flat_map. exists r. exact H. Qed.
Lemma reads_local r e y y' : listed K r e -> matches e ic -> reads K r e ic y -> reads K' r e ic y' -> reads K r e ic y'.
Proof.
  intros L M RY.
  assert (EX : (forall mn mask, ~ overlay_hit K mn (en_mn e) mask ic) -> r_expand r <> ""%string -> exists m0, expansion_meta K (r_expand r) m0).
  { intros NH NE. destruct RY as [((_ & [[Q _]|(_ & m0 & m1 & Q & _)] & _) & _)|(ro & mask & Q1 & (Q2 & _) & _)]; [contradiction|eauto|].
    exfalso. apply (NH (rd_mn y) mask). exists ro. auto. }
  assert (HIT : forall mn mask, overlay_hit K mn (en_mn e) mask ic -> overlay_hit K' mn (en_mn e) mask ic).
  { intros mn mask (ro & Q1 & Q2). exists ro. split; [eapply HO; eauto|auto]. }
  intros [((D1 & D2 & D3) & D4)|(ro & mask & D1 & D2 & D3)].
  - left. split; [split; [auto|split; [|auto]]|].
    + destruct D2 as [D2|(D2 & m0 & m1 & Q1 & Q2)]; [left; auto|right]. split; [auto|]. exists m0, m1. split; [|auto].
      eapply HX; eauto. apply EX; [|exact D2]. intros mn mask Q. eapply D4, HIT, Q.
    + intros mn mask Q. eapply D4, HIT, Q.
  - right. exists ro, mask. split; [eapply HO; [exact L|exact M|apply D2|exact D1]|]. split; [auto|].
    intros mn mask' Q. eapply D3, HIT, Q.
Qed.

(** Both answers are the same reading, each under its decoder's UID. *)
Lemma both {A U} :
  (decode (A := A) (U := U) s ic = decode (A := A) (U := U) s' ic /\ forall v, decode (A := A) (U := U) s ic <> Ok v) \/
  exists r e y u u', listed K r e /\ matches e ic /\
    answers y u ic (decode (A := A) (U := U) s ic) /\ answers y u' ic (decode (A := A) (U := U) s' ic) /\ u <> 0 /\
    (rd_mn y = en_mn e -> u = lookup_uid s (uid_name r (en_mn e)) /\ u' = lookup_uid s' (uid_name r (en_mn e))) /\
    (rd_mn y <> en_mn e -> u = lookup_uid s (rd_mn y) /\ u' = lookup_uid s' (rd_mn y)).
Proof.
  destruct (outcome _ _ _ _ _ _ _ HN HD WF (A := A) (U := U) ic) as [[N1 Q1]|(r & e & x & L & S & X & D)];
  destruct (outcome _ _ _ _ _ _ _ HN' HD' WF' (A := A) (U := U) ic) as [[N2 Q2]|(r' & e' & x' & L' & S' & X' & D')].
  - left. rewrite Q1, Q2. split; [reflexivity|discriminate].
  - exfalso. apply (N1 e'); [|apply S']. eapply listed_enc, HL; [apply S'|exact L'].
  - exfalso. apply (N2 e); [|apply S]. eapply listed_enc, HL; [apply S|exact L].
  - assert (e' = e) as ->.
    { apply (selected_unique incl excl recs ic); [apply WF| |exact S]. destruct S' as (S1 & S2 & S3).
      split; [eapply listed_enc, HL; [exact S2|exact L']|]. split; [exact S2|].
      intros e0 H1 H2. apply S3; [|exact H2]. destruct (enc_listed _ _ H1) as (r0 & H3). eapply listed_enc, HL; [exact H2|exact H3]. }
    assert (r' = r) as ->.
    { eapply (insts_unique _ _ _ _ _ _ _ HD (wf_cells _ WF) r' r (en_mn e)); [apply (HL r' e); [apply S|exact L']|apply L|..];
        [apply (listed_mn r' e (proj2 L'))|apply (listed_mn r e (proj2 L))]. }
    assert (x' = x) as -> by eauto using extractor_of_fun.
    destruct D as [[D Q1]|(D & y & u & RY & AN & NZ & U1 & U2)], D' as [[D' Q2]|(D' & y' & u' & RY' & AN' & NZ' & U1' & U2')]; try contradiction.
    + left. rewrite Q1, Q2. split; [reflexivity|discriminate].
    + right. assert (y' = y) as ->.
      { eapply (reads_fun _ _ _ _ _ _ _ HD WF r e ic); [exact L| |exact RY]. apply (reads_local r e y); [exact L|apply S|exact RY|exact RY']. }
      exists r, e, y, u, u'. split; [exact L|]. split; [apply S|]. split; [exact AN|]. split; [exact AN'|]. split; [exact NZ|].
      split; intros; split; auto.
Qed.
Lemma alike {A U} : same_answer (decode (A := A) (U := U) s ic) (decode (A := A) (U := U) s' ic).
Proof.
  destruct (both (A := A) (U := U)) as [[Q NV]|(r & e & y & u & u' & _ & _ & A1 & A2 & _)]; [|eapply answers_same; eauto].
  rewrite <- Q. destruct (decode s ic) as [v| | |] eqn:E; cbn; auto.
Qed.
End Local.

Lemma local_lemma uids uids' annos annos' nu nu' incl excl incl' excl' recs recs' s s' ic :
  0 < nu < w32 -> 0 < nu' < w32 ->
  make_decoder uids annos nu incl excl recs = Ok s -> make_decoder uids' annos' nu' incl' excl' recs' = Ok s' ->
  well_formed (kept incl excl recs) -> well_formed (kept incl' excl' recs') ->
  (forall r, concerns (kept incl excl recs) ic r <-> concerns (kept incl' excl' recs') ic r) ->
  forall A U, same_answer (decode (A := A) (U := U) s ic) (decode (A := A) (U := U) s' ic).
Proof.
  intros HN HN' HD HD' WF WF' HC A U.
  set (K := kept incl excl recs) in *. set (K' := kept incl' excl' recs') in *.
  assert (HL : forall r e, matches e ic -> listed K r e <-> listed K' r e).
  { intros r e M. assert (C : In e (rec_encs r) -> exists e, In e (rec_encs r) /\ matches e ic) by (intros H; exists e; auto).
    split; intros [L1 L2]; (split; [|exact L2]); [apply (proj1 (HC r))|apply (proj2 (HC r))]; (split; [exact L1|]); left; auto. }
  apply (alike _ _ _ _ _ _ _ _ _ _ _ _ _ _ ic HN HN' HD HD' WF WF' HL).
  - intros r e ro mn mask L M O.
    split; intros H; [apply (proj1 (HC ro))|apply (proj2 (HC ro))]; (split; [exact H|]); right; left; exists r, e; (split; [|eauto]); [exact L|now apply HL].
  - fold K K'. intros r e m L M NE _.
    assert (NM : forall r0, r_mn r0 = Some (r_expand r) -> In r0 K <-> In r0 K').
    { intros r0 H0. split; intros H; [apply (proj1 (HC r0))|apply (proj2 (HC r0))]; (split; [exact H|]); right; right; exists r, e; (split; [|eauto]); [exact L|now apply HL]. }
    intros [(r0 & Q1 & Q2 & Q3)|((Q1 & Q2) & Q3)].
    + left. exists r0. split; [apply NM; [apply Q2|exact Q1]|auto].
    + right. split; [|exact Q3]. split; [exact Q1|]. intros r0 H1 H2. apply Q2; [apply NM; auto|exact H2].
Qed.

(** ** Ids stay *)
Lemma configure_app incl excl recs more : forall s,
  configure incl excl (recs ++ more) s = let* s' := configure incl excl recs s in configure incl excl more s'.
Proof.
  induction recs as [|r recs IH]; intros s; cbn [configure app]; [reflexivity|].
  destruct (r_mn r); [|destruct (r_pseudo r); [apply IH|reflexivity]].
  destruct (tag_filter _ _ _); [|apply IH]. destruct (parse_inst s r s0); cbn [rbind]; [apply IH|reflexivity..].
Qed.
Lemma bld_le b mn fn xp st m b' i : bld b mn fn xp st m = Ok (b', i) -> b_le b b'.
Proof.
  destruct (String.eqb_spec xp "") as [E|E].
  - rewrite E. intros H. apply bld_normal_inv in H. apply H.
  - intros H. apply bld_expand_inv in H; [apply H|exact E].
Qed.
Lemma configure_le incl excl recs s s' : configure incl excl recs s = Ok s' -> b_le (fst s) (fst s').
Proof.
  intros H. edestruct (configure_keep (fun _ b => b_le (fst s) b)) with (P := @nil irec) (4 := b_le_refl (fst s)) (5 := H) as (P' & Q & _).
  - intros P b mn m L. eapply b_le_trans; [exact L|]. apply b_le_same; reflexivity.
  - intros P b r mn st m b' i _ L E. eapply b_le_trans; [exact L|]. eapply bld_le; eauto.
  - intros P b r mn o x b' _ _ L E. eapply b_le_trans; [exact L|]. apply build_overlay_inv in E. apply E.
  - exact Q.
Qed.
Lemma extend_ids uids annos nu incl excl recs more s s' :
  make_decoder uids annos nu incl excl recs = Ok s -> make_decoder uids annos nu incl excl (recs ++ more) = Ok s' ->
  forall mn, lookup_uid s mn <> 0 -> lookup_uid s' mn = lookup_uid s mn.
Proof.
  unfold make_decoder. destruct (builder_new _ _ _) as [b| | |]; cbn [rbind]; try discriminate.
  intros H H'. rewrite configure_app, H in H'. cbn [rbind] in H'. apply configure_le in H'.
  intros mn. unfold lookup_uid, ir_uid. destruct (mfind (ir_map (b_inst (fst s))) mn) as [u|] eqn:E; [|intros N; exfalso; apply N; reflexivity].
  intros _. apply (bl_ids _ _ H') in E. rewrite E. reflexivity.
Qed.

(** ** Adding records *)
Lemma kept_app incl excl a b : kept incl excl (a ++ b) = (kept incl excl a ++ kept incl excl b)%list.
Proof. apply filter_app. Qed.
Section Extend.
Context (uids uids' : list (string * N)) (annos annos' : list (string * anno)) (nu nu' : N)
  (incl excl : list pattern) (recs more : list irec) (s s' : builder * tree) (ic : N).
Context (HN : 0 < nu < w32) (HN' : 0 < nu' < w32)
  (HD : make_decoder uids annos nu incl excl recs = Ok s)
  (HD' : make_decoder uids' annos' nu' incl excl (recs ++ more) = Ok s').
Let K := kept incl excl recs.
Let K' := kept incl excl (recs ++ more).
Context (WF : well_formed K) (WF' : well_formed K') (UC : unconcerned (kept incl excl more) ic).

Lemma ext_in r : In r K' <-> In r K \/ In r (kept incl excl more).
Proof. unfold K'. rewrite kept_app, in_app_iff. reflexivity. Qed.
Lemma ext_listed r e : matches e ic -> listed K r e <-> listed K' r e.
Proof.
  intros M. split; intros [L1 L2]; (split; [|exact L2]).
  - apply ext_in. auto.
  - apply ext_in in L1 as [L1|L1]; [exact L1|]. exfalso. apply (proj1 UC e); [|exact M]. apply in_flat_map. exists r. auto.
Qed.
Lemma ext_overlays (r : irec) e ro mn mask : listed K r e -> matches e ic -> overlays ro mn (en_mn e) mask (N.land ic mask) ->
  In ro K <-> In ro K'.
Proof.
  intros _ _ O. rewrite ext_in. split; [auto|]. intros [H|H]; [exact H|].
  exfalso. apply (proj2 UC mn (en_mn e) mask). exists ro. auto.
Qed.
Lemma ext_meta r e m : listed K r e -> matches e ic -> r_expand r <> ""%string ->
  (exists m0, expansion_meta K (r_expand r) m0) -> expansion_meta K' (r_expand r) m -> expansion_meta K (r_expand r) m.
Proof.
  intros L M NE (m0 & HM). destruct (listed_mn _ _ (proj2 L)) as (HI & _).
  assert (UR : forall r r' mn, In r K' -> In r' K' -> is_inst r mn -> is_inst r' mn -> r = r')
    by exact (insts_unique _ _ _ _ _ _ _ HD' (wf_cells _ WF')).
  intros [(r0 & Q1 & Q2 & Q3)|((Q1 & Q2) & Q3)].
  - left. exists r0. split; [|auto].
    assert (~ custom (r_expand r)) as NC.
    { destruct (wf_expand _ WF' r (en_mn e) (proj1 (proj1 (ext_listed r e M) L)) HI NE) as (_ & [[NC _]|[_ UT]]); [exact NC|].
      exfalso. destruct Q2 as [Q2 Q2']. destruct (UT r0 Q1 Q2) as [N1 _]. auto. }
    destruct HM as [(r1 & H1 & H2 & _)|[[CU _] _]]; [|contradiction].
    replace r0 with r1; [exact H1|]. apply (UR r1 r0 (r_expand r)); auto. apply ext_in. auto.
  - right. split; [|exact Q3]. split; [exact Q1|]. intros r0 H1 H2. apply Q2; [apply ext_in; auto|exact H2].
Qed.
Lemma extend {A U} : same_answer (decode (A := A) (U := U) s ic) (decode (A := A) (U := U) s' ic).
Proof. exact (alike _ _ _ _ _ _ _ _ _ _ _ _ _ _ ic HN HN' HD HD' WF WF' ext_listed ext_overlays ext_meta). Qed.
End Extend.
Lemma extend_lemma uids uids' annos annos' nu nu' incl excl recs more s s' ic : 0 < nu < w32 -> 0 < nu' < w32 ->
  make_decoder uids annos nu incl excl recs = Ok s -> make_decoder uids' annos' nu' incl excl (recs ++ more) = Ok s' ->
  well_formed (kept incl excl recs) -> well_formed (kept incl excl (recs ++ more)) ->
  unconcerned (kept incl excl more) ic ->
  forall A U, same_answer (decode (A := A) (U := U) s ic) (decode (A := A) (U := U) s' ic).
Proof. intros HN HN' HD HD' WF WF' UC A U. exact (extend _ _ _ _ _ _ _ _ _ _ _ _ _ HN HN' HD HD' WF WF' UC). Qed.

(** With the same UID list and counter the UIDs are the same, too. *)
Lemma answers_uid y u ic r r' : answers y u ic r -> answers y u ic r' -> same_and_uid r r'.
Proof.
  unfold answers. destruct (decode_info _ u _ _ _) as [d| | |].
  - intros [a ->] [a' ->]. split; [reflexivity|]. split; [reflexivity|]. split; reflexivity.
  - intros -> ->. reflexivity.
  - intros -> ->. exact I.
  - intros -> ->. exact I.
Qed.
Lemma extend_uid uids annos nu incl excl recs more s s' ic : 0 < nu < w32 ->
  make_decoder uids annos nu incl excl recs = Ok s -> make_decoder uids annos nu incl excl (recs ++ more) = Ok s' ->
  well_formed (kept incl excl recs) -> well_formed (kept incl excl (recs ++ more)) -> unconcerned (kept incl excl more) ic ->
  forall A U, same_and_uid (decode (A := A) (U := U) s ic) (decode (A := A) (U := U) s' ic).
Proof.
  intros HN HD HD' WF WF' UC A U. pose proof (extend_ids _ _ _ _ _ _ _ _ _ HD HD') as ID.
  destruct (both _ _ _ _ _ _ _ _ _ _ _ _ _ _ ic HN HN HD HD' WF WF'
      (ext_listed incl excl recs more ic UC) (ext_overlays incl excl recs more ic UC) (ext_meta _ _ _ incl excl recs more _ ic HD' WF' UC) (A := A) (U := U))
    as [[Q NV]|(r & e & y & u & u' & L & M & A1 & A2 & NZ & U1 & U2)].
  - rewrite <- Q. destruct (decode s ic) as [v| | |] eqn:E; cbn; auto.
  - assert (u' = u) as ->; [|eapply answers_uid; eauto].
    destruct (String.eqb_spec (rd_mn y) (en_mn e)) as [E|E].
    + destruct (U1 E) as [-> ->]. apply ID. exact NZ.
    + destruct (U2 E) as [-> ->]. apply ID. exact NZ.
Qed.
