(** Lemmas: sets of tags and patterns. *)
From Coq Require Import Ascii NArith List Bool String Sorted.
From Verif Require Import M_Base M_Meta M_Decoded M_Trie M_Builder M_DTable M_MatchSet S_Trie S_Table S_MatchSet S_Shipped L_Claims.
Import ListNotations.

(** ** The order *)
Lemma compare_refl s : String.compare s s = Eq.
Proof.
  pose proof (String.compare_antisym s s) as H. destruct (String.compare s s); [reflexivity|discriminate..].
Qed.
Lemma ascii_trans a b c : Ascii.compare a b = Lt -> Ascii.compare b c = Lt -> Ascii.compare a c = Lt.
Proof. unfold Ascii.compare. rewrite !N.compare_lt_iff. apply N.lt_trans. Qed.
Lemma ascii_eq a b : Ascii.compare a b = Eq -> a = b.
Proof. apply Ascii.compare_eq_iff. Qed.
Lemma before_trans a b c : before a b -> before b c -> before a c.
Proof.
  unfold before. revert b c. induction a as [|x a IH]; intros [|y b] [|z c]; cbn; try discriminate; auto.
  destruct (Ascii.compare x y) eqn:E1; [|intros _|discriminate].
  - apply ascii_eq in E1. subst y. intros H1. destruct (Ascii.compare x z) eqn:E2; [|reflexivity|discriminate]. now apply IH.
  - destruct (Ascii.compare y z) eqn:E2; [|intros _|discriminate].
    + apply ascii_eq in E2. subst z. rewrite E1. reflexivity.
    + now rewrite (ascii_trans _ _ _ E1 E2).
Qed.
Lemma before_not a : ~ before a a.
Proof. unfold before. rewrite compare_refl. discriminate. Qed.
Lemma gt_before a b : String.compare a b = Gt -> before b a.
Proof. unfold before. rewrite String.compare_antisym. destruct (String.compare b a); cbn; congruence. Qed.

(** ** Sets *)
Definition sset (l : list string) : Prop := StronglySorted before l.
Lemma insert_in s l x : In x (set_insert s l) <-> x = s \/ In x l.
Proof.
  induction l as [|y l IH]; cbn; [intuition congruence|]. destruct (String.compare s y) eqn:E; cbn.
  - apply String.compare_eq_iff in E. subst. intuition congruence.
  - intuition congruence.
  - rewrite IH. intuition.
Qed.
Lemma insert_sorted s l : sset l -> sset (set_insert s l).
Proof.
  unfold sset. induction 1 as [|y l S IH F]; cbn; [repeat constructor|]. destruct (String.compare s y) eqn:E.
  - now constructor.
  - constructor; [now constructor|]. constructor; [exact E|]. rewrite Forall_forall in *. intros x X. eapply before_trans; [exact E|]. now apply F.
  - constructor; [exact IH|]. rewrite Forall_forall in *. intros x X. apply insert_in in X as [->|X]; [now apply gt_before|]. now apply F.
Qed.
Lemma inserts_in l acc x : In x (fold_left (fun acc s => set_insert s acc) l acc) <-> In x l \/ In x acc.
Proof.
  revert acc. induction l as [|s l IH]; intros acc; cbn; [tauto|]. rewrite IH, insert_in. intuition congruence.
Qed.
Lemma inserts_sorted l acc : sset acc -> sset (fold_left (fun acc s => set_insert s acc) l acc).
Proof. revert acc. induction l as [|s l IH]; intros acc H; cbn; [exact H|]. apply IH, insert_sorted, H. Qed.
Lemma set_of_in l x : In x (set_of l) <-> In x l.
Proof. unfold set_of. rewrite inserts_in. cbn. tauto. Qed.
Lemma set_of_sorted l : sset (set_of l).
Proof. apply inserts_sorted. constructor. Qed.
Lemma sorted_unique l : sset l -> forall l', sset l' -> (forall x, In x l <-> In x l') -> l = l'.
Proof.
  unfold sset. induction 1 as [|a l S IH F]; intros l' S' Q.
  - destruct l' as [|b l']; [reflexivity|]. exfalso. apply (proj2 (Q b)). now left.
  - destruct S' as [|b l' S' F']; [exfalso; apply (proj1 (Q a)); now left|]. rewrite Forall_forall in *.
    assert (E : a = b).
    { destruct (proj1 (Q a) (or_introl eq_refl)) as [E|Y]; [now symmetry|]. destruct (proj2 (Q b) (or_introl eq_refl)) as [E|X]; [exact E|].
      exfalso. apply (before_not a). eapply before_trans; [apply F, X|apply F', Y]. }
    subst b. f_equal. apply IH; [exact S'|]. intros x. split; intros X.
    + destruct (proj1 (Q x) (or_intror X)) as [<-|Y]; [|exact Y]. exfalso. eapply before_not, F, X.
    + destruct (proj2 (Q x) (or_intror X)) as [<-|Y]; [|exact Y]. exfalso. eapply before_not, F', X.
Qed.

(** ** The invariant *)
Lemma made_spec m : sset (ms_s (made_by m)) /\ (forall s, In s (ms_s (made_by m)) <-> member m s) /\
  (forall s, In s (ms_v (made_by m)) <-> member m s) /\ (ms_e (made_by m) = true <-> ms_v (made_by m) = []) /\
  (merged m -> ms_v (made_by m) = ms_s (made_by m)).
Proof.
  assert (E : forall l, is_empty_list l = true <-> l = []) by (intros [|]; cbn; split; congruence).
  assert (S : forall m l, sset (ms_s m) -> sset (ms_s (ms_merge_set m l))) by (intros; now apply inserts_sorted).
  induction m as [|v|v|m (IH1 & IH2 & IH3 & IH4 & _) v|m (IH1 & IH2 & IH3 & IH4 & _) v|m (IH1 & IH2 & IH3 & IH4 & _) o (J1 & J2 & J3 & J4 & _)]; cbn [made_by].
  - repeat split; cbn; try tauto. constructor.
  - split; [apply set_of_sorted|]. split; [intros s; apply set_of_in|]. split; [reflexivity|]. split; [apply E|intros []].
  - split; [apply set_of_sorted|]. split; [intros s; apply set_of_in|]. split; [intros s; apply set_of_in|]. split; [apply E|intros []].
  - split; [now apply S|]. cbn. split; [|split; [|split; [apply E|reflexivity]]]; intros s; rewrite inserts_in, set_of_in, IH2; tauto.
  - split; [now apply S|]. cbn. split; [|split; [|split; [apply E|reflexivity]]]; intros s; rewrite inserts_in, set_of_in, IH2; tauto.
  - split; [now apply S|]. cbn. split; [|split; [|split; [apply E|reflexivity]]]; intros s; rewrite inserts_in, IH2, J2; tauto.
Qed.
Lemma made_v m s : In s (ms_v (made_by m)) <-> member m s.
Proof. apply made_spec. Qed.

(** ** Claims *)
Lemma members_lemma m :
  (forall s, ms_is_member (made_by m) s = true <-> member m s) /\
  (ms_is_empty (made_by m) = true <-> forall s, ~ member m s) /\
  (forall s, In s (ms_get (made_by m)) <-> member m s).
Proof.
  destruct (made_spec m) as (_ & S2 & S3 & S4 & _). split; [|split; [|exact S3]].
  - intros s. unfold ms_is_member. rewrite existsb_exists. rewrite <- S2. split.
    + intros (x & X & E). apply String.eqb_eq in E. now subst.
    + intros H. exists s. split; [exact H|apply String.eqb_refl].
  - unfold ms_is_empty. rewrite S4. split.
    + intros E s H. apply S3 in H. rewrite E in H. destruct H.
    + intros H. destruct (ms_v (made_by m)) as [|s l]; [reflexivity|]. exfalso. apply (H s), S3. now left.
Qed.
Lemma canonical_lemma m m' : merged m -> merged m' -> (forall s, member m s <-> member m' s) -> made_by m = made_by m'.
Proof.
  intros M M' Q. destruct (made_spec m) as (S1 & S2 & S3 & S4 & S5), (made_spec m') as (T1 & T2 & T3 & T4 & T5).
  assert (E : ms_s (made_by m) = ms_s (made_by m')) by (apply sorted_unique; auto; intros x; rewrite S2, T2; apply Q).
  specialize (S5 M). specialize (T5 M'). destruct (made_by m) as [v e s], (made_by m') as [v' e' s']. cbn in *. subst. f_equal.
  destruct e, e'; try reflexivity; [symmetry; apply T4, S4; reflexivity|apply S4, T4; reflexivity].
Qed.
Lemma existsb_iff {T} (f : T -> bool) l (R : T -> Prop) (Q : T -> Prop) : (forall x, f x = true <-> R x) -> (forall x, In x l <-> Q x) ->
  (existsb f l = true <-> exists x, Q x /\ R x).
Proof. intros H1 H2. rewrite existsb_exists. split; intros (x & X & Y); exists x; (split; [now apply H2|now apply H1]). Qed.
Lemma forallb_iff {T} (f : T -> bool) l (R : T -> Prop) (Q : T -> Prop) : (forall x, f x = true <-> R x) -> (forall x, In x l <-> Q x) ->
  (forallb f l = true <-> forall x, Q x -> R x).
Proof. intros H1 H2. rewrite forallb_forall. split; intros H x X; apply H1, H, H2, X. Qed.
Lemma one_lemma P (mat : string -> P -> bool) m p :
  (match_any mat (made_by m) p = true <-> exists s, member m s /\ mat s p = true) /\
  (match_all mat (made_by m) p = true <-> forall s, member m s -> mat s p = true).
Proof.
  split; [apply (existsb_iff _ _ (fun s => mat s p = true))|apply (forallb_iff _ _ (fun s => mat s p = true))]; try reflexivity; apply made_v.
Qed.
Lemma two_lemma mat m o :
  (M_MatchSet.match_any_any mat (made_by m) (made_by o) = true <-> exists s, member m s /\ exists p, member o p /\ mat s p = true) /\
  (match_any_all mat (made_by m) (made_by o) = true <-> exists s, member m s /\ forall p, member o p -> mat s p = true) /\
  (match_all_any mat (made_by m) (made_by o) = true <-> forall s, member m s -> exists p, member o p /\ mat s p = true) /\
  (match_all_all mat (made_by m) (made_by o) = true <-> forall s, member m s -> forall p, member o p -> mat s p = true).
Proof.
  assert (X : forall s, existsb (mat s) (ms_get (made_by o)) = true <-> exists p, member o p /\ mat s p = true).
  { intros s. apply (existsb_iff _ _ (fun p => mat s p = true)); [reflexivity|]. apply made_v. }
  assert (Y : forall s, forallb (mat s) (ms_get (made_by o)) = true <-> forall p, member o p -> mat s p = true).
  { intros s. apply (forallb_iff _ _ (fun p => mat s p = true)); [reflexivity|]. apply made_v. }
  split; [|split; [|split]].
  - apply existsb_iff; [exact X|apply made_v].
  - apply existsb_iff; [exact Y|apply made_v].
  - apply forallb_iff; [exact X|apply made_v].
  - apply forallb_iff; [exact Y|apply made_v].
Qed.

(** ** Tags *)
Lemma parse_type_tags j m m' : parse_type j m = Ok m' -> mt_tags m' = mt_tags m.
Proof. unfold parse_type. destruct j; [|congruence]. destruct (add_types _ _); cbn; [|discriminate..]. intros [= <-]. reflexivity. Qed.
Lemma parse_data_tags j m m' : parse_data j m = Ok m' -> mt_tags m' = mt_tags m.
Proof. unfold parse_data. destruct j; [|congruence]. destruct (data_size_bad _); [discriminate|]. intros [= <-]. reflexivity. Qed.
Lemma parse_oper_tags c k m m' : parse_oper c k m = Ok m' -> mt_tags m' = mt_tags m.
Proof.
  unfold parse_oper, set_operands. destruct c as [[|l]|]; [intros [= <-]; reflexivity| |congruence].
  destruct (meta_field_set l); cbn; [|discriminate..]. intros [= <-]. reflexivity.
Qed.
Lemma bind_ok {S T} (r : res S) (f : S -> res T) v : rbind r f = Ok v -> exists a, r = Ok a /\ f a = Ok v.
Proof. destruct r; cbn; try discriminate. eauto. Qed.
Lemma parse_opers_tags j m m' : parse_opers j m = Ok m' -> mt_tags m' = mt_tags m.
Proof.
  unfold parse_opers. intros H. do 5 (let E := fresh in apply bind_ok in H as (? & E & H); apply parse_oper_tags in E). apply parse_oper_tags in H. congruence.
Qed.
Lemma parse_isa_tags l m m' : parse_isa l m = Ok m' -> mt_tags m' = mt_tags m.
Proof.
  revert m. induction l as [|[w x] l IH]; intros m; cbn [parse_isa]; [congruence|]. destruct (find _ _) as [[? i]|]; [|discriminate].
  intros H. apply bind_ok in H as (m2 & E & H). apply IH in H. rewrite H. clear H IH. destruct w as [n|]; [|injection E as <-; reflexivity].
  destruct (_ || _)%bool; [discriminate|]. unfold set_isa_width in E. apply bind_ok in E as (? & _ & E). injection E as <-. reflexivity.
Qed.
Lemma own_tags r m : own_meta r = Ok m -> mt_tags m = r_tags r.
Proof.
  unfold own_meta, make_meta. intros H. apply bind_ok in H as (m1 & H & E). apply bind_ok in H as (m2 & E1 & H). apply bind_ok in H as (m3 & E2 & H).
  apply bind_ok in H as (m4 & E3 & H). apply parse_type_tags in E1. apply parse_data_tags in E2. apply parse_opers_tags in E3. apply parse_isa_tags in H.
  assert (mt_tags m1 = r_tags r) by (rewrite H, E3, E2, E1; reflexivity). destruct (r_fixed r); injection E as <-; assumption.
Qed.
Lemma built_tags n m : built_in n m -> mt_tags m = [].
Proof. intros [[_ ->]|[_ ->]]; reflexivity. Qed.
Lemma tags_lemma {A U} uids annos nu incl excl recs s : (0 < nu < w32)%N -> make_decoder uids annos nu incl excl recs = Ok s -> well_formed (kept incl excl recs) ->
  forall ic v, decode (A := A) (U := U) s ic = Ok v ->
  exists r e, listed (kept incl excl recs) r e /\ selected (encodings (kept incl excl recs)) e ic /\
   ((d_mnemonic (i_di v) = en_mn e /\ base_tag (kept incl excl recs) r (fun t => In t (mt_tags (i_meta v)))) \/
    (exists ro mask, In ro (kept incl excl recs) /\ overlays ro (d_mnemonic (i_di v)) (en_mn e) mask (N.land ic mask) /\
      forall t, In t (mt_tags (i_meta v)) <-> In t (r_tags r) \/ In t (r_tags ro))).
Proof.
  intros HN HD WF ic v Q. destruct (C42_lemma uids annos nu incl excl recs s HN HD WF ic v Q) as (r & e & y & L & S & RD & _ & M & MN & _).
  exists r, e. split; [exact L|]. split; [exact S|]. rewrite M, MN. destruct RD as [[(B1 & B2 & _) _]|(ro & mask & I1 & (O1 & (m0 & O2 & O3) & _) & _)].
  - left. split; [exact B1|]. destruct B2 as [[B2 B3]|(B2 & m0 & m1 & B3 & B4 & ->)].
    + left. split; [exact B2|]. rewrite (own_tags _ _ B3). reflexivity.
    + right. split; [exact B2|]. cbn [meta_merge mt_tags]. destruct B3 as [(rx & X1 & X2 & X3)|[X1 X2]].
      * left. exists rx. rewrite (own_tags _ _ X3). split; [exact X1|]. split; [exact X2|]. reflexivity.
      * right. split; [exact X1|]. rewrite (built_tags _ _ X2). intros t [].
  - right. exists ro, mask. split; [exact I1|]. split; [exact O1|]. intros t. unfold meta_overrides in O3.
    apply bind_ok in O3 as (m1 & E1 & O3). apply bind_ok in O3 as (m2 & E2 & O3). injection O3 as <-. cbn [mt_tags].
    apply parse_type_tags in E1. apply parse_data_tags in E2. rewrite E2, E1, (own_tags _ _ O2). apply in_app_iff.
Qed.

(** ** Cases *)
Definition mem (t : string) (l : list string) : bool := existsb (String.eqb t) l.
Definition tags_seen (ic : N) : option (string * list string) :=
  match make_decoder [] [] 1 [] [] small with
  | Ok s => match decode (A := unit) (U := unit) s ic with Ok v => Some (d_mnemonic (i_di v), mt_tags (i_meta v)) | _ => None end
  | _ => None
  end.
Lemma tags_seen_ok ic n l : tags_seen ic = Some (n, l) -> exists s v, make_decoder [] [] 1 [] [] small = Ok s /\
  decode (A := unit) (U := unit) s ic = Ok v /\ d_mnemonic (i_di v) = n /\ mt_tags (i_meta v) = l.
Proof.
  unfold tags_seen. destruct (make_decoder _ _ _ _ _ _) as [s| | |]; try discriminate. destruct (decode s ic) as [v| | |] eqn:E; try discriminate.
  intros [= <- <-]. exists s, v. auto.
Qed.
Lemma untagged_lemma : exists recs s ic v r t, make_decoder [] [] 1 [] [] recs = Ok s /\ well_formed (kept [] [] recs) /\
  decode (A := unit) (U := unit) s ic = Ok v /\ In r recs /\ is_inst r (d_mnemonic (i_di v)) /\ In t (r_tags r) /\ ~ In t (mt_tags (i_meta v)).
Proof.
  destruct (tags_seen_ok 0x85 "c.addi" ["i"; "g"]%string ltac:(vm_compute; reflexivity)) as (s & v & E & D & M & T).
  destruct small_decoder as (s' & _ & _ & WF & _).
  assert (R : exists r, In r small /\ is_inst r "c.addi" /\ In "c"%string (r_tags r)).
  { assert (Q : existsb (fun r => (match r_mn r with Some n => String.eqb n "c.addi" | None => false end && match r_overlay r with None => true | _ => false end && mem "c" (r_tags r))%bool) small = true) by (vm_compute; reflexivity).
    apply existsb_exists in Q as (r & I1 & Q). apply andb_true_iff in Q as [Q Q3]. apply andb_true_iff in Q as [Q1 Q2]. exists r. split; [exact I1|].
    unfold is_inst. destruct (r_mn r) as [n|]; [|discriminate]. apply String.eqb_eq in Q1. subst n. destruct (r_overlay r); [discriminate|]. split; [auto|].
    unfold mem in Q3. apply existsb_exists in Q3 as (x & X & Y). apply String.eqb_eq in Y. now subst x. }
  destruct R as (r & R1 & R2 & R3). exists small, s, 0x85%N, v, r, "c"%string. rewrite M, T. split; [exact E|]. split; [exact WF|]. split; [exact D|]. split; [exact R1|]. split; [exact R2|]. split; [exact R3|].
  intros [H|[H|[]]]; discriminate.
Qed.
Lemma tags_case : exists s v w, make_decoder [] [] 1 [] [] small = Ok s /\ well_formed (kept [] [] small) /\
  decode (A := unit) (U := unit) s 0x85 = Ok v /\ d_mnemonic (i_di v) = "c.addi"%string /\ mt_tags (i_meta v) = ["i"; "g"]%string /\
  decode (A := unit) (U := unit) s 0x8093 = Ok w /\ d_mnemonic (i_di w) = "mv"%string /\ mt_tags (i_meta w) = ["i"; "g"; "i"; "g"]%string.
Proof.
  destruct (tags_seen_ok 0x85 "c.addi" ["i"; "g"]%string ltac:(vm_compute; reflexivity)) as (s & v & E & D & M & T).
  destruct (tags_seen_ok 0x8093 "mv" ["i"; "g"; "i"; "g"]%string ltac:(vm_compute; reflexivity)) as (s' & w & E' & D' & M' & T').
  destruct small_decoder as (s2 & _ & _ & WF & _). assert (s' = s) as -> by congruence. exists s, v, w. auto 10.
Qed.
