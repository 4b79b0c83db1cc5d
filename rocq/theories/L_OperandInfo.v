(** OperandInfo (C40). *)
From Coq Require Import NArith ZArith List Bool Lia ZifyBool ZifyN.
From Verif Require Import M_Base M_Meta M_OperandInfo S_Operands L_Bits.
Import ListNotations.
Local Open Scope N_scope.

Lemma kind_eqb_eq a b : kind_eqb a b = true <-> a = b.
Proof. destruct a, b; cbn; split; congruence. Qed.
Lemma okind_eqb_eq a b : okind_eqb a b = true <-> a = b.
Proof.
  destruct a as [a|], b as [b|]; cbn; try (split; congruence).
  rewrite kind_eqb_eq. split; congruence.
Qed.
Lemma fid_eqb_eq a b : fid_eqb a b = true <-> a = b.
Proof. destruct a, b; cbn; split; congruence. Qed.
Lemma fid_eqb_refl a : fid_eqb a a = true. Proof. now apply fid_eqb_eq. Qed.
Lemma ofid_eqb_eq a b : ofid_eqb a b = true <-> a = b.
Proof.
  destruct a as [a|], b as [b|]; cbn; try (split; congruence).
  rewrite fid_eqb_eq. split; congruence.
Qed.
Lemma ofid_eqb_refl a : ofid_eqb a a = true. Proof. now apply ofid_eqb_eq. Qed.
Lemma okind_eqb_refl a : okind_eqb a a = true. Proof. now apply okind_eqb_eq. Qed.
Lemma kind_eqb_refl a : kind_eqb a a = true. Proof. now apply kind_eqb_eq. Qed.
Lemma in_all_fids f : In f all_fids. Proof. destruct f; cbn; tauto. Qed.
Lemma in_all_kinds k : In k all_kinds. Proof. destruct k; cbn; tauto. Qed.

Lemma fi_matches_eq fi e : fi_matches fi e = true <->
  (fi_val fi = e_val e /\ fi_type fi = e_type e /\ fi_sdata fi = e_sdata e /\ fi_implied fi = e_implied e).
Proof.
  unfold fi_matches. rewrite !andb_true_iff, N.eqb_eq, okind_eqb_eq, !eqb_true_iff. tauto.
Qed.

(** The invariant kept by addElement. *)
Record oi_wf (o : opinfo) : Prop := {
  wf_n : oi_n o = u32 (N.of_nat (length (oi_elems o)));
  wf_imp : oi_implied o = existsb e_implied (oi_elems o);
  wf_some : forall f fi, oi_fids o f = Some fi ->
      (exists e, In e (oi_elems o) /\ e_fid e = Some f);
  wf_in : forall f e, In e (oi_elems o) -> e_fid e = Some f ->
      oi_fids o f = Some (mkFI (e_val e) (e_type e) (e_sdata e) (e_implied e));
  wf_types : forall k, oi_ntypes o k = u32 (n_typed (oi_elems o) k) }.

Lemma oi_wf_empty : oi_wf oi_empty.
Proof. constructor; cbn; auto; try discriminate; try tauto. Qed.

Lemma filter_add (P : fid -> bool) f : P f = false ->
  length (filter (fun g => P g || fid_eqb g f) all_fids) = S (length (filter P all_fids)).
Proof.
  intros H. assert (ND : NoDup all_fids) by (repeat constructor; cbn; intuition congruence).
  pose proof (in_all_fids f) as I.
  revert ND I. generalize all_fids as l. induction l as [|a l IH]; intros ND I; [destruct I|].
  inversion ND; subst. cbn [filter].
  destruct (fid_eqb a f) eqn:E.
  - apply fid_eqb_eq in E. subst a. rewrite H. cbn [orb length]. f_equal. f_equal.
    apply filter_ext_in. intros g Hg. destruct (fid_eqb g f) eqn:X; [|now rewrite orb_false_r].
    apply fid_eqb_eq in X. subst. contradiction.
  - rewrite orb_false_r. destruct I as [->|I]; [rewrite fid_eqb_refl in E; discriminate|].
    destruct (P a); cbn [length]; rewrite IH; auto.
Qed.
Lemma u32_succ x : u32 (u32 x + 1) = u32 (x + 1).
Proof. unfold u32. rewrite N.add_mod_idemp_l; [auto|discriminate]. Qed.

Lemma n_typed_snoc_old es e f k :
  e_fid e = Some f -> In e es -> n_typed (es ++ [e]) k = n_typed es k.
Proof.
  intros E I. unfold n_typed. f_equal.
  - do 2 f_equal. apply filter_ext. intros g. unfold has_typed_field. rewrite existsb_app. cbn [existsb].
    rewrite orb_false_r. destruct (ofid_eqb (e_fid e) (Some g) && okind_eqb (e_type e) (Some k)) eqn:X.
    + rewrite orb_true_r. symmetry. apply existsb_exists. exists e. auto.
    + now rewrite orb_false_r.
  - rewrite filter_app. cbn [filter]. rewrite E. cbn [ofid_eqb andb]. now rewrite app_nil_r.
Qed.
Lemma n_typed_snoc_new es e f k :
  e_fid e = Some f -> (forall e', In e' es -> e_fid e' <> Some f) ->
  n_typed (es ++ [e]) k = n_typed es k + (if okind_eqb (e_type e) (Some k) then 1 else 0).
Proof.
  intros E I. unfold n_typed. rewrite (filter_app _ es [e]). cbn [filter]. rewrite E. cbn [ofid_eqb andb].
  rewrite app_nil_r.
  set (t := N.of_nat (length (filter _ es))).
  assert (NF : has_typed_field es k f = false).
  { destruct (has_typed_field es k f) eqn:X; auto. unfold has_typed_field in X.
    apply existsb_exists in X as (e' & Hi & X). apply andb_true_iff in X as [X _].
    apply ofid_eqb_eq in X. exfalso. eapply I; eauto. }
  assert (L : length (filter (has_typed_field (es ++ [e]) k) all_fids) =
          ((if okind_eqb (e_type e) (Some k) then 1 else 0) + length (filter (has_typed_field es k) all_fids))%nat).
  { destruct (okind_eqb (e_type e) (Some k)) eqn:X.
    - cbn [plus]. rewrite <- (filter_add _ f NF). f_equal. apply filter_ext. intros g.
      unfold has_typed_field at 1. rewrite existsb_app. cbn [existsb]. rewrite orb_false_r, E, X, andb_true_r.
      unfold has_typed_field. cbn [ofid_eqb]. f_equal.
      destruct (fid_eqb f g) eqn:Y, (fid_eqb g f) eqn:Z; auto.
      + apply fid_eqb_eq in Y. subst. rewrite fid_eqb_refl in Z. discriminate.
      + apply fid_eqb_eq in Z. subst. rewrite fid_eqb_refl in Y. discriminate.
    - cbn [plus]. f_equal. apply filter_ext. intros g. unfold has_typed_field. rewrite existsb_app. cbn [existsb].
      now rewrite X, andb_false_r, !orb_false_r. }
  rewrite L. destruct (okind_eqb (e_type e) (Some k)); lia.
Qed.
Lemma n_typed_snoc_none es e k :
  e_fid e = None ->
  n_typed (es ++ [e]) k = n_typed es k + (if okind_eqb (e_type e) (Some k) then 1 else 0).
Proof.
  intros E. unfold n_typed. rewrite filter_app, app_length. cbn [filter]. rewrite E. cbn [ofid_eqb andb].
  replace (filter (has_typed_field (es ++ [e]) k) all_fids) with (filter (has_typed_field es k) all_fids).
  - destruct (okind_eqb (e_type e) (Some k)); cbn [length]; lia.
  - apply filter_ext. intros g. unfold has_typed_field. rewrite existsb_app. cbn [existsb].
    rewrite E. cbn [ofid_eqb andb orb]. now rewrite orb_false_r.
Qed.
Lemma bump_ok ot n k v :
  n k = u32 v -> bump ot n k = u32 (v + (if okind_eqb ot (Some k) then 1 else 0)).
Proof.
  intros H. destruct ot as [q|]; cbn.
  - destruct (kind_eqb k q) eqn:E.
    + apply kind_eqb_eq in E. subst. rewrite kind_eqb_refl, H. apply u32_succ.
    + replace (kind_eqb q k) with false. { now rewrite N.add_0_r. }
      destruct q, k; try discriminate; reflexivity.
  - now rewrite N.add_0_r.
Qed.

Lemma add_elem_elems o e o' : add_elem o e = Ok o' -> oi_elems o' = oi_elems o ++ [e].
Proof.
  unfold add_elem. destruct (e_fid e); [destruct (oi_fids o f)|].
  - unfold rassert. destruct (fi_matches _ _); cbn; intros [= <-]; reflexivity.
  - intros [= <-]; reflexivity.
  - intros [= <-]; reflexivity.
Qed.
Lemma elem_eta e : mkE (e_fid e) (e_type e) (e_val e) (e_sdata e) (e_implied e) = e.
Proof. destruct e; reflexivity. Qed.

Lemma add_elem_wf o e o' : oi_wf o -> add_elem o e = Ok o' -> oi_wf o'.
Proof.
  intros W H. pose proof (add_elem_elems _ _ _ H) as EL. revert H.
  unfold add_elem. destruct (e_fid e) as [f|] eqn:EF; [destruct (oi_fids o f) as [fi|] eqn:F|].
  - unfold rassert. destruct (fi_matches fi e) eqn:M; cbn; [|discriminate]. intros [= <-].
    apply fi_matches_eq in M as (M1 & M2 & M3 & M4). cbn [oi_elems] in *.
    destruct (wf_some _ W _ _ F) as (e0 & I0 & F0).
    assert (E0 : e0 = e).
    { pose proof (wf_in _ W _ _ I0 F0) as Q. rewrite F in Q. injection Q as Q. subst fi. cbn in *.
      rewrite <- (elem_eta e0), <- (elem_eta e). congruence. }
    subst e0.
    constructor; cbn.
    + rewrite app_length. cbn [length]. rewrite (wf_n _ W), u32_succ. f_equal. lia.
    + rewrite existsb_app. cbn. now rewrite (wf_imp _ W), orb_false_r.
    + intros g gi Hg. destruct (wf_some _ W _ _ Hg) as (e' & ? & ?). exists e'. rewrite in_app_iff. auto.
    + intros g e' Hi He. apply in_app_iff in Hi as [Hi|[<-|[]]]; apply (wf_in _ W); auto.
    + intros k. rewrite (wf_types _ W). f_equal. symmetry. eapply n_typed_snoc_old; eauto.
  - intros [= <-]. cbn [oi_elems] in *.
    assert (NI : forall e', In e' (oi_elems o) -> e_fid e' <> Some f).
    { intros e' Hi He. rewrite (wf_in _ W _ _ Hi He) in F. discriminate. }
    constructor; cbn.
    + rewrite app_length. cbn [length]. rewrite (wf_n _ W), u32_succ. f_equal. lia.
    + rewrite existsb_app. cbn. now rewrite (wf_imp _ W), orb_false_r.
    + intros g gi Hg. destruct (fid_eqb g f) eqn:E.
      * apply fid_eqb_eq in E. subst. exists e. rewrite in_app_iff. cbn. auto.
      * destruct (wf_some _ W _ _ Hg) as (e' & ? & ?). exists e'. rewrite in_app_iff. auto.
    + intros g e' Hi He. apply in_app_iff in Hi as [Hi|[<-|[]]].
      * destruct (fid_eqb g f) eqn:E; [apply fid_eqb_eq in E; subst; exfalso; eapply NI; eauto|].
        apply (wf_in _ W); auto.
      * rewrite EF in He. injection He as ->. now rewrite fid_eqb_refl.
    + intros k. rewrite (n_typed_snoc_new _ _ f) by auto. apply bump_ok, (wf_types _ W).
  - intros [= <-]. cbn [oi_elems] in *. constructor; cbn.
    + rewrite app_length. cbn [length]. rewrite (wf_n _ W), u32_succ. f_equal. lia.
    + rewrite existsb_app. cbn. now rewrite (wf_imp _ W), orb_false_r.
    + intros g gi Hg. destruct (wf_some _ W _ _ Hg) as (e' & ? & ?). exists e'. rewrite in_app_iff. auto.
    + intros g e' Hi He. apply in_app_iff in Hi as [Hi|[<-|[]]]; [apply (wf_in _ W); auto|congruence].
    + intros k. rewrite n_typed_snoc_none by auto. apply bump_ok, (wf_types _ W).
Qed.

Lemma add_elems_wf es : forall o o', oi_wf o -> add_elems o es = Ok o' -> oi_wf o' /\ oi_elems o' = oi_elems o ++ es.
Proof.
  induction es as [|e es IH]; intros o o' W H; cbn in H.
  - injection H as <-. rewrite app_nil_r. auto.
  - destruct (add_elem o e) as [o1| | |] eqn:E; cbn in H; try discriminate.
    pose proof (add_elem_wf _ _ _ W E). apply IH in H as [W' EL]; auto. split; auto.
    rewrite EL, (add_elem_elems _ _ _ E), <- app_assoc. reflexivity.
Qed.
Lemma wf_consistent o : oi_wf o -> consistent (oi_elems o).
Proof.
  intros W e1 e2 f I1 I2 F1 F2.
  pose proof (wf_in _ W _ _ I1 F1) as Q1. pose proof (wf_in _ W _ _ I2 F2) as Q2.
  rewrite Q1 in Q2. injection Q2 as ? ? ? ?.
  rewrite <- (elem_eta e1), <- (elem_eta e2). congruence.
Qed.
Lemma add_elem_outcome o e : oi_wf o ->
  (exists o', add_elem o e = Ok o' /\ consistent (oi_elems o ++ [e])) \/
  (add_elem o e = AssertFail /\ ~ consistent (oi_elems o ++ [e])).
Proof.
  intros W. destruct (add_elem o e) as [o'| | |] eqn:E.
  - left. exists o'. split; auto. rewrite <- (add_elem_elems _ _ _ E). apply wf_consistent. eapply add_elem_wf; eauto.
  - exfalso. revert E. unfold add_elem. destruct (e_fid e); [destruct (oi_fids o f)|]; try discriminate.
    unfold rassert. destruct (fi_matches _ _); discriminate.
  - right. split; auto. intros C. revert E. unfold add_elem.
    destruct (e_fid e) as [f|] eqn:EF; [destruct (oi_fids o f) as [fi|] eqn:F|]; try discriminate.
    unfold rassert. destruct (fi_matches fi e) eqn:M; [discriminate|]. intros _.
    destruct (wf_some _ W _ _ F) as (e0 & I0 & F0).
    assert (e0 = e) by (apply (C e0 e f); auto; rewrite in_app_iff; cbn; auto). subst e0.
    pose proof (wf_in _ W _ _ I0 F0) as Q. rewrite F in Q. injection Q as ->.
    assert (fi_matches (mkFI (e_val e) (e_type e) (e_sdata e) (e_implied e)) e = true)
      by (apply fi_matches_eq; cbn; auto). congruence.
  - exfalso. revert E. unfold add_elem. destruct (e_fid e); [destruct (oi_fids o f)|]; try discriminate.
    unfold rassert. destruct (fi_matches _ _); discriminate.
Qed.
Lemma add_elems_outcome es : forall o, oi_wf o ->
  (exists o', add_elems o es = Ok o' /\ consistent (oi_elems o ++ es)) \/
  (add_elems o es = AssertFail /\ ~ consistent (oi_elems o ++ es)).
Proof.
  induction es as [|e es IH]; intros o W; cbn [add_elems].
  - left. exists o. rewrite app_nil_r. split; auto. now apply wf_consistent.
  - destruct (add_elem_outcome o e W) as [(o1 & E & C)|[E C]]; rewrite E; cbn.
    + pose proof (add_elem_wf _ _ _ W E) as W1. destruct (IH o1 W1) as [(o2 & E2 & C2)|[E2 C2]].
      * left. exists o2. split; auto. now rewrite (add_elem_elems _ _ _ E), <- app_assoc in C2.
      * right. split; auto. now rewrite (add_elem_elems _ _ _ E), <- app_assoc in C2.
    + right. split; auto. intros C'. apply C. intros a b f Ha Hb F1 F2.
      apply (C' a b f); auto; rewrite in_app_iff in *; cbn in *; tauto.
Qed.

Lemma wf_query o f : oi_wf o ->
  (forall e, In e (oi_elems o) -> e_fid e = Some f ->
     oi_field_value o (Some f) = Ok (e_val e) /\ oi_field_type o (Some f) = Ok (e_type e) /\
     oi_is_store_data o (Some f) = Ok (e_sdata e) /\ oi_is_implied o (Some f) = Ok (e_implied e) /\
     oi_has o (Some f) = true) /\
  ((forall e, In e (oi_elems o) -> e_fid e <> Some f) ->
     oi_field_value o (Some f) = Throw EOperandInfoInvalidFieldID /\
     oi_field_type o (Some f) = Throw EOperandInfoInvalidFieldID /\
     oi_is_store_data o (Some f) = Throw EOperandInfoInvalidFieldID /\
     oi_is_implied o (Some f) = Throw EOperandInfoInvalidFieldID /\
     oi_has o (Some f) = false).
Proof.
  intros W. unfold oi_field_value, oi_field_type, oi_is_store_data, oi_is_implied, oi_query, oi_has. split.
  - intros e I F. rewrite (wf_in _ W _ _ I F). cbn. auto.
  - intros N. destruct (oi_fids o f) eqn:E; auto 10. destruct (wf_some _ W _ _ E) as (e & I & F).
    exfalso. eapply N; eauto.
Qed.

Lemma C40_built es : (exists o, add_elems oi_empty es = Ok o) <-> consistent es.
Proof.
  destruct (add_elems_outcome es oi_empty oi_wf_empty) as [(o & E & C)|[E C]]; cbn [oi_elems oi_empty app] in C.
  - split; [auto|]. intros _. exists o. auto.
  - split; [|tauto]. intros [o H]. congruence.
Qed.
Lemma length_filter_le {A} (P : A -> bool) l : (length (filter P l) <= length l)%nat.
Proof. induction l; cbn; [lia|]. destruct (P a); cbn; lia. Qed.
Lemma n_typed_bound es k : consistent es -> n_typed es k <= N.of_nat (length es).
Proof.
  induction es as [|e es IH] using rev_ind; intros C. { cbn. lia. }
  assert (C' : consistent es).
  { intros a b f Ha Hb. apply C; rewrite in_app_iff; auto. }
  specialize (IH C').
  rewrite app_length. cbn [length]. rewrite Nat2N.inj_add. change (N.of_nat 1) with 1.
  destruct (e_fid e) as [f|] eqn:F.
  - destruct (existsb (fun e' => ofid_eqb (e_fid e') (Some f)) es) eqn:X.
    + apply existsb_exists in X as (e' & I & X). apply ofid_eqb_eq in X.
      assert (e' = e) by (apply (C e' e f); auto; rewrite in_app_iff; cbn; auto). subst e'.
      rewrite (n_typed_snoc_old _ _ f) by auto. lia.
    + rewrite (n_typed_snoc_new _ _ f); auto. { destruct (okind_eqb _ _); lia. }
      intros e' I E. assert (existsb (fun e' => ofid_eqb (e_fid e') (Some f)) es = true).
      { apply existsb_exists. exists e'. rewrite E, ofid_eqb_refl. auto. } congruence.
  - rewrite n_typed_snoc_none by auto. destruct (okind_eqb _ _); lia.
Qed.
Lemma C40_count_lemma es o : add_elems oi_empty es = Ok o -> N.of_nat (length es) < 2 ^ 32 ->
  oi_elems o = es /\ oi_n o = N.of_nat (length es) /\
  (forall k, oi_ntypes o k = n_typed es k) /\ oi_implied o = existsb e_implied es.
Proof.
  intros H B. assert (C : consistent es) by (apply C40_built; eauto).
  apply add_elems_wf in H as [W E]; [|apply oi_wf_empty]. cbn [oi_elems oi_empty app] in E.
  split; [auto|]. split; [|split].
  - rewrite (wf_n _ W), E. now apply u32_id.
  - intros k. rewrite (wf_types _ W), E. apply u32_id. pose proof (n_typed_bound es k C). lia.
  - now rewrite (wf_imp _ W), E.
Qed.
Lemma C40_query_lemma es o f : add_elems oi_empty es = Ok o ->
  (forall e, In e es -> e_fid e = Some f ->
     oi_has o (Some f) = true /\
     oi_field_value o (Some f) = Ok (e_val e) /\ oi_field_type o (Some f) = Ok (e_type e) /\
     oi_is_store_data o (Some f) = Ok (e_sdata e) /\ oi_is_implied o (Some f) = Ok (e_implied e)) /\
  ((forall e, In e es -> e_fid e <> Some f) ->
     oi_has o (Some f) = false /\
     oi_field_value o (Some f) = Throw EOperandInfoInvalidFieldID /\
     oi_field_type o (Some f) = Throw EOperandInfoInvalidFieldID /\
     oi_is_store_data o (Some f) = Throw EOperandInfoInvalidFieldID /\
     oi_is_implied o (Some f) = Throw EOperandInfoInvalidFieldID).
Proof.
  intros H. apply add_elems_wf in H as [W E]; [|apply oi_wf_empty]. cbn [oi_elems oi_empty app] in E.
  destruct (wf_query o f W) as [Q1 Q2]. rewrite E in *. split.
  - intros e I F. specialize (Q1 e I F). tauto.
  - intros N. specialize (Q2 N). tauto.
Qed.
