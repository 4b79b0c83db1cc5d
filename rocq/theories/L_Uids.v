(** Invariant of the instruction registries (C13). *)
From Coq Require Import NArith ZArith List Bool String Lia ZifyBool ZifyN.
From Verif Require Import M_Base M_Registry S_Maps S_Uids L_Cache L_Registry.
Import ListNotations.
Local Open Scope N_scope.

(** Reg-level invariant: [al] is the set of names that may be aliases. *)
Record reg_ok (al : string -> Prop) (nu : N) (r : instreg) : Prop := {
  ro_arr : da_ok (ir_arr r);
  ro_bound : forall m u, mfind (ir_map r) m = Some u -> 0 < u < nu;
  ro_back : forall u m, da_slot (ir_arr r) u = Some m -> mfind (ir_map r) m = Some u;
  ro_slot : forall m u, mfind (ir_map r) m = Some u -> exists m0, da_slot (ir_arr r) u = Some m0;
  ro_own : forall m u, mfind (ir_map r) m = Some u -> ~ al m -> da_slot (ir_arr r) u = Some m }.

Lemma reg_ok_weaken (al al' : string -> Prop) nu nu' r :
  (forall m, al m -> al' m) -> nu <= nu' -> reg_ok al nu r -> reg_ok al' nu' r.
Proof.
  intros A L [H1 H2 H3 H4 H5]. split; auto.
  - intros m u E. apply H2 in E. lia.
Qed.

Lemma da_add_lt {T} (a : dynarray T) k v a' : da_ok a -> da_add a k v = Ok a' -> k < w32 - 1.
Proof.
  intros O E. apply da_add_spec in E as ([S _] & K & _); [|assumption]. unfold w32 in *. lia.
Qed.

(** registerInst. *)
Lemma register_ok al nu r m nu' r' uid : nu < w32 -> 0 < nu -> reg_ok al nu r ->
  ir_register r m nu = Ok (nu', r', uid) ->
  nu <= nu' /\ nu' < w32 /\ reg_ok al nu' r' /\ mfind (ir_map r') m = Some uid /\
  (forall m' u, mfind (ir_map r) m' = Some u -> mfind (ir_map r') m' = Some u) /\
  (forall m' u, mfind (ir_map r') m' = Some u -> mfind (ir_map r) m' = Some u \/ (m' = m /\ u = nu /\ nu < nu')).
Proof.
  intros Ln Lp [H1 H2 H3 H4 H5]. unfold ir_register.
  destruct (mfind (ir_map r) m) as [u|] eqn:F.
  - intros E. assert (nu' = nu /\ r' = r /\ uid = u) as (-> & -> & ->) by (repeat split; congruence).
    repeat (split; [solve [lia | auto | (split; auto)]|]). auto.
  - cbn [advance_uid]. destruct (da_add (ir_arr r) nu m) as [a| | |] eqn:A; cbn; try discriminate.
    intros E.
    assert (nu' = u32 (nu + 1) /\ r' = mkIR (madd (ir_map r) m nu) a /\ uid = nu) as (-> & -> & ->) by (repeat split; congruence).
    clear E. pose proof (da_add_lt _ _ _ _ H1 A) as B.
    apply da_add_spec in A as (O & _ & _ & _ & S); [|assumption].
    assert (u32 (nu + 1) = nu + 1) as -> by (unfold u32; apply N.mod_small; unfold w32 in *; lia).
    assert (FR : da_slot (ir_arr r) nu = None).
    { destruct (da_slot (ir_arr r) nu) eqn:Q; [|reflexivity]. apply H3, H2 in Q. lia. }
    split; [lia|]. split; [unfold w32 in *; lia|]. split; [|split; [|split]].
    + split; cbn [ir_arr ir_map]; [assumption| | | |].
      * intros m' u. rewrite mfind_madd. destruct (String.eqb_spec m m'); [intros [= <-]; lia|].
        intros Q. apply H2 in Q. lia.
      * intros u m'. rewrite S, mfind_madd. destruct (N.eqb_spec u nu) as [->|NE].
        -- intros [= <-]. now rewrite String.eqb_refl.
        -- intros Q. destruct (String.eqb_spec m m') as [->|]; [|now apply H3].
           apply H3 in Q. congruence.
      * intros m' u. rewrite mfind_madd. rewrite S. destruct (String.eqb_spec m m').
        -- intros [= <-]. rewrite N.eqb_refl. eauto.
        -- intros Q. destruct (N.eqb_spec u nu); eauto.
      * intros m' u. rewrite mfind_madd. rewrite S. destruct (String.eqb_spec m m') as [<-|].
        -- intros [= <-]. now rewrite N.eqb_refl.
        -- intros Q NA. pose proof (H2 _ _ Q). destruct (N.eqb_spec u nu); [lia|]. now apply H5.
    + cbn. now rewrite String.eqb_refl.
    + intros m' u Q. cbn [ir_map]. rewrite mfind_madd. destruct (String.eqb_spec m m') as [<-|]; [congruence|assumption].
    + intros m' u. cbn [ir_map]. rewrite mfind_madd. destruct (String.eqb_spec m m') as [<-|]; [|auto].
      intros [= <-]. right. repeat split. lia.
Qed.

(** aliasInstWithUID. *)
Lemma alias_ok (al : string -> Prop) nu r m uid r' : al m -> reg_ok al nu r ->
  ir_alias r m uid nu = Ok r' ->
  reg_ok al nu r' /\
  (forall m' u, mfind (ir_map r) m' = Some u -> mfind (ir_map r') m' = Some u) /\
  (forall m' u, mfind (ir_map r') m' = Some u -> mfind (ir_map r) m' = Some u \/ (m' = m /\ u = uid)) /\
  (mfind (ir_map r) m = None -> mfind (ir_map r') m = Some uid).
Proof.
  intros AL [H1 H2 H3 H4 H5]. unfold ir_alias.
  destruct (negb (uid =? INVALID_UID) && (uid <? nu)) eqn:G; cbn; [|discriminate].
  apply andb_true_iff in G as [G1 G2]. unfold INVALID_UID in *.
  destruct (mfind (ir_map r) m) as [u|] eqn:F.
  - intros [= <-]. repeat (split; [solve [auto | (split; auto)]|]). discriminate.
  - destruct (da_contains (ir_arr r) uid) eqn:C; cbn; [|discriminate].
    intros E. assert (r' = mkIR (madd (ir_map r) m uid) (ir_arr r)) as -> by congruence. clear E.
    unfold da_contains in C. apply andb_true_iff in C as [_ C].
    destruct (da_slot (ir_arr r) uid) as [m0|] eqn:Q; [|discriminate].
    split; [|split; [|split]].
    + split; cbn [ir_arr ir_map]; [assumption| | | |].
      * intros m' u. rewrite mfind_madd. destruct (String.eqb_spec m m'); [intros [= <-]; lia|apply H2].
      * intros u m' X. rewrite mfind_madd. destruct (String.eqb_spec m m') as [<-|]; [|now apply H3].
        apply H3 in X. congruence.
      * intros m' u. rewrite mfind_madd. destruct (String.eqb_spec m m'); [intros [= <-]; eauto|apply H4].
      * intros m' u. rewrite mfind_madd. destruct (String.eqb_spec m m') as [<-|]; [intros [= <-] NA; contradiction|apply H5].
    + intros m' u X. cbn [ir_map]. rewrite mfind_madd. destruct (String.eqb_spec m m') as [<-|]; [congruence|assumption].
    + intros m' u. cbn [ir_map]. rewrite mfind_madd. destruct (String.eqb_spec m m') as [<-|]; [|auto].
      intros [= <-]. auto.
    + intros _. cbn. now rewrite String.eqb_refl.
Qed.

(** The constructor's loop. *)
Lemma load_ok l : forall used nu r nu' r',
  0 < nu < w32 -> reg_ok (fun _ => False) nu r ->
  (forall m u, mfind (ir_map r) m = Some u -> In u used) ->
  ir_load l used nu r = Ok (nu', r') ->
  nu <= nu' /\ nu' < w32 /\ reg_ok (fun _ => False) nu' r' /\
  (forall m u, mfind (ir_map r') m = Some u -> mfind (ir_map r) m = Some u \/ In (m, u) l) /\
  (forall m u, mfind (ir_map r) m = Some u -> mfind (ir_map r') m = Some u) /\
  (forall m u, In (m, u) l -> mfind (ir_map r') m = Some u).
Proof.
  induction l as [|[m uid] l IH]; intros used nu r nu' r' L R U E; cbn [ir_load] in E.
  - assert (nu' = nu /\ r' = r) as [-> ->] by (split; congruence).
    split; [lia|]. split; [lia|]. split; [assumption|]. split; [auto|]. split; [auto|]. intros ? ? [].
  - unfold INVALID_UID in E. destruct (N.eqb_spec uid 0) as [->|NZ]; [discriminate|].
    destruct (existsb (N.eqb uid) used) eqn:X; [discriminate|].
    destruct (mfind (ir_map r) m) as [u|] eqn:F; [discriminate|].
    destruct (da_add (ir_arr r) uid m) as [a| | |] eqn:A; cbn in E; try discriminate.
    destruct R as [H1 H2 H3 H4 H5].
    pose proof (da_add_lt _ _ _ _ H1 A) as B.
    apply da_add_spec in A as (O & _ & _ & _ & S); [|assumption].
    assert (allocate_uid nu uid = N.max (uid + 1) nu) as AU.
    { unfold allocate_uid. f_equal. unfold u32. apply N.mod_small. unfold w32 in *. lia. }
    rewrite AU in E.
    assert (NU : forall m', mfind (ir_map r) m' = Some uid -> False).
    { intros m' Q. apply U in Q. assert (existsb (N.eqb uid) used = true); [|congruence].
      apply existsb_exists. exists uid. split; [assumption|apply N.eqb_refl]. }
    destruct (IH (uid :: used) (N.max (uid + 1) nu) (mkIR (madd (ir_map r) m uid) a) nu' r') as (I1 & I2 & I3 & I4 & I5 & I6).
    + unfold w32 in *. lia.
    + split; cbn [ir_arr ir_map]; [assumption| | | |].
      * intros m' u. rewrite mfind_madd. destruct (String.eqb_spec m m'); [intros [= <-]; lia|].
        intros Q. apply H2 in Q. lia.
      * intros u m'. rewrite S, mfind_madd. destruct (N.eqb_spec u uid) as [->|NE].
        -- intros [= <-]. now rewrite String.eqb_refl.
        -- intros Q. destruct (String.eqb_spec m m') as [->|]; [|now apply H3]. apply H3 in Q. congruence.
      * intros m' u. rewrite mfind_madd, S. destruct (String.eqb_spec m m').
        -- intros [= <-]. rewrite N.eqb_refl. eauto.
        -- intros Q. destruct (N.eqb_spec u uid); eauto.
      * intros m' u. rewrite mfind_madd, S. destruct (String.eqb_spec m m') as [<-|].
        -- intros [= <-] _. now rewrite N.eqb_refl.
        -- intros Q NA. destruct (N.eqb_spec u uid) as [->|]; [exfalso; eauto|]. now apply H5.
    + cbn [ir_map]. intros m' u. rewrite mfind_madd. destruct (String.eqb_spec m m').
      * intros [= <-]. now left.
      * intros Q. right. eauto.
    + exact E.
    + cbn [ir_map] in *. split; [lia|]. split; [assumption|]. split; [assumption|]. split; [|split].
      * intros m' u Q. apply I4 in Q as [Q|Q]; [|right; now right]. rewrite mfind_madd in Q.
        destruct (String.eqb_spec m m') as [<-|]; [|auto]. injection Q as ->. right. now left.
      * intros m' u Q. apply I5. rewrite mfind_madd. destruct (String.eqb_spec m m') as [<-|]; [congruence|assumption].
      * intros m' u [Q|Q]; [|auto]. injection Q as -> ->. apply I5. rewrite mfind_madd. now rewrite String.eqb_refl.
Qed.

Lemma nth_set_nth {A} (l : list A) i j a b : nth_error l i = Some b ->
  nth_error (set_nth l i a) j = if Nat.eqb j i then Some a else nth_error l j.
Proof.
  revert i j. induction l as [|c l IH]; intros [|i] [|j] H; cbn in *; try discriminate; try reflexivity.
  now apply IH.
Qed.
Lemma length_set_nth {A} (l : list A) i a : List.length (set_nth l i a) = List.length l.
Proof. revert i; induction l as [|c l IH]; intros [|i]; cbn; auto. Qed.

Lemma urun_app l1 : forall w l2, urun w (l1 ++ l2) = let* w' := urun w l1 in urun w' l2.
Proof.
  induction l1 as [|o l1 IH]; intros w l2; cbn; [reflexivity|].
  destruct (ustep w o); cbn; auto.
Qed.
Lemma user_lists_app l1 l2 : user_lists (l1 ++ l2) = (user_lists l1 ++ user_lists l2)%list.
Proof. induction l1 as [|o l1 IH]; cbn; [reflexivity|]. destruct o; cbn; congruence. Qed.

Definition auto (l : list uop) (i : nat) (m : string) : Prop := ~ aliased l i m /\ ~ user_given l i m.

Record world_ok (l : list uop) (w : world) : Prop := {
  wo_next : 0 < wd_next w < w32;
  wo_len : List.length (wd_regs w) = List.length (user_lists l);
  wo_reg : forall i r, registry w i r -> reg_ok (aliased l i) (wd_next w) r;
  wo_user : forall i r m u us, registry w i r -> nth_error (user_lists l) i = Some us -> In (m, u) us ->
            mfind (ir_map r) m = Some u;
  wo_cross : forall i j r r' m m' u, i <> j -> registry w i r -> registry w j r' ->
     auto l i m -> auto l j m' -> mfind (ir_map r) m = Some u -> mfind (ir_map r') m' = Some u -> False }.

Lemma aliased_mono l o i m : aliased l i m -> aliased (l ++ [o]) i m.
Proof. intros [x H]. exists x. apply in_or_app. now left. Qed.

Lemma auto_mono l o i m : nth_error (user_lists l) i <> None -> auto (l ++ [o]) i m -> auto l i m.
Proof.
  intros S [A U]. split.
  - intros H. apply A. now apply aliased_mono.
  - intros (us & u & H & I). apply U. exists us, u. split; [|assumption].
    rewrite user_lists_app, nth_error_app1; [assumption|]. apply nth_error_Some. congruence.
Qed.

Lemma registry_users l w i r : List.length (wd_regs w) = List.length (user_lists l) -> registry w i r -> nth_error (user_lists l) i <> None.
Proof. intros L H. apply nth_error_Some. rewrite <- L. apply nth_error_Some. unfold registry in H. congruence. Qed.

Lemma ustep_ok l w o w' : world_ok l w -> ustep w o = Ok w' -> world_ok (l ++ [o]) w' /\
  wd_next w <= wd_next w' /\
  forall i r, registry w i r -> exists r', registry w' i r' /\
    forall m u, mfind (ir_map r) m = Some u -> mfind (ir_map r') m = Some u.
Proof.
  intros [N L R US X] E.
  assert (AM : forall i r m, registry w i r -> auto (l ++ [o]) i m -> auto l i m).
  { intros i r m Q. apply auto_mono. eapply registry_users; eauto. }
  destruct o as [uids|i m|i m x|uid]; cbn [ustep] in E.
  - (* UNew *)
    unfold ir_new in E.
    destruct (ir_load uids [] (wd_next w) _) as [[nu r]| | |] eqn:Q; cbn in E; try discriminate.
    assert (w' = mkW nu (wd_regs w ++ [r])) as -> by congruence. clear E.
    apply load_ok in Q as (I1 & I2 & I3 & I4 & I5 & I6); [|assumption| |cbn; discriminate].
    2: { split; cbn; try discriminate. split; cbn; [reflexivity|discriminate]. }
    assert (RG : forall i r', registry (mkW nu (wd_regs w ++ [r])) i r' ->
       registry w i r' \/ (i = List.length (wd_regs w) /\ r' = r)).
    { unfold registry; cbn [wd_regs]. intros i r' Q. destruct (Nat.lt_ge_cases i (List.length (wd_regs w))).
      - rewrite nth_error_app1 in Q by assumption. auto.
      - rewrite nth_error_app2 in Q by assumption. destruct (i - _)%nat eqn:D; cbn in Q.
        + right. split; [lia|congruence].
        + destruct n; discriminate. }
    assert (UL : user_lists (l ++ [UNew uids]) = (user_lists l ++ [uids])%list) by (rewrite user_lists_app; reflexivity).
    split; [|split].
    + split; cbn [wd_next wd_regs].
      * lia.
      * rewrite UL, !app_length. cbn. lia.
      * intros i r' Q. apply RG in Q as [Q|[-> ->]].
        -- eapply reg_ok_weaken; [intros; apply aliased_mono; eassumption|exact I1|now apply R].
        -- eapply reg_ok_weaken; [|reflexivity|exact I3]. tauto.
      * intros i r' m u us Q H I. rewrite UL in H. apply RG in Q as [Q|[-> ->]].
        -- rewrite nth_error_app1 in H; [eauto|]. apply nth_error_Some. eapply registry_users; eauto.
        -- rewrite nth_error_app2 in H by lia. rewrite L, Nat.sub_diag in H. cbn in H. injection H as <-. now apply I6.
      * assert (UG : forall m u, mfind (ir_map r) m = Some u -> ~ auto (l ++ [UNew uids]) (List.length (wd_regs w)) m).
        { intros m u Q [_ NU]. apply NU. apply I4 in Q as [Q|Q]; [discriminate|]. exists uids, u. split; [|assumption].
          rewrite UL, nth_error_app2 by lia. now rewrite L, Nat.sub_diag. }
        intros i j r1 r2 m m' u NE Q1 Q2 A1 A2 F1 F2.
        apply RG in Q1 as [Q1|[-> ->]]; [|eapply UG; eauto].
        apply RG in Q2 as [Q2|[-> ->]]; [|eapply UG; eauto].
        eapply (X i j r1 r2); eauto.
    + exact I1.
    + intros i r' Q. exists r'. split; [|auto]. unfold registry in *. cbn. rewrite nth_error_app1; [assumption|].
      apply nth_error_Some. congruence.
  - (* UReg *)
    assert (UL : user_lists (l ++ [UReg i m]) = user_lists l) by (rewrite user_lists_app; apply app_nil_r).
    assert (AL : forall j m', aliased (l ++ [UReg i m]) j m' -> aliased l j m').
    { intros j m' [y H]. apply in_app_or in H as [H|[H|[]]]; [now exists y|discriminate]. }
    destruct (nth_error (wd_regs w) i) as [r|] eqn:F.
    + destruct (ir_register r m (wd_next w)) as [[[nu r'] uid]| | |] eqn:Q; cbn in E; try discriminate.
      assert (w' = mkW nu (set_nth (wd_regs w) i r')) as -> by congruence. clear E.
      pose proof (R i r F) as Ri.
      apply register_ok with (al := aliased l i) in Q as (I1 & I2 & I3 & I4 & I5 & I6); [|lia|lia|assumption].
      assert (RG : forall j rj, registry (mkW nu (set_nth (wd_regs w) i r')) j rj ->
         (j = i /\ rj = r') \/ (j <> i /\ registry w j rj)).
      { unfold registry. cbn. intros j rj H. rewrite (nth_set_nth _ _ _ _ _ F) in H.
        destruct (Nat.eqb_spec j i); [left; split; congruence|auto]. }
      split; [|split].
      * split; cbn [wd_next wd_regs].
        -- lia.
        -- now rewrite length_set_nth, UL.
        -- intros j rj H. apply RG in H as [[-> ->]|[NE H]].
           ++ eapply reg_ok_weaken; [intros; apply aliased_mono; eassumption|reflexivity|exact I3].
           ++ eapply reg_ok_weaken; [intros; apply aliased_mono; eassumption|exact I1|now apply R].
        -- intros j rj m' u us H. rewrite UL. apply RG in H as [[-> ->]|[NE H]]; [|eauto].
           intros H1 H2. apply I5. eapply US; eauto.
        -- assert (LT : forall j rj m' u, registry w j rj -> mfind (ir_map rj) m' = Some u -> u < wd_next w).
           { intros j rj m' u H H'. apply (ro_bound _ _ _ (R j rj H)) in H'. lia. }
           intros j k rj rk m1 m2 u NE Q1 Q2 A1 A2 F1 F2.
           apply RG in Q1 as [[-> ->]|[NE1 Q1]]; apply RG in Q2 as [[-> ->]|[NE2 Q2]].
           ++ congruence.
           ++ apply I6 in F1 as [F1|(-> & -> & _)].
              ** eapply (X i k r rk m1 m2 u); eauto.
              ** apply (LT _ _ _ _ Q2) in F2. lia.
           ++ apply I6 in F2 as [F2|(-> & -> & _)].
              ** eapply (X j i rj r m1 m2 u); eauto.
              ** apply (LT _ _ _ _ Q1) in F1. lia.
           ++ eapply (X j k rj rk m1 m2 u); eauto.
      * exact I1.
      * intros j rj H. destruct (Nat.eq_dec j i) as [->|NE].
        -- exists r'. split.
           ++ unfold registry; cbn. rewrite (nth_set_nth _ _ _ _ _ F). now rewrite Nat.eqb_refl.
           ++ unfold registry in H. assert (rj = r) as -> by congruence. exact I5.
        -- exists rj. split; [|auto]. unfold registry in *; cbn. rewrite (nth_set_nth _ _ _ _ _ F).
           destruct (Nat.eqb_spec j i); [contradiction|assumption].
    + assert (w' = w) as -> by congruence. split; [|split; [lia|intros j rj H; exists rj; auto]].
      split; auto.
      * now rewrite UL.
      * intros j rj H. eapply reg_ok_weaken; [intros; apply aliased_mono; eassumption|reflexivity|now apply R].
      * intros j rj m' u us. rewrite UL. eauto.
      * intros j k rj rk m1 m2 u NE Q1 Q2 A1 A2. eapply (X j k rj rk); eauto.
  - (* UAlias *)
    assert (UL : user_lists (l ++ [UAlias i m x]) = user_lists l) by (rewrite user_lists_app; apply app_nil_r).
    destruct (nth_error (wd_regs w) i) as [r|] eqn:F.
    + destruct (ir_alias r m (ir_uid r x) (wd_next w)) as [r'| | |] eqn:Q; cbn in E; try discriminate.
      assert (w' = mkW (wd_next w) (set_nth (wd_regs w) i r')) as -> by congruence. clear E.
      assert (AA : aliased (l ++ [UAlias i m x]) i m) by (exists x; apply in_or_app; right; now left).
      apply alias_ok with (al := aliased (l ++ [UAlias i m x]) i) in Q as (I1 & I5 & I6 & I7); [|assumption|].
      2: { eapply reg_ok_weaken; [intros; apply aliased_mono; eassumption|reflexivity|now apply R]. }
      assert (RG : forall j rj, registry (mkW (wd_next w) (set_nth (wd_regs w) i r')) j rj ->
         (j = i /\ rj = r') \/ (j <> i /\ registry w j rj)).
      { unfold registry. cbn. intros j rj H. rewrite (nth_set_nth _ _ _ _ _ F) in H.
        destruct (Nat.eqb_spec j i); [left; split; congruence|auto]. }
      split; [|split].
      * split; cbn [wd_next wd_regs].
        -- lia.
        -- now rewrite length_set_nth, UL.
        -- intros j rj H. apply RG in H as [[-> ->]|[NE H]]; [exact I1|].
           eapply reg_ok_weaken; [intros; apply aliased_mono; eassumption|reflexivity|now apply R].
        -- intros j rj m' u us H. rewrite UL. apply RG in H as [[-> ->]|[NE H]]; [|eauto].
           intros H1 H2. apply I5. eapply US; eauto.
        -- intros j k rj rk m1 m2 u NE Q1 Q2 A1 A2 F1 F2.
           apply RG in Q1 as [[-> ->]|[NE1 Q1]]; apply RG in Q2 as [[-> ->]|[NE2 Q2]].
           ++ congruence.
           ++ apply I6 in F1 as [F1|(-> & ->)]; [|now apply (proj1 A1)].
              eapply (X i k r rk m1 m2 u); eauto.
           ++ apply I6 in F2 as [F2|(-> & ->)]; [|now apply (proj1 A2)].
              eapply (X j i rj r m1 m2 u); eauto.
           ++ eapply (X j k rj rk m1 m2 u); eauto.
      * cbn. lia.
      * intros j rj H. destruct (Nat.eq_dec j i) as [->|NE].
        -- exists r'. split.
           ++ unfold registry; cbn. rewrite (nth_set_nth _ _ _ _ _ F). now rewrite Nat.eqb_refl.
           ++ unfold registry in H. assert (rj = r) as -> by congruence. exact I5.
        -- exists rj. split; [|auto]. unfold registry in *; cbn. rewrite (nth_set_nth _ _ _ _ _ F).
           destruct (Nat.eqb_spec j i); [contradiction|assumption].
    + assert (w' = w) as -> by congruence. split; [|split; [lia|intros j rj H; exists rj; auto]].
      split; auto.
      * now rewrite UL.
      * intros j rj H. eapply reg_ok_weaken; [intros; apply aliased_mono; eassumption|reflexivity|now apply R].
      * intros j rj m' u us. rewrite UL. eauto.
      * intros j k rj rk m1 m2 u NE Q1 Q2 A1 A2. eapply (X j k rj rk); eauto.
  - (* UBump *)
    assert (UL : user_lists (l ++ [UBump uid]) = user_lists l) by (rewrite user_lists_app; apply app_nil_r).
    assert (w' = mkW (allocate_uid (wd_next w) uid) (wd_regs w)) as -> by congruence. clear E.
    assert (BD : wd_next w <= allocate_uid (wd_next w) uid < w32).
    { unfold allocate_uid. pose proof (u32_lt (uid + 1)). lia. }
    split; [|split; [cbn; lia|intros j rj H; exists rj; auto]].
    split; cbn [wd_next wd_regs].
    + lia.
    + now rewrite UL.
    + intros j rj H. eapply reg_ok_weaken; [intros; apply aliased_mono; eassumption|apply BD|now apply R].
    + intros j rj m' u us. rewrite UL. eauto.
    + intros j k rj rk m1 m2 u NE Q1 Q2 A1 A2. eapply (X j k rj rk); eauto.
Qed.

Lemma world0_ok : world_ok [] world0.
Proof.
  split; cbn; auto; try lia.
  - split; [lia|reflexivity].
  - intros [|i] r H; discriminate.
  - intros [|i] r m u us H; discriminate.
  - intros [|i] j r r' m m' u _ H; discriminate.
Qed.

Lemma urun_ok l2 : forall l1 w w', world_ok l1 w -> urun w l2 = Ok w' -> world_ok (l1 ++ l2) w' /\
  wd_next w <= wd_next w' /\
  forall i r, registry w i r -> exists r', registry w' i r' /\
    forall m u, mfind (ir_map r) m = Some u -> mfind (ir_map r') m = Some u.
Proof.
  induction l2 as [|o l2 IH]; intros l1 w w' H E; cbn in E.
  - assert (w' = w) as -> by congruence. rewrite app_nil_r. split; [assumption|]. split; [lia|]. intros i r Q; exists r; auto.
  - destruct (ustep w o) as [w1| | |] eqn:S; cbn in E; try discriminate.
    destruct (ustep_ok _ _ _ _ H S) as (A & B & C).
    destruct (IH _ _ _ A E) as (A' & B' & C').
    rewrite <- app_assoc in A'. split; [exact A'|]. split; [lia|].
    intros i r Q. destruct (C i r Q) as (r1 & Q1 & M1). destruct (C' i r1 Q1) as (r2 & Q2 & M2). exists r2. auto.
Qed.

Lemma has_uid_find r m nu al : reg_ok al nu r -> has_uid r m <-> exists u, mfind (ir_map r) m = Some u.
Proof.
  intros R. unfold has_uid, ir_uid, INVALID_UID. destruct (mfind (ir_map r) m) as [u|] eqn:F.
  - pose proof (ro_bound _ _ _ R _ _ F). split; [eauto|]. intros _. lia.
  - split; [congruence|intros [u U]; discriminate].
Qed.
Lemma ir_uid_find r m u : mfind (ir_map r) m = Some u -> ir_uid r m = u.
Proof. unfold ir_uid. now intros ->. Qed.

Section Claims.
Variables (l : list uop) (w : world).
Hypothesis RUN : urun world0 l = Ok w.

Lemma run_ok : world_ok l w.
Proof. exact (proj1 (urun_ok l [] world0 w world0_ok RUN)). Qed.

Lemma C13_inverse_lemma i r m : registry w i r -> has_uid r m ->
  ir_uid r m < wd_next w /\
  exists m0, ir_mnemonic r (ir_uid r m) = Ok m0 /\ ir_uid r m0 = ir_uid r m /\ (~ aliased l i m -> m0 = m).
Proof.
  intros Q H. pose proof (wo_reg _ _ run_ok i r Q) as R. apply (has_uid_find _ _ _ _ R) in H as [u F].
  rewrite (ir_uid_find _ _ _ F). split; [apply (ro_bound _ _ _ R) in F; lia|].
  destruct (ro_slot _ _ _ R _ _ F) as [m0 S]. exists m0.
  unfold ir_mnemonic, da_lookup. pose proof (proj2 (ro_arr _ _ _ R) _ _ S).
  destruct (N.ltb_spec u (da_size (ir_arr r))); [|lia]. rewrite S.
  split; [reflexivity|]. split.
  - apply ir_uid_find. exact (ro_back _ _ _ R _ _ S).
  - intros NA. pose proof (ro_own _ _ _ R _ _ F NA). congruence.
Qed.

Lemma C13_unique_lemma i r m m' : registry w i r -> has_uid r m -> has_uid r m' ->
  ~ aliased l i m -> ~ aliased l i m' -> ir_uid r m = ir_uid r m' -> m = m'.
Proof.
  intros Q H H' A A' E. destruct (C13_inverse_lemma i r m Q H) as (_ & m0 & X & _ & Y).
  destruct (C13_inverse_lemma i r m' Q H') as (_ & m1 & X' & _ & Y').
  rewrite E in X. specialize (Y A). specialize (Y' A'). congruence.
Qed.

Lemma C13_back_lemma i r u m : registry w i r -> ir_mnemonic r u = Ok m -> ir_uid r m = u /\ u <> INVALID_UID.
Proof.
  intros Q H. pose proof (wo_reg _ _ run_ok i r Q) as R. unfold ir_mnemonic, da_lookup in H.
  destruct (u <? da_size (ir_arr r)); [|discriminate]. destruct (da_slot (ir_arr r) u) as [m'|] eqn:S; [|discriminate].
  assert (m' = m) as -> by congruence. apply (ro_back _ _ _ R) in S. split; [now apply ir_uid_find|].
  apply (ro_bound _ _ _ R) in S. unfold INVALID_UID. lia.
Qed.

Lemma C13_cross_lemma i j r r' m m' : i <> j -> registry w i r -> registry w j r' ->
  has_uid r m -> has_uid r' m' -> ~ aliased l i m -> ~ user_given l i m -> ~ aliased l j m' -> ~ user_given l j m' ->
  ir_uid r m <> ir_uid r' m'.
Proof.
  intros NE Q Q' H H' A1 A2 B1 B2 E.
  pose proof (wo_reg _ _ run_ok i r Q) as R. pose proof (wo_reg _ _ run_ok j r' Q') as R'.
  apply (has_uid_find _ _ _ _ R) in H as [u F]. apply (has_uid_find _ _ _ _ R') in H' as [u' F'].
  rewrite (ir_uid_find _ _ _ F), (ir_uid_find _ _ _ F') in E. subst u'.
  eapply (wo_cross _ _ run_ok i j r r' m m' u); eauto; split; assumption.
Qed.

Lemma C13_user_lemma i r us m u : registry w i r -> nth_error (user_lists l) i = Some us -> In (m, u) us -> ir_uid r m = u.
Proof. intros Q H I. apply ir_uid_find. eapply (wo_user _ _ run_ok); eauto. Qed.

Lemma C13_stable_lemma l' w' i r r' m : urun w l' = Ok w' -> registry w i r -> registry w' i r' ->
  has_uid r m -> ir_uid r' m = ir_uid r m.
Proof.
  intros E Q Q' H. pose proof (wo_reg _ _ run_ok i r Q) as R. apply (has_uid_find _ _ _ _ R) in H as [u F].
  destruct (urun_ok l' l w w' run_ok E) as (_ & _ & C). destruct (C i r Q) as (r1 & Q1 & M).
  unfold registry in *. assert (r1 = r') as -> by congruence.
  rewrite (ir_uid_find _ _ _ F). apply ir_uid_find. auto.
Qed.
End Claims.

Local Open Scope string_scope.
Lemma C13_example : let l := [UNew [("add", 40); ("sub", 7)]; UReg 0 "nop"; UReg 0 "addi"; UAlias 0 "c.addi" "addi";
   UNew []; UReg 1 "addi"; UReg 0 "addi"; UBump 100; UReg 1 "xor"] in
  exists w r0 r1, urun world0 l = Ok w /\ registry w 0 r0 /\ registry w 1 r1 /\
  ir_uid r0 "sub" = 7 /\ ir_uid r0 "addi" = 42 /\ ir_uid r0 "c.addi" = 42 /\ ir_uid r1 "addi" = 43 /\
  ir_uid r1 "xor" = 101 /\ has_uid r0 "addi" /\ has_uid r1 "addi" /\
  ~ aliased l 0 "addi" /\ ~ user_given l 0 "addi".
Proof.
  intros l.
  set (W := match urun world0 l with Ok w => w | _ => world0 end).
  exists W, (nth 0 (wd_regs W) (mkIR [] (da_new 0 0))), (nth 1 (wd_regs W) (mkIR [] (da_new 0 0))).
  split; [vm_compute; reflexivity|]. split; [vm_compute; reflexivity|]. split; [vm_compute; reflexivity|].
  repeat (split; [solve [vm_compute; reflexivity | vm_compute; discriminate]|]). split.
  - intros [x H]. cbn in H. repeat (destruct H as [H|H]; [discriminate|]). exact H.
  - intros (us & u & H & I). vm_compute in H. injection H as <-.
    repeat (destruct I as [I|I]; [discriminate|]). exact I.
Qed.
Lemma C13_user_refuted_lemma : exists l w r r',
  urun world0 l = Ok w /\ registry w 0 r /\ registry w 1 r' /\
  ir_uid r "add" = ir_uid r' "sub" /\ has_uid r "add" /\ ~ user_given l 0 "add".
Proof.
  exists [UNew []; UReg 0 "add"; UNew [("sub", 1)]].
  set (W := match urun world0 [UNew []; UReg 0 "add"; UNew [("sub", 1)]] with Ok w => w | _ => world0 end).
  exists W, (nth 0 (wd_regs W) (mkIR [] (da_new 0 0))), (nth 1 (wd_regs W) (mkIR [] (da_new 0 0))).
  split; [vm_compute; reflexivity|]. split; [vm_compute; reflexivity|]. split; [vm_compute; reflexivity|].
  split; [vm_compute; reflexivity|]. split; [vm_compute; discriminate|].
  intros (us & u & H & I). vm_compute in H. injection H as <-. exact I.
Qed.
