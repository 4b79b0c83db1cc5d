(** Lemmas: which UID lists of the user are accepted (C13). *)
From Coq Require Import NArith List Bool String Lia.
From Verif Require Import M_Base M_Registry S_Uids L_Registry L_Uids.
Import ListNotations.
Local Open Scope N_scope.

Lemma mfind_in {T} (m : list (string * T)) k : mfind m k = None <-> ~ In k (map fst m).
Proof.
  induction m as [|[k' v] m IH]; cbn [mfind map fst In]; [tauto|]. destruct (String.eqb_spec k' k) as [->|NE].
  - split; [discriminate|]. tauto.
  - rewrite IH. tauto.
Qed.
Lemma load_checked us : forall used nu r,
  da_ok (ir_arr r) -> da_up (ir_arr r) = DEFAULT_UP_SIZE ->
  (forall m u, In (m, u) us -> u + DEFAULT_UP_SIZE < w32) ->
  let ok := NoDup (map fst us) /\ NoDup (map snd us) /\ ~ In 0 (map snd us) /\
            (forall u, In u (map snd us) -> ~ In u used) /\ (forall m, In m (map fst us) -> ~ In m (map fst (ir_map r))) in
  match ir_load us used nu r with
  | Ok _ => ok
  | Throw e => ~ ok /\ (e = EInstIDListInvalidUID \/ e = EInstIDListUIDNotUnique \/ e = EInstIDListAlreadyRegistered)
  | AssertFail | UB => False
  end.
Proof.
  induction us as [|[m uid] us IH]; intros used nu r O P B; cbn [ir_load map fst snd].
  - cbn. split; [constructor|]. split; [constructor|]. split; [auto|]. split; intros ? [].
  - unfold INVALID_UID. destruct (N.eqb_spec uid 0) as [->|NZ].
    { split; [|auto]. intros (_ & _ & H & _). apply H. now left. }
    destruct (existsb (N.eqb uid) used) eqn:X.
    { split; [|auto]. intros (_ & _ & _ & H & _). apply existsb_exists in X as (u & I & Q). apply N.eqb_eq in Q. subst u.
      apply (H uid); [now left|exact I]. }
    destruct (mfind (ir_map r) m) as [u|] eqn:F.
    { split; [|auto]. intros (_ & _ & _ & _ & H). assert (mfind (ir_map r) m = None); [|congruence].
      apply mfind_in, H. now left. }
    destruct (da_add_ok (ir_arr r) uid m O) as [a A]; [rewrite P; eapply B; now left|rewrite P; reflexivity|].
    rewrite A. cbn [rbind]. apply da_add_spec in A as (O' & _ & P' & _); [|exact O].
    specialize (IH (uid :: used) (allocate_uid nu uid) (mkIR (madd (ir_map r) m uid) a) O').
    cbn [ir_arr ir_map] in IH. specialize (IH ltac:(congruence)). specialize (IH ltac:(intros m' u' I; eapply B; right; exact I)).
    apply mfind_in in F.
    assert (NU : ~ In uid used). { intros I. rewrite <- not_true_iff_false in X. apply X, existsb_exists. exists uid. split; [exact I|apply N.eqb_refl]. }
    assert (EQ : (NoDup (map fst us) /\ NoDup (map snd us) /\ ~ In 0 (map snd us) /\
        (forall u, In u (map snd us) -> ~ In u (uid :: used)) /\ (forall n, In n (map fst us) -> ~ In n (map fst (madd (ir_map r) m uid)))) <->
      (NoDup (m :: map fst us) /\ NoDup (uid :: map snd us) /\ ~ In 0 (uid :: map snd us) /\
        (forall u, In u (uid :: map snd us) -> ~ In u used) /\ (forall n, In n (m :: map fst us) -> ~ In n (map fst (ir_map r))))).
    { cbn [madd map fst]. split.
      - intros (H1 & H2 & H3 & H4 & H5). split; [|split; [|split; [|split]]].
        + constructor; [|exact H1]. intros I. apply (H5 m I). now left.
        + constructor; [|exact H2]. intros I. apply (H4 uid I). now left.
        + intros [Q|Q]; [congruence|auto].
        + intros u [<-|I]; [exact NU|]. intros J. apply (H4 u I). now right.
        + intros n [<-|I]; [exact F|]. intros J. apply (H5 n I). now right.
      - intros (H1 & H2 & H3 & H4 & H5). inversion H1; inversion H2; subst. split; [assumption|]. split; [assumption|].
        split; [intros Q; apply H3; now right|]. split.
        + intros u I [<-|J]; [contradiction|]. apply (H4 u); [now right|exact J].
        + intros n I [<-|J]; [contradiction|]. apply (H5 n); [now right|exact J]. }
    destruct (ir_load us (uid :: used) (allocate_uid nu uid) _) as [x|e| |]; [tauto|tauto|exact IH|exact IH].
Qed.
Lemma user_list_lemma w us : (forall m u, In (m, u) us -> u + DEFAULT_UP_SIZE < 2 ^ 32) ->
  let acceptable := NoDup (map fst us) /\ NoDup (map snd us) /\ ~ In INVALID_UID (map snd us) in
  (acceptable -> exists w', ustep w (UNew us) = Ok w') /\
  (~ acceptable -> exists e, ustep w (UNew us) = Throw e /\
     (e = EInstIDListInvalidUID \/ e = EInstIDListUIDNotUnique \/ e = EInstIDListAlreadyRegistered)).
Proof.
  intros B acceptable. unfold ustep, ir_new.
  pose proof (load_checked us [] (wd_next w) (mkIR [] (da_new INITIAL_SIZE DEFAULT_UP_SIZE))) as H.
  specialize (H ltac:(apply da_new_ok; reflexivity) eq_refl B). cbn beta zeta in H. cbn [ir_map map] in H.
  set (big := NoDup (map fst us) /\ NoDup (map snd us) /\ ~ In 0 (map snd us) /\ _) in H.
  assert (Q : big <-> acceptable) by (unfold big, acceptable, INVALID_UID; cbn [In]; intuition auto).
  destruct (ir_load us [] (wd_next w) _) as [[nu r]|e| |]; cbn [rbind]; [|..|contradiction|contradiction].
  - split; [eauto|]. tauto.
  - destruct H as [H H']. split; [tauto|]. intros _. eauto.
Qed.

Lemma uniquely_lemma l w : urun world0 l = Ok w -> forall i r m, registry w i r -> wd_next w + 1 < 2 ^ 32 ->
  (has_uid r m -> ir_register_uniquely r m (wd_next w) = Throw EBuildErrorDuplicateMnemonic) /\
  (~ has_uid r m -> ir_register_uniquely r m (wd_next w) = ir_register r m (wd_next w)).
Proof.
  intros H i r m R B. pose proof (run_ok l w H) as W. pose proof (wo_reg _ _ W i r R) as RO. rewrite (has_uid_find r m _ _ RO).
  destruct (wo_next _ _ W) as [N0 _]. unfold ir_register_uniquely, ir_add_uniquely, ir_register, advance_uid.
  assert (u32 (wd_next w + 1) = wd_next w + 1) as -> by (unfold u32; apply N.mod_small; exact B).
  assert (((negb (wd_next w =? INVALID_UID)) && (wd_next w <? wd_next w + 1))%bool = true) as ->.
  { unfold INVALID_UID. apply andb_true_iff. split; [apply negb_true_iff, N.eqb_neq|apply N.ltb_lt]; lia. }
  cbn [rassert rbind]. destruct (mfind (ir_map r) m) as [u|].
  - split; [reflexivity|]. intros Q. destruct Q. eauto.
  - split; [intros [u Q]; discriminate Q|]. intros _. destruct (da_add _ _ _); reflexivity.
Qed.
