(** Configuration as a sequence of builder operations; the unique ids a configured builder holds. *)
From Coq Require Import NArith ZArith Arith List Bool String Lia.
From Verif Require Import M_Base M_Field M_Forms M_Meta M_Extract M_Decoded M_Registry M_Trie M_Builder M_DTable.
From Verif Require Import S_Bits S_Maps S_Trie S_Table L_Cache L_Registry L_Uids L_Table.
Import ListNotations.
Local Open Scope N_scope.

(** ** Whatever the builder operations preserve, configuration preserves *)
Lemma descend_leaf {A} ign st (leaf : node -> res (node * A)) fs : forall cur n a,
  descend ign st leaf fs cur = Ok (n, a) -> exists c c', leaf c = Ok (c', a).
Proof.
  induction fs as [|f rest IH]; intros cur n a H; cbn [descend] in H; [discriminate|].
  destruct cur as [g tab d|]; [|discriminate]. destruct (negb (f_equiv g f)); [discriminate|].
  destruct (is_ignored ign f).
  - match type of H with (rbind ?r _) = _ => destruct r as [[c' a']| | |] eqn:E; cbn [rbind] in H; try discriminate end.
    assert (a' = a) as -> by congruence. destruct rest; eauto.
  - match type of H with (rbind ?r _) = _ => destruct r as [[c' a']| | |] eqn:E; cbn [rbind] in H; try discriminate end.
    assert (a' = a) as -> by congruence. destruct rest; eauto.
Qed.
Lemma build_tree_leaf {A} fm ign st (leaf : node -> res (node * A)) t t' a :
  build_tree fm ign st leaf t = Ok (t', a) -> exists c c', leaf c = Ok (c', a).
Proof.
  unfold build_tree. destruct (fm_ocfields fm) as [|f0 fr]; [discriminate|]. destruct (root_class st) as [c|]; [|discriminate].
  destruct (descend ign st leaf (f0 :: fr) _) as [[n a']| | |] eqn:E; cbn [rbind]; try discriminate.
  intros H. assert (a' = a) as -> by congruence. eapply descend_leaf; eauto.
Qed.

Section Preserve.
Context (Q : list irec -> builder -> Prop).
Context (QM : forall P b mn m, Q P b -> Q P (set_metas b (madd (b_metas b) mn m))).
Context (QB : forall P b r mn st m b' i, is_inst r mn -> Q P b ->
  bld b mn (fname_of r mn) (r_expand r) st m = Ok (b', i) -> Q (P ++ [r])%list b').
Context (QO : forall P b r mn o x b', r_mn r = Some mn -> r_overlay r = Some o -> Q P b ->
  build_overlay b mn o r x = Ok b' -> Q (P ++ [r])%list b').

Lemma leaf_shared b fm mn st fl fname xp x m i c c' b' i' al :
  build_leaf b fm mn st fl fname xp x m (Some i) c = Ok (c', (b', i', al)) -> 
  b' = b \/ exists m', b' = set_metas b (madd (b_metas b) mn m').
Proof.
  intros H. apply (build_leaf_inv b fm []) in H as (c0 & tab & d & tab' & d' & _ & _ & _ & _ & H). cbv zeta in H. destruct H as [-> _].
  destruct fl; [left|right]; eauto.
Qed.
Lemma leaf_own b fm mn st fl fname xp x m c c' b' i' al :
  build_leaf b fm mn st fl fname xp x m None c = Ok (c', (b', i', al)) -> 
  exists m' b1, (b1 = b \/ b1 = set_metas b (madd (b_metas b) mn m')) /\ bld b1 mn fname xp st m' = Ok (b', i').
Proof.
  intros H. apply (build_leaf_inv b fm []) in H as (c0 & tab & d & tab' & d' & _ & _ & _ & _ & H). cbv zeta in H.
  eexists _, _. split; [|exact H]. destruct fl; auto.
Qed.
Lemma aliases_keep P fm mn fl ign fname xp x m i sts : forall s s',
  Q P (fst s) -> build_aliases fm mn fl ign fname xp x m i sts s = Ok s' -> Q P (fst s').
Proof.
  induction sts as [|st sts IH]; intros [b t] s' HQ H; cbn [build_aliases fst snd] in H.
  - assert (s' = (b, t)) as -> by congruence. exact HQ.
  - destruct (build_tree _ _ _ _ t) as [[t1 [[b1 i1] al]]| | |] eqn:E; cbn [rbind] in H; try discriminate.
    apply build_tree_leaf in E as (c & c' & E). apply leaf_shared in E.
    assert (Q P b1) by (destruct E as [->|(m' & ->)]; auto).
    destruct al; [assert (s' = (b1, t1)) as -> by congruence; auto|]. eapply IH; [|exact H]. auto.
Qed.
Lemma parse_keep P r mn s s' : r_mn r = Some mn -> Q P (fst s) -> parse_inst s r mn = Ok s' -> Q (P ++ [r])%list (fst s').
Proof.
  intros M HQ H. unfold parse_inst in H.
  match type of H with (rbind ?r _) = _ => destruct r as [x| | |]; cbn [rbind] in H; try discriminate end.
  destruct (r_overlay r) as [o|] eqn:EO.
  - destruct (build_overlay (fst s) mn o r x) as [b| | |] eqn:E; cbn [rbind] in H; try discriminate.
    assert (s' = (b, snd s)) as -> by congruence. eapply QO; eauto.
  - destruct (r_form r) as [fn|]; [|discriminate]. destruct (get_form fn) as [fm| | |]; cbn [rbind] in H; try discriminate.
    unfold make_inst_meta in H. destruct (make_meta _ _ _) as [m| | |]; cbn [rbind] in H; try discriminate.
    destruct (mfind (b_metas (fst s)) mn) eqn:EM; cbn [rbind] in H; try discriminate.
    set (b0 := set_metas _ _) in H.
    destruct (build_tree _ _ _ _ (snd s)) as [[t1 [[b1 i1] al]]| | |] eqn:E; cbn [rbind] in H; try discriminate.
    apply build_tree_leaf in E as (c & c' & E). apply leaf_own in E as (m' & b2 & E1 & E2).
    assert (Q (P ++ [r])%list b1).
    { eapply (QB P b2); [split; eauto| |exact E2]. destruct E1 as [->| ->]; [|apply QM]; apply QM, HQ. }
    destruct al; [assert (s' = (b1, t1)) as -> by congruence; auto|]. eapply aliases_keep; [|exact H]. auto.
Qed.
Lemma configure_keep incl excl recs : forall P s s', Q P (fst s) -> configure incl excl recs s = Ok s' ->
  exists P', Q P' (fst s') /\ forall r, In r P' <-> In r P \/ (In r (kept incl excl recs) /\ r_mn r <> None).
Proof.
  induction recs as [|r recs IH]; intros P s s' HQ H; cbn [configure] in H.
  - assert (s' = s) as -> by congruence. exists P. split; [auto|]. intros r. cbn. tauto.
  - unfold kept. cbn [filter]. destruct (r_mn r) as [mn|] eqn:EM.
    + rewrite C18_filter_lemma in H. destruct (wantedb incl excl (r_tags r)) eqn:EW; [|eapply IH; eauto].
      destruct (parse_inst s r mn) as [s1| | |] eqn:E; cbn [rbind] in H; try discriminate.
      apply (parse_keep P _ _ _ _ EM HQ) in E. destruct (IH _ _ _ E H) as (P' & Q1 & Q2). exists P'. split; [auto|].
      intros r0. rewrite Q2, in_app_iff. fold (kept incl excl recs). cbn [In].
      split; [intros [[?|[<-|[]]]|?]|intros [?|[[<-|?] ?]]]; try tauto. right. split; [tauto|congruence].
    + destruct (r_pseudo r); [|discriminate]. destruct (IH _ _ _ HQ H) as (P' & Q1 & Q2). exists P'. split; [auto|].
      intros r0. rewrite Q2. fold (kept incl excl recs). destruct (wantedb incl excl (r_tags r)); [|tauto]. cbn [In].
      split; [tauto|]. intros [?|[[<-|?] ?]]; tauto.
Qed.
End Preserve.

(** ** Unique ids *)
Definition expanded (P : list irec) (m : string) : Prop := exists r, In r P /\ is_inst r m /\ r_expand r <> ""%string.
Record uinv (P : list irec) (b : builder) : Prop := mkUI {
  ui_nu : 0 < b_nu b < w32;
  ui_reg : reg_ok (expanded P) (b_nu b) (b_inst b);
  ui_facts : forall i f, nth_error (b_facts b) i = Some f ->
    (forall k u, mfind (fc_uids f) k = Some u -> u <> INVALID_UID) /\
    (forall o, In o (fc_olays f) -> ov_uid o <> INVALID_UID) }.
Lemma expanded_app P r m : expanded P m -> expanded (P ++ [r]) m.
Proof. intros (r0 & H & H1). exists r0. split; [apply in_or_app|]; auto. Qed.
Lemma reg_ok_pos al nu r m u : reg_ok al nu r -> mfind (ir_map r) m = Some u -> u <> INVALID_UID.
Proof. intros R H. apply (ro_bound _ _ _ R) in H. unfold INVALID_UID. lia. Qed.
Lemma uinv_register al b mn b' uid : 0 < b_nu b < w32 -> reg_ok al (b_nu b) (b_inst b) ->
  register_inst b mn = Ok (b', uid) -> 0 < b_nu b' < w32 /\ reg_ok al (b_nu b') (b_inst b') /\ uid <> INVALID_UID.
Proof.
  intros [N1 N2] R H. unfold register_inst in H. destruct (ir_register _ _ _) as [[[nu' r'] u]| | |] eqn:E; cbn [rbind] in H; try discriminate.
  apply (register_ok al) in E as (L1 & L2 & R' & F & _); auto.
  assert (b' = set_inst b nu' r') as -> by (cbn in H; congruence). assert (u = uid) as -> by congruence. cbn [b_nu b_inst set_inst].
  split; [lia|]. split; [auto|]. eapply reg_ok_pos; eauto.
Qed.
Lemma uinv_bld P b r mn st m b' i : is_inst r mn -> uinv P b ->
  bld b mn (fname_of r mn) (r_expand r) st m = Ok (b', i) -> uinv (P ++ [r]) b'.
Proof.
  intros HI [N R F] H. assert (R' : reg_ok (expanded (P ++ [r])) (b_nu b) (b_inst b)).
  { eapply reg_ok_weaken; [|apply N.le_refl|exact R]. apply expanded_app. }
  assert (UP : forall b0 b1 j g, (forall i f, nth_error (b_facts b0) i = Some f ->
      (forall k u, mfind (fc_uids f) k = Some u -> u <> INVALID_UID) /\ (forall o, In o (fc_olays f) -> ov_uid o <> INVALID_UID)) ->
    (forall f, (forall k u, mfind (fc_uids f) k = Some u -> u <> INVALID_UID) -> forall k u, mfind (fc_uids (g f)) k = Some u -> u <> INVALID_UID) ->
    (forall f, fc_olays (g f) = fc_olays f) ->
    upd_fact b0 j g = Ok b1 -> b_nu b1 = b_nu b0 /\ b_inst b1 = b_inst b0 /\ (forall i f, nth_error (b_facts b1) i = Some f ->
      (forall k u, mfind (fc_uids f) k = Some u -> u <> INVALID_UID) /\ (forall o, In o (fc_olays f) -> ov_uid o <> INVALID_UID))).
  { intros b0 b1 j g F0 G1 G2 U. apply upd_fact_inv in U as (f & Hf & ->). cbn [b_nu b_inst b_facts set_facts].
    split; [auto|]. split; [auto|]. intros i0 f0 H0. rewrite nth_set_nth in H0. destruct (Nat.eqb j i0); [|eauto].
    rewrite Hf in H0. assert (f0 = g f) as -> by congruence. destruct (F0 _ _ Hf) as [A B].
    split; [apply G1; auto|]. rewrite G2. auto. }
  assert (GU : forall u0, u0 <> INVALID_UID -> forall f, (forall k u, mfind (fc_uids f) k = Some u -> u <> INVALID_UID) ->
             forall k u, mfind (fc_uids (fact_add_uid mn u0 f)) k = Some u -> u <> INVALID_UID).
  { intros u0 NZ f Hf k u Hu. destruct (add_uid_cases mn u0 f) as [(v & _ & Q)|[_ Q]]; rewrite Q in Hu; [eauto|]. cbn [fc_uids] in Hu.
    rewrite mfind_madd in Hu. destruct (String.eqb mn k); [congruence|eauto]. }
  assert (OU : forall u0 f, fc_olays (fact_add_uid mn u0 f) = fc_olays f).
  { intros u0 f. destruct (add_uid_cases mn u0 f) as [(v & _ & Q)|[_ Q]]; rewrite Q; reflexivity. }
  unfold bld in H. destruct (String.eqb (r_expand r) "") eqn:EX.
  - match type of H with (let (_, _) := ?p in _) = _ => destruct p as [b1 i1] eqn:E1 end.
    assert (B1 : b_nu b1 = b_nu b /\ b_inst b1 = b_inst b /\ forall i f, nth_error (b_facts b1) i = Some f ->
      (forall k u, mfind (fc_uids f) k = Some u -> u <> INVALID_UID) /\ (forall o, In o (fc_olays f) -> ov_uid o <> INVALID_UID)).
    { destruct (find_ifact b (fname_of r mn)) as [j|]; [assert (b1 = b) as -> by congruence; auto|].
      cbn [new_fact] in E1. match type of E1 with (?x, _) = _ => assert (b1 = x) as -> by congruence end.
      cbn [b_nu b_inst b_facts set_reg set_facts]. split; [auto|]. split; [auto|]. intros j f Hf.
      destruct (Nat.lt_ge_cases j (List.length (b_facts b))) as [L|L].
      - rewrite nth_error_app1 in Hf by auto. eauto.
      - rewrite nth_error_app2 in Hf by auto. destruct (j - List.length (b_facts b))%nat as [|n]; [|destruct n; discriminate].
        cbn in Hf. match type of Hf with Some ?x = _ => assert (f = x) as -> by congruence end. cbn. split; [discriminate|intros ? []]. }
    clear E1. destruct B1 as (N1 & I1 & F1).
    set (b2 := if String.eqb mn (fname_of r mn) then b1 else set_reg b1 (madd (b_reg b1) mn i1)) in H.
    assert (B2 : b_nu b2 = b_nu b1 /\ b_inst b2 = b_inst b1 /\ b_facts b2 = b_facts b1) by (unfold b2; destruct (String.eqb mn (fname_of r mn)); (split; [reflexivity|split; reflexivity])).
    clearbody b2. destruct B2 as (N2 & I2 & F2).
    destruct (upd_fact b2 i1 _) as [b3| | |] eqn:U3; cbn [rbind] in H; try discriminate.
    apply UP in U3 as (N3 & I3 & F3); [|rewrite F2; exact F1| |].
    2:{ intros f Hf k u. destruct (add_anno_cases mn (match find_anno b (fname_of r mn) with Some a => Some a | None => find_anno b mn end) f) as [(w & _ & ->)|[_ ->]]; eauto. }
    2:{ intros f. destruct (add_anno_cases mn (match find_anno b (fname_of r mn) with Some a => Some a | None => find_anno b mn end) f) as [(w & _ & ->)|[_ ->]]; auto. }
    destruct (register_inst b3 mn) as [[b4 uid]| | |] eqn:U4; cbn [rbind] in H; try discriminate.
    pose proof U4 as V4. apply register_inst_inv in V4 as (_ & _ & F4 & _).
    apply (uinv_register (expanded (P ++ [r]))) in U4 as (N4 & R4 & NZ); [|rewrite N3, N2, N1; auto|rewrite N3, N2, N1, I3, I2, I1; auto].
    destruct (upd_fact b4 i1 _) as [b5| | |] eqn:U5; cbn [rbind] in H; try discriminate.
    assert (b' = b5) as -> by congruence.
    apply UP in U5 as (N5 & I5 & F5); [|rewrite F4; exact F3|exact (GU _ NZ)|exact (OU _)].
    constructor; [rewrite N5; exact N4|rewrite N5, I5; exact R4|exact F5].
  - destruct (find_ifact b (r_expand r)) as [j|]; [|discriminate].
    assert (AL : expanded (P ++ [r]) mn).
    { exists r. split; [apply in_or_app; right; now left|]. split; [auto|]. now apply String.eqb_neq. }
    destruct (ir_alias _ _ _ _) as [r'| | |] eqn:A; cbn [rbind] in H; try discriminate.
    pose proof A as A'. apply ir_alias_inv in A' as (_ & _ & NZ & _).
    apply (alias_ok (expanded (P ++ [r]))) in A as (R1 & _); [|exact AL|exact R'].
    destruct (upd_fact _ j _) as [b2| | |] eqn:U2; cbn [rbind] in H; try discriminate.
    apply UP in U2 as (N2 & I2 & F2); [|exact F|exact (GU _ NZ)|exact (OU _)].
    destruct (upd_fact b2 j _) as [b3| | |] eqn:U3; cbn [rbind] in H; try discriminate.
    apply UP in U3 as (N3 & I3 & F3); [|exact F2| |].
    2:{ intros f Hf k u. destruct (merge_cases mn m f) as [(w & _ & ->)|[_ ->]]; eauto. }
    2:{ intros f. destruct (merge_cases mn m f) as [(w & _ & ->)|[_ ->]]; auto. }
    assert (b' = b3) as -> by congruence. cbn [b_nu b_inst set_inst] in *.
    constructor; [congruence|rewrite N3, I3, N2, I2; auto|auto].
Qed.
Lemma uinv_overlay P b r mn o x b' : r_mn r = Some mn -> r_overlay r = Some o -> uinv P b ->
  build_overlay b mn o r x = Ok b' -> uinv (P ++ [r]) b'.
Proof.
  intros HM HO [N R F] H. assert (R' : reg_ok (expanded (P ++ [r])) (b_nu b) (b_inst b)).
  { eapply reg_ok_weaken; [|apply N.le_refl|exact R]. apply expanded_app. }
  unfold build_overlay in H. destruct (overlay_parse o) as [[[base mask] v]| | |]; cbn [rbind] in H; try discriminate.
  destruct (mfind (b_metas b) base) as [bm|]; [|discriminate].
  destruct (meta_overrides _ _ bm) as [m| | |]; cbn [rbind] in H; try discriminate.
  destruct (register_inst b mn) as [[b1 uid]| | |] eqn:U; cbn [rbind] in H; try discriminate.
  pose proof U as V. apply register_inst_inv in V as (_ & _ & F1 & _).
  apply (uinv_register (expanded (P ++ [r]))) in U as (N1 & R1 & NZ); auto.
  destruct (_ && _)%bool; [discriminate|]. destruct (find_ifact b1 base) as [i|]; [|discriminate].
  apply upd_fact_inv in H as (f & Hf & ->). rewrite F1 in Hf. constructor; cbn [b_nu b_inst b_facts set_facts]; auto.
  intros j g Hg. rewrite nth_set_nth in Hg. rewrite F1 in Hg. destruct (Nat.eqb i j); [|eauto]. rewrite Hf in Hg.
  match type of Hg with Some ?y = _ => assert (g = y) as -> by congruence end. destruct (F _ _ Hf) as [A B]. cbn [fc_uids fc_olays fact_add_overlay].
  split; [auto|]. intros o0 Ho. apply ov_insert_in in Ho as [->|Ho]; [exact NZ|auto].
Qed.
Lemma uinv_custom b mn types b' : uinv [] b -> add_custom b mn types = Ok b' -> uinv [] b'.
Proof.
  intros [N R F] H. unfold add_custom, new_fact in H. cbn beta iota zeta in H.
  set (f0 := fact_add_anno mn _ (fact_new mn 0 _)) in H. set (b2 := set_reg _ _) in H.
  destruct (register_inst b2 mn) as [[b3 uid]| | |] eqn:U; cbn [rbind] in H; try discriminate.
  pose proof U as V. apply register_inst_inv in V as (_ & _ & F3 & _).
  apply (uinv_register (expanded [])) in U as (N1 & R1 & NZ); auto.
  apply upd_fact_inv in H as (f & Hf & ->). unfold b2 in F3. cbn [b_facts set_reg set_facts] in F3. rewrite F3, nth_app_last in Hf.
  assert (f = f0) as -> by exact (f_equal (fun o => match o with Some g => g | None => f end) (eq_sym Hf)).
  constructor; cbn [b_nu b_inst b_facts set_facts]; auto. intros j g Hg. rewrite F3, nth_set_nth in Hg.
  destruct (Nat.eqb (List.length (b_facts b)) j) eqn:EJ.
  - rewrite nth_app_last in Hg. assert (g = fact_add_uid mn uid f0) as -> by congruence. split; [|intros o []].
    intros k u. cbn. destruct (String.eqb mn k); [congruence|discriminate].
  - apply Nat.eqb_neq in EJ. assert (j < List.length (b_facts b ++ [f0]))%nat as Q by (apply nth_error_Some; congruence).
    rewrite app_length in Q. cbn in Q. rewrite nth_error_app1 in Hg by lia. eauto.
Qed.
Lemma uinv_new uids annos nu b : 0 < nu < w32 -> builder_new uids annos nu = Ok b -> uinv [] b.
Proof.
  intros N. unfold builder_new. destruct (ir_new uids nu) as [[nu1 ir]| | |] eqn:E; cbn [rbind]; try discriminate.
  unfold ir_new in E. apply load_ok in E as (L1 & L2 & R & _); [|auto| |discriminate].
  2:{ split; cbn [ir_map ir_arr]; try discriminate; [apply da_new_ok; vm_compute; intuition discriminate|..]; intros u m Q; unfold da_slot, da_new in Q; destruct u; discriminate. }
  set (b0 := mkB _ _ _ _ _ _ _). assert (I0 : uinv [] b0).
  { constructor; cbn [b_nu b_inst b_facts b0]; [lia| |intros [|?]; discriminate].
    eapply reg_ok_weaken; [|apply N.le_refl|exact R]. intros m []. }
  destruct (add_custom b0 "nop" _) as [b1| | |] eqn:E1; cbn [rbind]; try discriminate.
  apply (uinv_custom _ _ _ _ I0) in E1. intros H. eapply uinv_custom; eauto.
Qed.
Lemma uinv_metas P b v : uinv P b -> uinv P (set_metas b v).
Proof. intros []. constructor; auto. Qed.
(** What a configured decoder knows about ids. *)
Lemma configured_ids uids annos nu incl excl recs s : 0 < nu < w32 -> make_decoder uids annos nu incl excl recs = Ok s ->
  exists P, uinv P (fst s) /\ forall r, In r P <-> In r (kept incl excl recs) /\ r_mn r <> None.
Proof.
  intros N H. unfold make_decoder in H. destruct (builder_new uids annos nu) as [b0| | |] eqn:E; cbn [rbind] in H; try discriminate.
  apply uinv_new in E; [|exact N].
  destruct (configure_keep uinv (fun P b mn m => uinv_metas P b _) (fun P b r mn st m b' i => uinv_bld P b r mn st m b' i)
    (fun P b r mn o x b' => uinv_overlay P b r mn o x b') incl excl recs [] (b0, tree_new) s E H) as (P & Q1 & Q2).
  exists P. split; [auto|]. intros r. rewrite Q2. cbn. tauto.
Qed.
