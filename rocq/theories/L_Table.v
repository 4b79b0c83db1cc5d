(** The builder only grows, and configuring a table puts exactly its encodings in the tree. *)
From Coq Require Import NArith Arith List Bool String Lia Permutation Sorted.
From Verif Require Import M_Base M_Field M_Forms M_Meta M_Extract M_Decoded M_Registry M_Trie M_Builder M_DTable.
From Verif Require Import S_Bits S_Trie S_Table L_Trie.
Import ListNotations.
Local Open Scope N_scope.

(** ** Tag filter *)
Lemma existsb_never {A} (l : list A) : existsb (fun _ => false) l = false.
Proof. induction l; auto. Qed.
Lemma C18_filter_lemma incl excl tags : tag_filter incl excl tags = wantedb incl excl tags.
Proof.
  unfold tag_filter, wantedb, match_any_any, hits.
  destruct incl as [|p incl]; destruct excl as [|q excl]; destruct tags as [|t tags]; cbn; try reflexivity.
  - now rewrite existsb_never.
  - now rewrite existsb_never, !andb_true_r.
Qed.
Lemma hits_spec tags ps : hits tags ps = true <-> exists t p, In t tags /\ In p ps /\ p t = true.
Proof.
  unfold hits. rewrite existsb_exists. split.
  - intros (t & Ht & H). apply existsb_exists in H as (p & Hp & H). eauto.
  - intros (t & p & Ht & Hp & H). exists t. split; [auto|]. apply existsb_exists. eauto.
Qed.
Lemma wantedb_spec incl excl tags : wantedb incl excl tags = true <-> wanted incl excl tags.
Proof.
  unfold wantedb, wanted. rewrite andb_true_iff, negb_true_iff, <- not_true_iff_false, hits_spec.
  apply and_iff_compat_r. destruct incl as [|p incl]; [intuition|].
  rewrite hits_spec. split; [auto|]. intros [H|H]; [discriminate|auto].
Qed.

(** ** The builder only grows *)
Definition keeps {T} (m m' : list (string * T)) : Prop := forall k v, mfind m k = Some v -> mfind m' k = Some v.
Lemma keeps_refl {T} (m : list (string * T)) : keeps m m. Proof. intros k v H. exact H. Qed.
Lemma keeps_trans {T} (a b c : list (string * T)) : keeps a b -> keeps b c -> keeps a c.
Proof. intros H1 H2 k v H. auto. Qed.
Lemma keeps_nil {T} (m m' : list (string * T)) : keeps m m' -> m' = [] -> m = [].
Proof.
  intros K ->. destruct m as [|[k v] l]; [auto|]. specialize (K k v). cbn in K. rewrite String.eqb_refl in K.
  discriminate (K eq_refl).
Qed.
Lemma keeps_madd {T} (m : list (string * T)) k v : mfind m k = None -> keeps m (madd m k v).
Proof.
  intros H k' v' H'. unfold madd. cbn. destruct (String.eqb k k') eqn:E; [|exact H'].
  apply String.eqb_eq in E. subst k'. congruence.
Qed.
Lemma mfind_madd {T} (m : list (string * T)) k v k' :
  mfind (madd m k v) k' = if String.eqb k k' then Some v else mfind m k'.
Proof. reflexivity. Qed.

Record f_le (f f' : factory) : Prop := mkFle {
  fl_name : fc_name f' = fc_name f;
  fl_sten : fc_stencil f' = fc_stencil f;
  fl_meta : fc_meta f' = fc_meta f;
  fl_uids : keeps (fc_uids f) (fc_uids f');
  fl_annos : keeps (fc_annos f) (fc_annos f');
  fl_metas : keeps (fc_metas f) (fc_metas f');
  fl_ols : incl (fc_olays f) (fc_olays f') }.
Lemma f_le_refl f : f_le f f.
Proof. constructor; auto using keeps_refl, incl_refl. Qed.
Lemma f_le_trans f g h : f_le f g -> f_le g h -> f_le f h.
Proof. intros [] []. constructor; try congruence; eauto using keeps_trans, incl_tran. Qed.
Lemma f_le_anno mn a f : f_le f (fact_add_anno mn a f).
Proof.
  unfold fact_add_anno. destruct (mfind (fc_annos f) mn) eqn:E; [apply f_le_refl|].
  constructor; cbn; auto using keeps_refl, incl_refl, keeps_madd.
Qed.
Lemma f_le_uid mn u f : f_le f (fact_add_uid mn u f).
Proof.
  unfold fact_add_uid. destruct (mfind (fc_uids f) mn) eqn:E; [apply f_le_refl|].
  constructor; cbn; auto using keeps_refl, incl_refl, keeps_madd.
Qed.
Lemma f_le_merge mn m f : f_le f (fact_merge_meta mn m f).
Proof.
  unfold fact_merge_meta. destruct (mfind (fc_metas f) mn) eqn:E; [apply f_le_refl|].
  constructor; cbn; auto using keeps_refl, incl_refl, keeps_madd.
Qed.
Lemma ov_insert_in o l x : In x (ov_insert o l) <-> x = o \/ In x l.
Proof.
  induction l as [|a r IH]; cbn; [intuition|].
  destruct (_ <? _); cbn; [intuition|]. rewrite IH. intuition.
Qed.
Lemma f_le_overlay o f : f_le f (fact_add_overlay o f).
Proof.
  constructor; cbn; auto using keeps_refl. intros x Hx. apply ov_insert_in. auto.
Qed.

Record b_le (b b' : builder) : Prop := mkBle {
  bl_facts : forall i f, nth_error (b_facts b) i = Some f ->
               exists f', nth_error (b_facts b') i = Some f' /\ f_le f f';
  bl_ids : keeps (ir_map (b_inst b)) (ir_map (b_inst b'));
  bl_annos : b_annos b' = b_annos b }.
Lemma b_le_refl b : b_le b b.
Proof. constructor; auto using keeps_refl. intros i f H. exists f. split; [auto|apply f_le_refl]. Qed.
Lemma b_le_trans a b c : b_le a b -> b_le b c -> b_le a c.
Proof.
  intros [F1 I1 A1] [F2 I2 A2]. constructor; [|eauto using keeps_trans|congruence].
  intros i f H. destruct (F1 _ _ H) as (f' & H' & L). destruct (F2 _ _ H') as (f'' & H'' & L').
  exists f''. split; [auto|eauto using f_le_trans].
Qed.
Lemma nth_set_nth {A} (l : list A) i a j :
  nth_error (set_nth l i a) j = if Nat.eqb i j then match nth_error l i with Some _ => Some a | None => None end else nth_error l j.
Proof.
  revert i j. induction l as [|x l IH]; intros [|i] [|j]; cbn; try reflexivity; try (destruct (Nat.eqb i j); reflexivity).
  rewrite IH. destruct (Nat.eqb i j); reflexivity.
Qed.
Lemma upd_fact_inv b i g b' : upd_fact b i g = Ok b' ->
  exists f, nth_error (b_facts b) i = Some f /\ b' = set_facts b (set_nth (b_facts b) i (g f)).
Proof.
  unfold upd_fact, get_fact. destruct (nth_error _ _) as [f|]; cbn; [|discriminate].
  intros H. exists f. split; congruence.
Qed.
Lemma b_le_upd b i g b' : (forall f, f_le f (g f)) -> upd_fact b i g = Ok b' -> b_le b b'.
Proof.
  intros G H. apply upd_fact_inv in H as (f & Hf & ->). constructor; cbn; auto using keeps_refl.
  intros j f' Hj. rewrite nth_set_nth. destruct (Nat.eqb i j) eqn:E.
  - apply Nat.eqb_eq in E. subst j. rewrite Hf. exists (g f). split; [auto|]. assert (f' = f) by congruence. subst. auto.
  - exists f'. split; [auto|apply f_le_refl].
Qed.
Lemma b_le_new b f b' i : new_fact b f = (b', i) -> b_le b b'.
Proof.
  unfold new_fact. intros H. assert (b' = set_facts b (b_facts b ++ [f])) as -> by congruence.
  constructor; cbn; auto using keeps_refl. intros j g Hj. exists g. split; [|apply f_le_refl].
  rewrite nth_error_app1; [auto|]. apply nth_error_Some. congruence.
Qed.
Lemma b_le_same b b' : b_facts b' = b_facts b -> ir_map (b_inst b') = ir_map (b_inst b) ->
  b_annos b' = b_annos b -> b_le b b'.
Proof.
  intros E1 E2 E3. constructor; auto.
  - intros i f H. exists f. rewrite E1. split; [auto|apply f_le_refl].
  - rewrite E2. apply keeps_refl.
Qed.
Lemma ir_register_inv r mn nu nu' r' uid : ir_register r mn nu = Ok (nu', r', uid) ->
  keeps (ir_map r) (ir_map r') /\ mfind (ir_map r') mn = Some uid.
Proof.
  unfold ir_register. destruct (mfind (ir_map r) mn) as [u|] eqn:E.
  - intros H. assert (r' = r) as -> by congruence. assert (uid = u) by congruence. subst. split; [apply keeps_refl|auto].
  - destruct (advance_uid nu) as [u nu1]. destruct (da_add _ _ _) as [arr| | |]; cbn [rbind]; try discriminate.
    intros H. assert (r' = mkIR (madd (ir_map r) mn u) arr) as -> by congruence. assert (uid = u) by congruence. subst.
    cbn. split; [now apply keeps_madd|]. rewrite String.eqb_refl. reflexivity.
Qed.
Lemma register_inst_inv b mn b' uid : register_inst b mn = Ok (b', uid) ->
  b_le b b' /\ mfind (ir_map (b_inst b')) mn = Some uid /\
  b_facts b' = b_facts b /\ b_reg b' = b_reg b /\ b_annos b' = b_annos b /\ b_metas b' = b_metas b /\ b_stash b' = b_stash b.
Proof.
  unfold register_inst. destruct (ir_register _ _ _) as [[[nu' r'] u]| | |] eqn:E; cbn [rbind]; try discriminate.
  intros H. apply ir_register_inv in E as [K M].
  assert (b' = set_inst b nu' r') as -> by (cbn in H; congruence). assert (u = uid) as -> by congruence.
  split; [|cbn; auto 10]. constructor; cbn; auto. intros i f Hf. exists f. split; [auto|apply f_le_refl].
Qed.
Lemma ir_alias_inv r mn uid nu r' : ir_alias r mn uid nu = Ok r' ->
  keeps (ir_map r) (ir_map r') /\ (mfind (ir_map r) mn = None -> mfind (ir_map r') mn = Some uid) /\
  uid <> INVALID_UID /\ mfind (ir_map r') mn <> None.
Proof.
  unfold ir_alias. destruct (negb (uid =? INVALID_UID) && (uid <? nu)) eqn:E; cbn [rassert rbind]; [|discriminate].
  assert (uid <> INVALID_UID) by (intro; subst; rewrite N.eqb_refl in E; discriminate).
  destruct (mfind (ir_map r) mn) as [u|] eqn:F.
  - intros H'. assert (r' = r) as -> by congruence. split; [apply keeps_refl|]. split; [discriminate|]. split; [auto|congruence].
  - destruct (da_contains _ _); cbn [rassert rbind]; [|discriminate].
    intros H'. assert (r' = mkIR (madd (ir_map r) mn uid) (ir_arr r)) as -> by congruence. cbn.
    rewrite String.eqb_refl. split; [now apply keeps_madd|]. split; [auto|]. split; [auto|discriminate].
Qed.

Lemma nth_app_last {A} (l : list A) a : nth_error (l ++ [a]) (List.length l) = Some a.
Proof. induction l; cbn; auto. Qed.
Lemma nth_set_nth_eq {A} (l : list A) i a x : nth_error l i = Some x -> nth_error (set_nth l i a) i = Some a.
Proof. intros H. rewrite nth_set_nth, Nat.eqb_refl, H. reflexivity. Qed.
Lemma nth_set_nth_ne {A} (l : list A) i a j : i <> j -> nth_error (set_nth l i a) j = nth_error l j.
Proof. intros H. rewrite nth_set_nth. apply Nat.eqb_neq in H. rewrite H. reflexivity. Qed.

(** What [bld] does to the builder. *)
Definition panno_of (b : builder) (fname mn : string) : option anno :=
  match find_anno b fname with Some a => Some a | None => find_anno b mn end.
Record bld_normal (b : builder) (mn fname : string) (st : N) (m : meta) (b' : builder) (i : nat) : Prop := mkBN {
  bn_fact : exists f0 u,
      ((find_ifact b fname = Some i /\ nth_error (b_facts b) i = Some f0) \/
       (find_ifact b fname = None /\ f0 = fact_new fname st m /\ i = List.length (b_facts b))) /\
      nth_error (b_facts b') i = Some (fact_add_uid mn u (fact_add_anno mn (panno_of b fname mn) f0)) /\
      mfind (ir_map (b_inst b')) mn = Some u;
  bn_other : forall j, j <> i -> nth_error (b_facts b') j = nth_error (b_facts b) j;
  bn_reg : forall k, find_ifact b' k = if String.eqb mn k || String.eqb fname k then Some i else find_ifact b k;
  bn_metas : b_metas b' = b_metas b;
  bn_le : b_le b b' }.
Lemma bld_normal_inv b mn fname st m b' i : bld b mn fname "" st m = Ok (b', i) -> bld_normal b mn fname st m b' i.
Proof.
  unfold bld. rewrite String.eqb_refl. fold (panno_of b fname mn).
  (* the factory *)
  assert (exists b1 i1, (match find_ifact b fname with
                  | Some i => (b, i)
                  | None => let (b, i) := new_fact b (fact_new fname st m) in
                            (set_reg b (madd (b_reg b) fname i), i)
                  end) = (b1, i1) /\ b_le b b1 /\ b_metas b1 = b_metas b /\
            (forall j, j <> i1 -> nth_error (b_facts b1) j = nth_error (b_facts b) j) /\
            (forall k, find_ifact b1 k = if String.eqb fname k then Some i1 else find_ifact b k) /\
            ((find_ifact b fname = Some i1 /\ b1 = b) \/
             (find_ifact b fname = None /\ nth_error (b_facts b1) i1 = Some (fact_new fname st m)
              /\ i1 = List.length (b_facts b)))) as (b1 & i1 & -> & L1 & M1 & O1 & R1 & C1).
  { destruct (find_ifact b fname) as [i1|] eqn:E.
    - exists b, i1. split; [reflexivity|]. split; [apply b_le_refl|]. split; [auto|]. split; [auto|].
      split; [|left; auto]. intros k. destruct (String.eqb fname k) eqn:Ek; [|auto].
      apply String.eqb_eq in Ek. subst. auto.
    - exists (set_reg (set_facts b (b_facts b ++ [fact_new fname st m]))
                 (madd (b_reg b) fname (List.length (b_facts b)))), (List.length (b_facts b)).
      split; [reflexivity|].
      split; [apply b_le_trans with (set_facts b (b_facts b ++ [fact_new fname st m]));
              [eapply b_le_new; reflexivity|now apply b_le_same]|].
      split; [reflexivity|]. cbn. split.
      + intros j Hj. destruct (Nat.lt_ge_cases j (List.length (b_facts b))).
        * now rewrite nth_error_app1.
        * rewrite (proj2 (nth_error_None (b_facts b) j)) by lia. apply nth_error_None. rewrite app_length. cbn. lia.
      + split; [|right; rewrite nth_app_last; auto]. intros k. reflexivity. }
  set (b2 := if String.eqb mn fname then b1 else set_reg b1 (madd (b_reg b1) mn i1)).
  assert (b_le b1 b2 /\ b_metas b2 = b_metas b1 /\ b_facts b2 = b_facts b1 /\
          (forall k, find_ifact b2 k = if String.eqb mn k || String.eqb fname k then Some i1 else find_ifact b k))
    as (L2 & M2 & F2 & R2).
  { unfold b2. destruct (String.eqb mn fname) eqn:E.
    - split; [apply b_le_refl|]. split; [auto|]. split; [auto|]. intros k. rewrite R1.
      apply String.eqb_eq in E. subst mn. rewrite orb_diag. reflexivity.
    - split; [now apply b_le_same|]. split; [auto|]. split; [auto|]. intros k. unfold find_ifact, set_reg. cbn [b_reg].
      rewrite mfind_madd. destruct (String.eqb mn k); cbn [orb]; [auto|apply R1]. }
  clearbody b2. intros H.
  destruct (upd_fact b2 i1 _) as [b3| | |] eqn:U3; cbn [rbind] in H; try discriminate.
  pose proof (b_le_upd b2 i1 _ b3 (fun f => f_le_anno mn _ f) U3) as L3.
  apply upd_fact_inv in U3 as (f0 & Hf0 & ->).
  destruct (register_inst _ mn) as [[b4 uid]| | |] eqn:U4; cbn [rbind] in H; try discriminate.
  apply register_inst_inv in U4 as (L4 & I4 & F4 & R4 & A4 & M4 & S4).
  destruct (upd_fact b4 i1 _) as [b5| | |] eqn:U5; cbn [rbind] in H; try discriminate.
  pose proof (b_le_upd b4 i1 _ b5 (fun f => f_le_uid mn _ f) U5) as L5.
  apply upd_fact_inv in U5 as (f4 & Hf4 & ->).
  assert (i = i1) as -> by congruence.
  assert (b' = set_facts b4 (set_nth (b_facts b4) i1 (fact_add_uid mn uid f4))) as -> by congruence. clear H.
  cbn [b_facts set_facts] in F4. rewrite F4 in Hf4. rewrite (nth_set_nth_eq _ _ _ f0) in Hf4 by exact Hf0.
  constructor.
  - exists f0, uid. split; [|split].
    + destruct C1 as [[C1 E1]|(C1 & E1 & E2)]; [left|right].
      * split; [auto|]. rewrite <- E1, <- F2. exact Hf0.
      * split; [auto|]. split; [|auto]. rewrite F2 in Hf0. congruence.
    + cbn [b_facts set_facts]. rewrite (nth_set_nth_eq _ _ _ f4); [|rewrite F4; rewrite (nth_set_nth_eq _ _ _ f0) by exact Hf0; exact Hf4].
      congruence.
    + exact I4.
  - intros j Hj. cbn [b_facts set_facts]. rewrite nth_set_nth_ne by auto. rewrite F4, nth_set_nth_ne by auto.
    rewrite F2. auto.
  - intros k. unfold find_ifact, set_facts. cbn [b_reg]. rewrite R4. cbn [b_reg set_facts].
    apply R2.
  - cbn [b_metas set_facts]. rewrite M4. cbn [b_metas set_facts]. congruence.
  - eauto using b_le_trans.
Qed.

Record bld_expand (b : builder) (mn xpand : string) (m : meta) (b' : builder) (i : nat) : Prop := mkBX {
  bx_fact : exists f0 u,
      find_ifact b xpand = Some i /\ nth_error (b_facts b) i = Some f0 /\
      nth_error (b_facts b') i = Some (fact_merge_meta mn m (fact_add_uid mn u f0)) /\
      mfind (ir_map (b_inst b)) xpand = Some u /\
      (mfind (ir_map (b_inst b)) mn = None -> mfind (ir_map (b_inst b')) mn = Some u);
  bx_other : forall j, j <> i -> nth_error (b_facts b') j = nth_error (b_facts b) j;
  bx_reg : b_reg b' = b_reg b;
  bx_metas : b_metas b' = b_metas b;
  bx_le : b_le b b' }.
Lemma bld_expand_inv b mn fname xpand st m b' i : xpand <> ""%string ->
  bld b mn fname xpand st m = Ok (b', i) -> bld_expand b mn xpand m b' i.
Proof.
  intros NE. unfold bld. rewrite (proj2 (String.eqb_neq xpand "") NE).
  destruct (find_ifact b xpand) as [i1|] eqn:E; [|discriminate].
  destruct (ir_alias _ _ _ _) as [r'| | |] eqn:A; cbn [rbind]; try discriminate.
  apply ir_alias_inv in A as (K & F & NU & X).
  set (b1 := set_inst b (b_nu b) r').
  assert (L1 : b_le b b1).
  { constructor; cbn; auto. intros j f Hf. exists f. split; [auto|apply f_le_refl]. }
  destruct (upd_fact b1 i1 _) as [b2| | |] eqn:U2; cbn [rbind]; try discriminate.
  pose proof (b_le_upd b1 i1 _ b2 (fun f => f_le_uid mn _ f) U2) as L2.
  apply upd_fact_inv in U2 as (f0 & Hf0 & ->).
  destruct (upd_fact _ i1 _) as [b3| | |] eqn:U3; cbn [rbind]; try discriminate.
  pose proof (b_le_upd _ i1 _ b3 (fun f => f_le_merge mn _ f) U3) as L3.
  apply upd_fact_inv in U3 as (f1 & Hf1 & ->).
  cbn [b_facts set_facts] in Hf1. rewrite (nth_set_nth_eq _ _ _ f0) in Hf1 by exact Hf0.
  intros H. assert (i = i1) as -> by congruence. cbn [b1 set_inst set_facts b_facts] in *.
  match type of H with Ok (?x, _) = _ => assert (b' = x) as -> by congruence end. clear H.
  assert (mfind (ir_map (b_inst b)) xpand = Some (ir_uid (b_inst b) xpand)) as Hx.
  { unfold ir_uid in *. destruct (mfind (ir_map (b_inst b)) xpand); [reflexivity|congruence]. }
  constructor.
  - exists f0, (ir_uid (b_inst b) xpand).
    split; [auto|]. split; [exact Hf0|]. split; [|split; [exact Hx|exact F]].
    cbn. rewrite (nth_set_nth_eq _ _ _ f1); [|rewrite (nth_set_nth_eq _ _ _ f0) by exact Hf0; exact Hf1].
    congruence.
  - intros j Hj. cbn. rewrite nth_set_nth_ne by auto. rewrite nth_set_nth_ne by auto. reflexivity.
  - reflexivity.
  - reflexivity.
  - eauto using b_le_trans.
Qed.

Record build_overlay_spec (b : builder) (mn : string) (o : jolay) (r : irec) (x : option xcls) (b' : builder) : Prop := mkBO {
  bo_ex : exists base mask v bm m uid i f,
      overlay_parse o = Ok (base, mask, v) /\ mfind (b_metas b) base = Some bm /\
      meta_overrides (r_meta r) (r_tags r) bm = Ok m /\ find_ifact b base = Some i /\
      nth_error (b_facts b) i = Some f /\ mfind (ir_map (b_inst b')) mn = Some uid /\
      let ov := mkOv mn base mask v (count1bits mask) x m uid
                  (match find_anno b mn with Some a => Some a | None => find_anno b base end) in
      b_facts b' = set_nth (b_facts b) i (fact_add_overlay ov f);
  bo_reg : b_reg b' = b_reg b;
  bo_metas : b_metas b' = b_metas b;
  bo_le : b_le b b' }.
Lemma build_overlay_inv b mn o r x b' : build_overlay b mn o r x = Ok b' -> build_overlay_spec b mn o r x b'.
Proof.
  unfold build_overlay. destruct (overlay_parse o) as [[[base mask] v]| | |] eqn:EP; cbn [rbind]; try discriminate.
  destruct (mfind (b_metas b) base) as [bm|] eqn:EB; [|discriminate].
  destruct (meta_overrides _ _ _) as [m| | |] eqn:EM; cbn [rbind]; try discriminate.
  destruct (register_inst b mn) as [[b1 uid]| | |] eqn:ER; cbn [rbind]; try discriminate.
  apply register_inst_inv in ER as (L1 & I1 & F1 & R1 & A1 & M1 & S1).
  destruct (_ && _); [discriminate|].
  destruct (find_ifact b1 base) as [i|] eqn:EF; [|discriminate].
  intros H. pose proof (b_le_upd _ _ _ _ (fun f => f_le_overlay _ f) H) as L2.
  apply upd_fact_inv in H as (f & Hf & ->). rewrite F1 in Hf.
  constructor.
  - exists base, mask, v, bm, m, uid, i, f. unfold find_ifact in *. rewrite R1 in EF.
    do 6 (split; [assumption|]). cbn. unfold find_anno. rewrite F1, A1. reflexivity.
  - exact R1.
  - exact M1.
  - eauto using b_le_trans.
Qed.

(** ** The invariant of configuration *)
Definition overlay_of (b : builder) (r : irec) (o : overlay) : Prop :=
  r_mn r = Some (ov_mn o) /\
  (exists jo, r_overlay r = Some jo /\ overlay_parse jo = Ok (ov_base o, ov_mask o, ov_value o)) /\
  ov_nbits o = count1bits (ov_mask o) /\
  mfind (ir_map (b_inst b)) (ov_mn o) = Some (ov_uid o) /\
  match r_xform r with
  | None => ov_x o = None
  | Some n => exists c, get_extractor n = Ok c /\ ov_x o = Some c
  end /\
  exists bm, mfind (b_metas b) (ov_base o) = Some bm /\ meta_overrides (r_meta r) (r_tags r) bm = Ok (ov_meta o).
Definition ov_ge (a b : overlay) : Prop := ov_nbits b <= ov_nbits a.

(** A record that a factory's meta-data and stencil come from. *)
Definition origin (P : list irec) (f : factory) : Prop :=
  exists r mn, In r P /\ is_inst r mn /\ r_expand r = ""%string /\ fname_of r mn = fc_name f /\
    own_meta r = Ok (fc_meta f) /\ r_stencil r = fc_stencil f.
Definition renamed (P : list irec) (k : string) : Prop :=
  exists r F, In r P /\ r_mn r = Some k /\ r_factory r = Some F /\ F <> k.
Definition reg_of (P : list irec) (b : builder) (r : irec) (mn : string) (i : nat) : Prop :=
  exists f m, nth_error (b_facts b) i = Some f /\ own_meta r = Ok m /\ mfind (b_metas b) mn = Some m /\
    fc_annos f <> [] /\ (exists u, mfind (fc_uids f) mn = Some u) /\
    (r_expand r = ""%string ->
       find_ifact b mn = Some i /\
       (exists u, mfind (fc_uids f) mn = Some u /\ mfind (ir_map (b_inst b)) mn = Some u /\
                  (~ custom mn -> mfind (fc_annos f) mn = Some (panno_of b (fname_of r mn) mn))) /\
       (sole P mn -> fc_name f = mn /\ fc_meta f = m /\ fc_stencil f = r_stencil r) /\
       (alone P (fname_of r mn) -> fc_name f = fname_of r mn)) /\
    (r_expand r <> ""%string -> ~ custom mn ->
       (exists u, mfind (fc_uids f) mn = Some u /\ mfind (ir_map (b_inst b)) (r_expand r) = Some u) /\
       mfind (fc_metas f) mn = Some (meta_merge (fc_meta f) m)) /\
    (r_expand r <> ""%string -> sole P (r_expand r) -> exists r0, In r0 P /\ is_inst r0 (r_expand r) /\
       r_expand r0 = ""%string /\ own_meta r0 = Ok (fc_meta f)) /\
    (r_expand r <> ""%string -> untouched P (r_expand r) -> built_in (r_expand r) (fc_meta f)).

(** [C]: the built-in instructions registered so far. *)
Record binvC (C : string -> Prop) (P : list irec) (b : builder) : Prop := mkBI {
  bi_custom : forall k, C k -> exists i, find_ifact b k = Some i;
  bi_reg : forall k i, find_ifact b k = Some i -> exists f, nth_error (b_facts b) i = Some f /\
      (k = fc_name f \/ exists r, In r P /\ r_factory r = Some (fc_name f) /\ r_mn r <> Some (fc_name f));
  bi_names : forall k i f, find_ifact b k = Some i -> nth_error (b_facts b) i = Some f -> k = fc_name f \/ renamed P k;
  bi_orig : forall i f, nth_error (b_facts b) i = Some f ->
      built_in (fc_name f) (fc_meta f) \/ (~ custom (fc_name f) /\ origin P f);
  bi_keys : forall k i, find_ifact b k = Some i ->
      custom k \/ exists r, In r P /\ r_overlay r = None /\ r_expand r = ""%string /\ (r_mn r = Some k \/ r_factory r = Some k);
  bi_uids : forall i f k u, nth_error (b_facts b) i = Some f -> mfind (fc_uids f) k = Some u ->
      (custom k /\ mfind (ir_map (b_inst b)) k = Some u) \/ exists m, mfind (b_metas b) k = Some m;
  bi_anns : forall i f, nth_error (b_facts b) i = Some f -> fc_annos f <> [] /\
      forall k u, mfind (fc_annos f) k = Some u -> custom k \/ exists m, mfind (b_metas b) k = Some m;
  bi_fmetas : forall i f k u, nth_error (b_facts b) i = Some f -> mfind (fc_metas f) k = Some u ->
      exists r, In r P /\ is_inst r k /\ r_expand r <> ""%string;
  bi_metas : forall k m, mfind (b_metas b) k = Some m -> exists r, In r P /\ is_inst r k;
  bi_ols : forall i f o, nth_error (b_facts b) i = Some f -> In o (fc_olays f) ->
      find_ifact b (ov_base o) = Some i /\ exists r, In r P /\ overlay_of b r o;
  bi_sorted : forall i f, nth_error (b_facts b) i = Some f -> StronglySorted ov_ge (fc_olays f);
  bi_overlays : forall r mn, In r P -> r_overlay r <> None -> r_mn r = Some mn ->
      exists i f o, nth_error (b_facts b) i = Some f /\ In o (fc_olays f) /\ overlay_of b r o;
  bi_insts : forall r mn, In r P -> is_inst r mn -> exists i, reg_of P b r mn i;
  bi_uniq : forall r r' mn, In r P -> In r' P -> is_inst r mn -> is_inst r' mn -> r = r' }.

Notation binv := (binvC custom).
Lemma sole_app P Q mn : sole (P ++ Q) mn -> sole P mn.
Proof.
  intros (C & S1 & S2). split; [exact C|]. split; intros r Hr; [apply S1|apply S2]; apply in_or_app; auto.
Qed.
Lemma alone_app P Q F : alone (P ++ Q) F -> alone P F.
Proof. intros (C & S1). split; [exact C|]. intros r Hr. apply S1, in_or_app; auto. Qed.
Lemma renamed_app P Q k : renamed P k -> renamed (P ++ Q) k.
Proof. intros (r & F & H1 & H2). exists r, F. split; [apply in_or_app|]; auto. Qed.
Lemma untouched_app P Q k : untouched (P ++ Q) k -> untouched P k.
Proof. intros (C & S1). split; [exact C|]. intros r Hr. apply S1, in_or_app; auto. Qed.
Lemma built_in_custom k m : built_in k m -> custom k.
Proof. unfold built_in, custom. tauto. Qed.
Lemma origin_app P Q f g : fc_name g = fc_name f -> fc_meta g = fc_meta f -> fc_stencil g = fc_stencil f ->
  built_in (fc_name f) (fc_meta f) \/ (~ custom (fc_name f) /\ origin P f) ->
  built_in (fc_name g) (fc_meta g) \/ (~ custom (fc_name g) /\ origin (P ++ Q) g).
Proof.
  intros E1 E2 E3 [C|(C & r & mn & H1 & H2)]; [left; congruence|right]. unfold origin. rewrite E1, E2, E3.
  split; [auto|]. exists r, mn. split; [apply in_or_app; auto|exact H2].
Qed.
Lemma overlay_of_le b b' r o : b_le b b' ->
  (forall k m, mfind (b_metas b) k = Some m -> mfind (b_metas b') k = Some m) ->
  overlay_of b r o -> overlay_of b' r o.
Proof.
  intros L M (H1 & H2 & H3 & H4 & H5 & bm & H6 & H7). unfold overlay_of.
  repeat (split; [assumption|]). split; [apply (bl_ids _ _ L); auto|]. split; [assumption|]. exists bm. auto.
Qed.
Lemma panno_le b b' x y : b_le b b' -> panno_of b' x y = panno_of b x y.
Proof. intros L. unfold panno_of, find_anno. rewrite (bl_annos _ _ L). reflexivity. Qed.
Lemma reg_of_le P Q b b' r mn i : b_le b b' ->
  (forall k m, mfind (b_metas b) k = Some m -> mfind (b_metas b') k = Some m) ->
  (find_ifact b mn = Some i -> find_ifact b' mn = Some i) ->
  reg_of P b r mn i -> reg_of (P ++ Q) b' r mn i.
Proof.
  intros L M R (f & m & H1 & H2 & H3 & H4 & (u0 & H5) & H6 & H7 & H8 & H9).
  destruct (bl_facts _ _ L _ _ H1) as (f' & H1' & [N1 N2 N3 N4 N5 N6 N7]).
  exists f', m. split; [exact H1'|]. split; [exact H2|]. split; [auto|].
  split. { intros E. apply H4. eapply keeps_nil; [|exact E]. exact N5. }
  split; [eauto|]. split.
  - intros X. destruct (H6 X) as (A1 & A2 & A3 & A4). split; [auto|]. split; [|split].
    + destruct A2 as (u & U1 & U2 & U3). exists u. split; [auto|]. split; [apply (bl_ids _ _ L); auto|]. intros C.
      rewrite (panno_le _ _ _ _ L). auto.
    + intros S. destruct (A3 (sole_app _ _ _ S)). rewrite N1, N2, N3. auto.
    + intros S. rewrite N1. apply A4. eapply alone_app; eauto.
  - split; [|split].
    + intros X C. destruct (H7 X C) as ((u & U1 & U2) & U3). split.
      * exists u. split; [auto|apply (bl_ids _ _ L); auto].
      * rewrite N3. auto.
    + intros X S. destruct (H8 X (sole_app _ _ _ S)) as (r0 & Q1 & Q2 & Q3 & Q4).
      exists r0. rewrite N3. split; [apply in_or_app; auto|auto].
    + intros X S. rewrite N3. apply (H9 X (untouched_app _ _ _ S)).
Qed.

Lemma ov_insert_sorted o l : StronglySorted ov_ge l -> StronglySorted ov_ge (ov_insert o l).
Proof.
  induction 1 as [|a l S IH F]; cbn; [repeat constructor|].
  destruct (ov_nbits a <? ov_nbits o) eqn:E.
  - apply N.ltb_lt in E. constructor; [now constructor|]. constructor; [unfold ov_ge; lia|].
    eapply Forall_impl; [|exact F]. unfold ov_ge. intros x Hx. cbn in Hx. lia.
  - apply N.ltb_ge in E. constructor; [exact IH|]. rewrite Forall_forall in F |- *. intros x Hx.
    apply ov_insert_in in Hx as [->|Hx]; [exact E|]. now apply F.
Qed.

(** An overlay record. *)
Lemma binv_overlay P b r mn jo x b' : binv P b -> r_mn r = Some mn -> r_overlay r = Some jo ->
  match r_xform r with None => x = None | Some n => exists c, get_extractor n = Ok c /\ x = Some c end ->
  build_overlay b mn jo r x = Ok b' -> binv (P ++ [r]) b' /\ b_le b b' /\ b_metas b' = b_metas b /\ b_reg b' = b_reg b.
Proof.
  intros I Emn Eov Ex H. apply build_overlay_inv in H as [(base & mask & v & bm & m & uid & i & f & H1 & H2 & H3 & H4 & H5 & H6 & H7) R M L].
  cbn zeta in H7. set (ov := mkOv _ _ _ _ _ _ _ _ _) in H7.
  split; [|auto].
  assert (MM : forall k m, mfind (b_metas b) k = Some m -> mfind (b_metas b') k = Some m) by (intros; rewrite M; auto).
  assert (RR : forall k, find_ifact b' k = find_ifact b k) by (intros; unfold find_ifact; now rewrite R).
  assert (OV : overlay_of b' r ov).
  { unfold overlay_of, ov; cbn. split; [auto|]. split; [eauto|]. split; [auto|]. split; [auto|].
    split; [destruct (r_xform r); auto|]. exists bm. auto. }
  assert (FF : forall j g, nth_error (b_facts b') j = Some g ->
             (nth_error (b_facts b) j = Some g) \/ (j = i /\ g = fact_add_overlay ov f)).
  { intros j g. rewrite H7. rewrite nth_set_nth. destruct (Nat.eqb i j) eqn:E; [|auto].
    rewrite H5. intros X. right. apply Nat.eqb_eq in E. split; [auto|congruence]. }
  assert (FG : forall j g, nth_error (b_facts b) j = Some g ->
             exists g', nth_error (b_facts b') j = Some g' /\ f_le g g') by apply (bl_facts _ _ L).
  destruct I. constructor.
  - intros k Ck. destruct (bi_custom0 k Ck) as (j & Hj). exists j. now rewrite RR.
  - intros k j Hk. rewrite RR in Hk. destruct (bi_reg0 _ _ Hk) as (g & Hg & D).
    destruct (FG _ _ Hg) as (g' & Hg' & [N1 _ _ _ _ _ _]). exists g'. split; [auto|]. rewrite N1.
    destruct D as [D|(r0 & A & B)]; [auto|right]. exists r0. split; [apply in_or_app|]; auto.
  - intros k j g' Hk Hg'. rewrite RR in Hk. destruct (bi_reg0 _ _ Hk) as (g & Hg & _).
    destruct (FG _ _ Hg) as (g'' & Hg'' & [N1 _ _ _ _ _ _]). assert (g'' = g') as -> by congruence. rewrite N1.
    destruct (bi_names0 _ _ _ Hk Hg) as [?|?]; [auto|right; now apply renamed_app].
  - intros j g Hg. destruct (FF _ _ Hg) as [Hg'|[-> ->]]; [apply (origin_app P [r] g g); eauto|apply (origin_app P [r] f); eauto].
  - intros k j Hk. rewrite RR in Hk. destruct (bi_keys0 _ _ Hk) as [C|(r0 & A & B)]; [auto|right].
    exists r0. split; [apply in_or_app|]; auto.
  - intros j g k u Hg Hu. rewrite M.
    assert ((custom k /\ mfind (ir_map (b_inst b)) k = Some u) \/ exists m, mfind (b_metas b) k = Some m) as [(C & Q)|Q]; [|left; split; [exact C|exact (bl_ids _ _ L _ _ Q)]|auto].
    destruct (FF _ _ Hg) as [Hg'|[-> ->]]; [eapply bi_uids0; eauto|].
    cbn in Hu. eapply bi_uids0; eauto.
  - intros j g Hg. rewrite M. destruct (FF _ _ Hg) as [Hg'|[-> ->]]; [eapply bi_anns0; eauto|].
    apply (bi_anns0 i f H5).
  - intros j g k u Hg Hu.
    assert (exists r0, In r0 P /\ is_inst r0 k /\ r_expand r0 <> ""%string) as (r0 & A & B).
    { destruct (FF _ _ Hg) as [Hg'|[-> ->]]; [eapply bi_fmetas0; eauto|]. cbn in Hu. eapply bi_fmetas0; eauto. }
    exists r0. split; [apply in_or_app; auto|auto].
  - intros k m' Hm. rewrite M in Hm. destruct (bi_metas0 _ _ Hm) as (r0 & A & B). exists r0. split; [apply in_or_app; auto|auto].
  - intros j g o Hg Ho. rewrite RR.
    assert (OLD : forall j g o, nth_error (b_facts b) j = Some g -> In o (fc_olays g) ->
              find_ifact b (ov_base o) = Some j /\ exists r0, In r0 (P ++ [r]) /\ overlay_of b' r0 o).
    { intros j' g' o' Hg' Ho'. destruct (bi_ols0 _ _ _ Hg' Ho') as (A & r0 & B & C). split; [auto|].
      exists r0. split; [apply in_or_app; auto|]. eapply overlay_of_le; eauto. }
    destruct (FF _ _ Hg) as [Hg'|[-> ->]]; [eapply OLD; eauto|].
    cbn in Ho. apply ov_insert_in in Ho as [->|Ho]; [|eapply OLD; eauto].
    split; [exact H4|]. exists r. split; [apply in_or_app; right; now left|auto].
  - intros j g Hg. destruct (FF _ _ Hg) as [Hg'|[-> ->]]; [eapply bi_sorted0; eauto|].
    cbn. apply ov_insert_sorted. eapply bi_sorted0; eauto.
  - intros r0 mn0 Hr Ho Hm. apply in_app_or in Hr as [Hr|[<-|[]]].
    + destruct (bi_overlays0 _ _ Hr Ho Hm) as (j & g & o & A & B & C).
      destruct (FG _ _ A) as (g' & Hg' & [_ _ _ _ _ _ N7]).
      exists j, g', o. split; [auto|]. split; [auto|]. eapply overlay_of_le; eauto.
    + exists i, (fact_add_overlay ov f), ov. split; [rewrite H7; eapply nth_set_nth_eq; eauto|].
      split; [cbn; apply ov_insert_in; auto|auto].
  - intros r0 mn0 Hr Hi. apply in_app_or in Hr as [Hr|[<-|[]]].
    + destruct (bi_insts0 _ _ Hr Hi) as (j & Hj). exists j. eapply reg_of_le; eauto. rewrite RR. auto.
    + destruct Hi as [_ Hi]. congruence.
  - intros r0 r1 mn0 Hr Hr' Hi Hi'.
    apply in_app_or in Hr as [Hr|[<-|[]]]; [|destruct Hi as [_ Hi]; congruence].
    apply in_app_or in Hr' as [Hr'|[<-|[]]]; [|destruct Hi' as [_ Hi']; congruence]. eauto.
Qed.

(** What registering instruction [mn] does to its factory ([o]: the factory before, if any). *)
Record grown (mn : string) (xp : Prop) (o : option factory) (f2 : factory) : Prop := mkGr {
  gr_uids : forall k u, mfind (fc_uids f2) k = Some u -> k = mn \/ exists f0, o = Some f0 /\ mfind (fc_uids f0) k = Some u;
  gr_anns : forall k u, mfind (fc_annos f2) k = Some u -> k = mn \/ exists f0, o = Some f0 /\ mfind (fc_annos f0) k = Some u;
  gr_mts : forall k u, mfind (fc_metas f2) k = Some u -> (k = mn /\ xp) \/ exists f0, o = Some f0 /\ mfind (fc_metas f0) k = Some u;
  gr_ols : fc_olays f2 = match o with Some f0 => fc_olays f0 | None => [] end }.
Lemma add_uid_cases mn u f : (exists v, mfind (fc_uids f) mn = Some v /\ fact_add_uid mn u f = f) \/
  (mfind (fc_uids f) mn = None /\ fact_add_uid mn u f =
     mkFact (fc_name f) (fc_stencil f) (fc_meta f) (madd (fc_uids f) mn u) (fc_annos f) (fc_metas f) (fc_olays f)).
Proof. unfold fact_add_uid. destruct (mfind _ _) eqn:E; eauto. Qed.
Lemma add_anno_cases mn u f : (exists v, mfind (fc_annos f) mn = Some v /\ fact_add_anno mn u f = f) \/
  (mfind (fc_annos f) mn = None /\ fact_add_anno mn u f =
     mkFact (fc_name f) (fc_stencil f) (fc_meta f) (fc_uids f) (madd (fc_annos f) mn u) (fc_metas f) (fc_olays f)).
Proof. unfold fact_add_anno. destruct (mfind _ _) eqn:E; eauto. Qed.
Lemma merge_cases mn m f : (exists v, mfind (fc_metas f) mn = Some v /\ fact_merge_meta mn m f = f) \/
  (mfind (fc_metas f) mn = None /\ fact_merge_meta mn m f =
     mkFact (fc_name f) (fc_stencil f) (fc_meta f) (fc_uids f) (fc_annos f)
       (madd (fc_metas f) mn (meta_merge (fc_meta f) m)) (fc_olays f)).
Proof. unfold fact_merge_meta. destruct (mfind _ _) eqn:E; eauto. Qed.
Lemma madd_cases {T} (m : list (string * T)) mn v k u : mfind (madd m mn v) k = Some u -> k = mn \/ mfind m k = Some u.
Proof. rewrite mfind_madd. destruct (String.eqb mn k) eqn:E; [apply String.eqb_eq in E|]; auto. Qed.
Lemma madd_self {T} (m : list (string * T)) mn v : mfind (madd m mn v) mn = Some v.
Proof. rewrite mfind_madd, String.eqb_refl. reflexivity. Qed.

Ltac gr := try (let H := fresh "Hgr" in intros ? ? H; try (apply madd_cases in H as [->|H]; [now auto|]); eauto; cbn in H; discriminate); try reflexivity.
Lemma grown_normal mn u a f0 o : (o = Some f0 \/ (o = None /\ fc_uids f0 = [] /\ fc_annos f0 = [] /\ fc_metas f0 = [] /\ fc_olays f0 = [])) ->
  grown mn False o (fact_add_uid mn u (fact_add_anno mn a f0)).
Proof.
  intros D.
  assert (A : grown mn False o (fact_add_anno mn a f0)).
  { destruct (add_anno_cases mn a f0) as [(v & _ & ->)|[_ ->]]; destruct D as [->|(-> & E1 & E2 & E3 & E4)];
      constructor; cbn [fc_uids fc_annos fc_metas fc_olays]; rewrite ?E1, ?E2, ?E3, ?E4; gr; auto. }
  destruct (add_uid_cases mn u (fact_add_anno mn a f0)) as [(v & _ & ->)|[_ ->]]; [exact A|].
  destruct A as [A1 A2 A3 A4]. constructor; cbn [fc_uids fc_annos fc_metas fc_olays]; auto.
  intros k w H. apply madd_cases in H as [->|H]; eauto.
Qed.
Lemma grown_expand mn u m f0 (xp : Prop) : xp -> grown mn xp (Some f0) (fact_merge_meta mn m (fact_add_uid mn u f0)).
Proof.
  intros X.
  assert (A : grown mn xp (Some f0) (fact_add_uid mn u f0)).
  { destruct (add_uid_cases mn u f0) as [(v & _ & ->)|[_ ->]];
      constructor; cbn [fc_uids fc_annos fc_metas fc_olays]; gr; auto. }
  destruct (merge_cases mn m (fact_add_uid mn u f0)) as [(v & _ & ->)|[_ ->]]; [exact A|].
  destruct A as [A1 A2 A3 A4]. constructor; cbn [fc_uids fc_annos fc_metas fc_olays]; auto.
  intros k w H. apply madd_cases in H as [->|H]; eauto.
Qed.

(** Everything about a registration that the invariant needs. *)
Lemma binv_grow P b r mn m b' i f2 : binv P b -> is_inst r mn -> own_meta r = Ok m ->
  mfind (b_metas b) mn = None ->
  (forall k, mfind (b_metas b') k = if String.eqb mn k then Some m else mfind (b_metas b) k) ->
  b_le b b' ->
  nth_error (b_facts b') i = Some f2 ->
  (forall j, j <> i -> nth_error (b_facts b') j = nth_error (b_facts b) j) ->
  grown mn (r_expand r <> ""%string) (nth_error (b_facts b) i) f2 ->
  fc_annos f2 <> [] ->
  (forall k j, k <> mn -> find_ifact b k = Some j -> find_ifact b' k = Some j) ->
  (forall k j, find_ifact b' k = Some j -> find_ifact b k = Some j \/
     (j = i /\ r_expand r = ""%string /\ (k = mn \/ r_factory r = Some k) /\
      (k = fc_name f2 \/ exists r0, In r0 (P ++ [r]) /\ r_factory r0 = Some (fc_name f2) /\ r_mn r0 <> Some (fc_name f2)) /\
      (k = fc_name f2 \/ renamed (P ++ [r]) k))) ->
  built_in (fc_name f2) (fc_meta f2) \/ (~ custom (fc_name f2) /\ origin (P ++ [r]) f2) ->
  (exists j, find_ifact b' mn = Some j) \/ ~ custom mn ->
  reg_of (P ++ [r]) b' r mn i ->
  binv (P ++ [r]) b'.
Proof.
  intros I Hi Hm Hn HM L H2 HO G HA RK RN OR CU RO.
  assert (MM : forall k m, mfind (b_metas b) k = Some m -> mfind (b_metas b') k = Some m).
  { intros k m' H. rewrite HM. destruct (String.eqb mn k) eqn:E; [|auto]. apply String.eqb_eq in E. congruence. }
  assert (MK : forall k, custom k \/ (exists m, mfind (b_metas b) k = Some m) -> custom k \/ exists m, mfind (b_metas b') k = Some m).
  { intros k [C|(m' & C)]; eauto. }
  assert (MN : exists m, mfind (b_metas b') mn = Some m) by (exists m; rewrite HM, String.eqb_refl; auto).
  assert (FF : forall j g, nth_error (b_facts b') j = Some g ->
             (nth_error (b_facts b) j = Some g) \/ (j = i /\ g = f2)).
  { intros j g Hj. destruct (Nat.eq_dec j i) as [->|N]; [right; split; congruence|left]. now rewrite <- HO. }
  assert (FG : forall j g, nth_error (b_facts b) j = Some g ->
             exists g', nth_error (b_facts b') j = Some g' /\ f_le g g') by apply (bl_facts _ _ L).
  assert (NM : forall k, (exists m, mfind (b_metas b) k = Some m) -> k <> mn) by (intros k (m' & E) ->; congruence).
  destruct I, G. constructor.
  - intros k Ck. destruct (bi_custom0 k Ck) as (j & Hj). destruct (string_dec k mn) as [->|NE]; [|eauto]. tauto.
  - intros k j Hk. destruct (RN _ _ Hk) as [Hk'|(-> & _ & _ & D & _)]; [|exists f2; auto].
    destruct (bi_reg0 _ _ Hk') as (g & Hg & D).
    destruct (FG _ _ Hg) as (g' & Hg' & [N1 _ _ _ _ _ _]). exists g'. split; [auto|]. rewrite N1.
    destruct D as [D|(r0 & A & B)]; [auto|right]. exists r0. split; [apply in_or_app|]; auto.
  - intros k j g' Hk Hg'. destruct (RN _ _ Hk) as [Hk'|(-> & _ & _ & _ & D)]; [|assert (g' = f2) as -> by congruence; exact D].
    destruct (bi_reg0 _ _ Hk') as (g & Hg & _).
    destruct (FG _ _ Hg) as (g'' & Hg'' & [N1 _ _ _ _ _ _]). assert (g'' = g') as -> by congruence. rewrite N1.
    destruct (bi_names0 _ _ _ Hk' Hg) as [?|?]; [auto|right; now apply renamed_app].
  - intros j g Hg. destruct (FF _ _ Hg) as [Hg'|[-> ->]]; [|exact OR]. apply (origin_app P [r] g g); eauto.
  - intros k j Hk. destruct (RN _ _ Hk) as [Hk'|(-> & X & D & _)].
    + destruct (bi_keys0 _ _ Hk') as [C|(r0 & A & B)]; [auto|right]. exists r0. split; [apply in_or_app|]; auto.
    + right. exists r. split; [apply in_or_app; right; now left|]. destruct Hi as [Hi Ho]. split; [auto|]. split; [auto|].
      destruct D as [->|D]; auto.
  - intros j g k u Hg Hu. destruct (FF _ _ Hg) as [Hg'|[-> ->]].
    { destruct (bi_uids0 _ _ _ _ Hg' Hu) as [(C & Q)|(m' & Q)]; [left; split; [exact C|exact (bl_ids _ _ L _ _ Q)]|eauto]. }
    destruct (gr_uids0 _ _ Hu) as [->|(f0 & E & Hu')]; eauto.
    destruct (bi_uids0 _ _ _ _ E Hu') as [(C & Q)|(m' & Q)]; [left; split; [exact C|exact (bl_ids _ _ L _ _ Q)]|eauto].
  - intros j g Hg. destruct (FF _ _ Hg) as [Hg'|[-> ->]].
    + destruct (bi_anns0 _ _ Hg') as [A B]. split; [auto|]. eauto.
    + split; [auto|]. intros k u Hu. destruct (gr_anns0 _ _ Hu) as [->|(f0 & E & Hu')]; [eauto|].
      destruct (bi_anns0 _ _ E). eauto.
  - intros j g k u Hg Hu.
    assert ((k = mn /\ r_expand r <> ""%string) \/ exists r0, In r0 P /\ is_inst r0 k /\ r_expand r0 <> ""%string) as D.
    { destruct (FF _ _ Hg) as [Hg'|[-> ->]]; [right; eapply bi_fmetas0; eauto|].
      destruct (gr_mts0 _ _ Hu) as [D|(f0 & E & Hu')]; [auto|right; eapply bi_fmetas0; eauto]. }
    destruct D as [[-> D]|(r0 & A & B)].
    + exists r. split; [apply in_or_app; right; now left|auto].
    + exists r0. split; [apply in_or_app; auto|auto].
  - intros k m' Hk. rewrite HM in Hk. destruct (String.eqb mn k) eqn:E.
    + apply String.eqb_eq in E. subst k. exists r. split; [apply in_or_app; right; now left|auto].
    + destruct (bi_metas0 _ _ Hk) as (r0 & A & B). exists r0. split; [apply in_or_app; auto|auto].
  - intros j g o Hg Ho.
    assert (exists g', nth_error (b_facts b) j = Some g' /\ In o (fc_olays g')) as (g' & Hg' & Ho').
    { destruct (FF _ _ Hg) as [Hg'|[-> ->]]; [eauto|]. rewrite gr_ols0 in Ho.
      destruct (nth_error (b_facts b) i) as [f0|]; [eauto|destruct Ho]. }
    destruct (bi_ols0 _ _ _ Hg' Ho') as (A & r0 & B & C). split.
    + apply RK; [|auto]. destruct C as (_ & _ & _ & _ & _ & bm & C & _). eauto.
    + exists r0. split; [apply in_or_app; auto|]. eapply overlay_of_le; eauto.
  - intros j g Hg. destruct (FF _ _ Hg) as [Hg'|[-> ->]]; [eauto|]. rewrite gr_ols0.
    destruct (nth_error (b_facts b) i) as [f0|] eqn:E; [eauto|constructor].
  - intros r0 mn0 Hr Ho Hm'. apply in_app_or in Hr as [Hr|[<-|[]]].
    + destruct (bi_overlays0 _ _ Hr Ho Hm') as (j & g & o & A & B & C).
      destruct (FG _ _ A) as (g' & Hg' & [_ _ _ _ _ _ N7]).
      exists j, g', o. split; [auto|]. split; [auto|]. eapply overlay_of_le; eauto.
    + destruct Hi as [_ Hi]. congruence.
  - intros r0 mn0 Hr Hi'. apply in_app_or in Hr as [Hr|[<-|[]]].
    + destruct (bi_insts0 _ _ Hr Hi') as (j & Hj). exists j. eapply reg_of_le; eauto.
      destruct Hj as (f & m' & _ & _ & Hk & _). intros. apply RK; eauto.
    + exists i. assert (mn0 = mn) as -> by (destruct Hi, Hi'; congruence). exact RO.
  - assert (NP : forall r0, In r0 P -> is_inst r0 mn -> False).
    { intros r0 Hr Hi0. destruct (bi_insts0 _ _ Hr Hi0) as (j & f & m' & _ & _ & Hk & _). congruence. }
    intros r0 r1 mn0 Hr Hr' Hi0 Hi1.
    apply in_app_or in Hr as [Hr|[<-|[]]]; apply in_app_or in Hr' as [Hr'|[<-|[]]]; eauto.
    + exfalso. assert (mn0 = mn) as -> by (destruct Hi, Hi1; congruence). eauto.
    + exfalso. assert (mn0 = mn) as -> by (destruct Hi, Hi0; congruence). eauto.
Qed.

(** [b'] is [b] but for the content of the meta-data registry, which answers alike. *)
Definition metas_upd (b : builder) (mn : string) (m : meta) (b' : builder) : Prop :=
  b_facts b' = b_facts b /\ b_reg b' = b_reg b /\ b_inst b' = b_inst b /\ b_annos b' = b_annos b /\
  forall k, mfind (b_metas b') k = if String.eqb mn k then Some m else mfind (b_metas b) k.
Lemma metas_upd_le b mn m b' : metas_upd b mn m b' -> b_le b b'.
Proof. intros (F & R & I & A & _). apply b_le_same; congruence. Qed.

(** Growth, with the names instructions are found under. *)
Definition b_grow (b b' : builder) : Prop :=
  b_le b b' /\ (forall k m, mfind (b_metas b) k = Some m -> mfind (b_metas b') k = Some m) /\
  (forall k m j, mfind (b_metas b) k = Some m -> find_ifact b k = Some j -> find_ifact b' k = Some j).
Lemma b_grow_refl b : b_grow b b.
Proof. split; [apply b_le_refl|auto]. Qed.
Lemma b_grow_trans a b c : b_grow a b -> b_grow b c -> b_grow a c.
Proof. intros (L1 & M1 & R1) (L2 & M2 & R2). split; [eauto using b_le_trans|]. split; eauto. Qed.
Lemma b_grow_intro b b' mn m : b_le b b' -> mfind (b_metas b) mn = None ->
  (forall k, mfind (b_metas b') k = if String.eqb mn k then Some m else mfind (b_metas b) k) ->
  (forall k j, k <> mn -> find_ifact b k = Some j -> find_ifact b' k = Some j) -> b_grow b b'.
Proof.
  intros L N M R. split; [auto|].
  assert (X : forall k m', mfind (b_metas b) k = Some m' -> k <> mn) by (intros k m' E ->; congruence).
  split; [|eauto]. intros k m' E. rewrite M. destruct (String.eqb mn k) eqn:Q; [|auto].
  apply String.eqb_eq in Q. exfalso. eapply X; eauto.
Qed.

Lemma binv_inst P b b1 r mn m b2 i : binv P b -> is_inst r mn -> own_meta r = Ok m ->
  mfind (b_metas b) mn = None -> metas_upd b mn m b1 ->
  bld b1 mn (fname_of r mn) (r_expand r) (r_stencil r) m = Ok (b2, i) ->
  binv (P ++ [r]) b2 /\ reg_of (P ++ [r]) b2 r mn i /\ b_grow b b2.
Proof.
  intros I Hi Hm Hn MU H. pose proof (metas_upd_le _ _ _ _ MU) as L1. destruct MU as (F1 & R1 & N1 & A1 & M1).
  assert (RI : forall k, find_ifact b1 k = find_ifact b k) by (intros; unfold find_ifact; now rewrite R1).
  destruct (String.eqb (r_expand r) "") eqn:EX.
  - apply String.eqb_eq in EX. rewrite EX in H. apply bld_normal_inv in H as [(f0 & u & B1 & B2 & B3) BO BR BM BL].
    rewrite RI, F1 in B1. rewrite F1 in BO.
    assert (LL : b_le b b2) by eauto using b_le_trans.
    set (f2 := fact_add_uid mn u (fact_add_anno mn (panno_of b1 (fname_of r mn) mn) f0)) in *.
    assert (FN : fc_name f2 = fc_name f0).
    { unfold f2. destruct (f_le_uid mn u (fact_add_anno mn (panno_of b1 (fname_of r mn) mn) f0)), (f_le_anno mn (panno_of b1 (fname_of r mn) mn) f0). congruence. }
    assert (FM : fc_meta f2 = fc_meta f0).
    { unfold f2. destruct (f_le_uid mn u (fact_add_anno mn (panno_of b1 (fname_of r mn) mn) f0)), (f_le_anno mn (panno_of b1 (fname_of r mn) mn) f0). congruence. }
    assert (FS : fc_stencil f2 = fc_stencil f0).
    { unfold f2. destruct (f_le_uid mn u (fact_add_anno mn (panno_of b1 (fname_of r mn) mn) f0)), (f_le_anno mn (panno_of b1 (fname_of r mn) mn) f0). congruence. }
    assert (NU : forall v, mfind (fc_uids f0) mn = Some v -> v = u).
    { intros v Hv. destruct B1 as [[B0 B1]|(_ & -> & _)]; [|discriminate].
      destruct (bi_uids _ _ _ I _ _ _ _ B1 Hv) as [(_ & Q)|(m' & ?)]; [|congruence]. apply (bl_ids _ _ LL) in Q. congruence. }
    assert (NC : ~ custom mn -> forall v, mfind (fc_annos f0) mn = Some v -> False).
    { intros C. destruct B1 as [[B0 B1]|(_ & -> & _)]; [|cbn; discriminate]. intros v Hv.
      - destruct (bi_anns _ _ _ I _ _ B1) as [_ Q]. destruct (Q _ _ Hv) as [?|(m' & ?)]; [auto|congruence]. }
    assert (UA : mfind (fc_uids f2) mn = Some u /\ (exists v, mfind (fc_annos f2) mn = Some v) /\
                 (~ custom mn -> mfind (fc_annos f2) mn = Some (panno_of b1 (fname_of r mn) mn))).
    { unfold f2.
      destruct (add_anno_cases mn (panno_of b1 (fname_of r mn) mn) f0) as [(w & W1 & ->)|[W1 ->]];
      [destruct (add_uid_cases mn u f0) as [(v & V1 & ->)|[V1 ->]]
      |match goal with |- context [fact_add_uid mn u ?g] => destruct (add_uid_cases mn u g) as [(v & V1 & ->)|[V1 ->]] end];
      cbn [fc_uids fc_annos] in *; rewrite ?madd_self;
      (split; [first [reflexivity|rewrite V1; f_equal; auto]|]; split; [eauto|]; intros C; pose proof (NC C) as Y; try (exfalso; eauto; fail); auto). }
    destruct UA as (U1 & U2 & U3).
    assert (MM : forall k, mfind (b_metas b2) k = if String.eqb mn k then Some m else mfind (b_metas b) k)
      by (intros; rewrite BM; apply M1).
    assert (RG : reg_of (P ++ [r]) b2 r mn i).
    { exists f2, m. split; [exact B2|]. split; [exact Hm|]. split; [rewrite MM, String.eqb_refl; auto|].
      split; [intros E; rewrite E in U2; destruct U2 as [v U2]; discriminate U2|]. split; [eauto|]. split; [|split; [congruence|split; congruence]].
      intros _. split; [rewrite BR, String.eqb_refl; reflexivity|]. split; [|split].
      - exists u. split; [auto|]. split; [auto|]. intros C. rewrite (panno_le b1 b2) by auto. auto.
      - intros S. destruct S as (C & S1 & S2). destruct Hi as [Hi Ho].
        assert (fname_of r mn = mn) as Ef.
        { unfold fname_of. destruct (S2 r) as [-> | ->]; auto. apply in_or_app. right. now left. }
        rewrite Ef in *. destruct B1 as [[B0 B1]|(_ & B1 & _)]; [|rewrite FN, FM, FS, B1; auto].
        exfalso. destruct (bi_keys _ _ _ I _ _ B0) as [?|(r0 & Q1 & Q2 & _ & Q3)]; [auto|].
        assert (r_mn r0 = Some mn) as Q4 by (destruct Q3 as [Q3|Q3]; [auto|apply S1; [apply in_or_app|]; auto]).
        destruct (bi_insts _ _ _ I r0 mn Q1) as (j & g & m' & _ & _ & Hk & _); [split; auto|congruence].
      - intros (C & S1). rewrite FN. destruct B1 as [[B0 B1]|(_ & -> & _)]; [|reflexivity].
        destruct (bi_names _ _ _ I _ _ _ B0 B1) as [Q|(r0 & F & Q1 & Q2 & Q3 & Q4)]; [auto|].
        exfalso. destruct (S1 r0) as [?|?]; [apply in_or_app; auto|auto|congruence|congruence]. }
    assert (RK : forall k j, k <> mn -> find_ifact b k = Some j -> find_ifact b2 k = Some j).
    { intros k j Hk Hj. rewrite BR. destruct (String.eqb mn k) eqn:E1; [apply String.eqb_eq in E1; congruence|]. cbn [orb].
      destruct (String.eqb (fname_of r mn) k) eqn:E2; [|rewrite RI; auto]. apply String.eqb_eq in E2. subst k.
      destruct B1 as [[B0 _]|(B0 & _)]; congruence. }
    split; [|split; [auto|eapply b_grow_intro; eauto]].
    eapply (binv_grow P b r mn m b2 i f2); eauto.
    + assert (G : grown mn False (nth_error (b_facts b) i) f2).
      { apply grown_normal. destruct B1 as [[B0 B1]|(_ & -> & ->)]; [left; auto|right]. cbn. split; [|auto].
        apply nth_error_None. lia. }
      destruct G. constructor; auto. intros k w Hk. destruct (gr_mts0 _ _ Hk) as [[_ []]|?]; auto.
    + intros E. rewrite E in U2. destruct U2 as [v U2]. discriminate.
    + intros k j Hj. rewrite BR in Hj. destruct (String.eqb mn k || String.eqb (fname_of r mn) k) eqn:E; [|rewrite RI in Hj; auto].
      right. assert (j = i) as -> by congruence. split; [auto|]. split; [auto|].
      assert (k = mn \/ (k = fname_of r mn /\ r_factory r = Some k)) as D.
      { apply orb_true_iff in E as [E|E]; apply String.eqb_eq in E; [auto|]. subst k. unfold fname_of.
        destruct (r_factory r); auto. }
      split; [destruct D as [?|[_ ?]]; auto|]. rewrite FN. split.
      2:{ assert (fname_of r mn = fc_name f0 \/ renamed P (fname_of r mn)) as W.
          { destruct B1 as [[B0 B1]|(_ & -> & _)]; [|left; reflexivity]. eapply bi_names; eauto. }
          assert (fname_of r mn = mn \/ exists F, r_factory r = Some F /\ F <> mn) as Z.
          { unfold fname_of. destruct (r_factory r) as [F|]; [|auto]. destruct (string_dec F mn); eauto. }
          assert (k = fname_of r mn \/ renamed (P ++ [r]) k) as [->|?]; [|destruct W as [?|?]; [auto|right; now apply renamed_app]|auto].
          destruct D as [->|[-> _]]; [|auto]. destruct Z as [Z|(F & Z1 & Z2)]; [auto|right].
          exists r, F. destruct Hi. split; [apply in_or_app; right; now left|auto]. }
      (* the factory that [fname] names *)
      assert (fname_of r mn = fc_name f0 \/ exists r0, In r0 P /\ r_factory r0 = Some (fc_name f0) /\ r_mn r0 <> Some (fc_name f0)) as W.
      { destruct B1 as [[B0 B1]|(_ & -> & _)]; [|left; reflexivity].
        destruct (bi_reg _ _ _ I _ _ B0) as (g & Hg & W). assert (g = f0) as -> by congruence. exact W. }
      destruct W as [W|(r0 & W1 & W2)]; [|right; exists r0; split; [apply in_or_app|]; auto].
      destruct D as [->|[-> D]]; [|auto].
      destruct (String.eqb mn (fc_name f0)) eqn:E3; [apply String.eqb_eq in E3; auto|apply String.eqb_neq in E3].
      right. exists r. split; [apply in_or_app; right; now left|]. destruct Hi as [Hi _]. rewrite Hi.
      unfold fname_of in W. destruct (r_factory r); [|congruence]. split; congruence.
    + destruct B1 as [[B0 B1]|(B0 & B1 & _)].
      * apply (origin_app P [r] f0 f2); auto. eapply bi_orig; eauto.
      * right. rewrite FN, B1. cbn [fc_name fact_new]. split.
        { intros Q. destruct (bi_custom _ _ _ I _ Q) as (j & Hj). congruence. }
        exists r, mn. split; [apply in_or_app; right; now left|]. rewrite FN, FM, FS, B1. cbn. auto.
    + left. exists i. rewrite BR, String.eqb_refl. reflexivity.
  - apply String.eqb_neq in EX. apply bld_expand_inv in H as [(f0 & u & B1 & B2 & B3 & B4 & B5) BO BR BM BL]; [|exact EX].
    rewrite RI in B1. rewrite F1 in B2, BO. rewrite N1 in B4, B5.
    assert (LL : b_le b b2) by eauto using b_le_trans.
    set (f2 := fact_merge_meta mn m (fact_add_uid mn u f0)) in *.
    assert (NA : fc_annos f0 <> []) by apply (bi_anns _ _ _ I _ _ B2).
    assert (FA : fc_annos f2 = fc_annos f0 /\ fc_meta f2 = fc_meta f0 /\ fc_name f2 = fc_name f0 /\ fc_stencil f2 = fc_stencil f0).
    { unfold f2. destruct (add_uid_cases mn u f0) as [(v & _ & ->)|[_ ->]];
      match goal with |- context [fact_merge_meta mn m ?g] => destruct (merge_cases mn m g) as [(w & _ & ->)|[_ ->]] end; auto. }
    destruct FA as (FA & FM & FN & FS).
    assert (NC : ~ custom mn -> forall v, mfind (fc_uids f0) mn = Some v -> False).
    { intros C v Hv. destruct (bi_uids _ _ _ I _ _ _ _ B2 Hv) as [(? & _)|(m' & ?)]; [auto|congruence]. }
    assert (NM : forall v, mfind (fc_metas f0) mn = Some v -> False).
    { intros v Hv. destruct (bi_fmetas _ _ _ I _ _ _ _ B2 Hv) as (r0 & Q1 & Q2 & _).
      destruct (bi_insts _ _ _ I r0 mn Q1 Q2) as (j & g & m' & _ & _ & Hk & _). congruence. }
    assert (UA : (exists v, mfind (fc_uids f2) mn = Some v) /\ mfind (fc_metas f2) mn = Some (meta_merge (fc_meta f2) m) /\
                 (~ custom mn -> mfind (fc_uids f2) mn = Some u)).
    { unfold f2. destruct (add_uid_cases mn u f0) as [(v & V1 & ->)|[V1 ->]];
      match goal with |- context [fact_merge_meta mn m ?g] => destruct (merge_cases mn m g) as [(w & W1 & ->)|[W1 ->]] end;
      cbn [fc_uids fc_metas fc_meta] in *; try (exfalso; eauto; fail); rewrite ?madd_self;
      (split; [eauto|]; split; [auto|]; intros C; try (exfalso; eapply NC; eauto; fail); auto). }
    destruct UA as (U1 & U2 & U3).
    assert (MM : forall k, mfind (b_metas b2) k = if String.eqb mn k then Some m else mfind (b_metas b) k)
      by (intros; rewrite BM; apply M1).
    assert (R2 : forall k, find_ifact b2 k = find_ifact b k) by (intros; unfold find_ifact; rewrite BR, R1; auto).
    assert (RG : reg_of (P ++ [r]) b2 r mn i).
    { exists f2, m. split; [exact B3|]. split; [exact Hm|]. split; [rewrite MM, String.eqb_refl; auto|].
      split; [congruence|]. split; [exact U1|]. split; [congruence|].
      split; [intros _ C; split; [|exact U2]; exists u; split; [auto|]; apply (bl_ids _ _ LL); exact B4|].
      split.
      2:{ intros _ (C & S1). destruct (bi_names _ _ _ I _ _ _ B1 B2) as [Q|(r0 & F & Q1 & Q2 & Q3 & Q4)].
          - destruct (bi_orig _ _ _ I _ _ B2) as [Q'|[Q' _]]; [rewrite FM; congruence|]. exfalso. apply Q'. congruence.
          - destruct (S1 r0); [apply in_or_app; auto|auto|congruence]. }
      intros _ S. destruct S as (C & S1 & S2).
      destruct (bi_keys _ _ _ I _ _ B1) as [?|(r0 & Q1 & Q2 & Q3 & Q4)]; [tauto|].
      assert (r_mn r0 = Some (r_expand r)) as Q5 by (destruct Q4 as [Q4|Q4]; [auto|apply S1; [apply in_or_app|]; auto]).
      destruct (bi_insts _ _ _ I r0 (r_expand r) Q1) as (j & g & m0 & K1 & K2 & K3 & _ & _ & K4 & _); [split; auto|].
      destruct (K4 Q3) as (K5 & _ & K6 & _).
      assert (j = i) as -> by congruence. assert (g = f0) as -> by congruence.
      destruct K6 as (_ & K6 & _).
      { split; [exact C|]. split; intros r1 Hr1; [apply S1|apply S2]; apply in_or_app; auto. }
      exists r0. split; [apply in_or_app; auto|]. split; [split; auto|]. split; [auto|]. congruence. }
    split; [|split; [auto|eapply b_grow_intro; eauto; intros; now rewrite R2]].
    eapply (binv_grow P b r mn m b2 i f2); eauto.
    + rewrite B2. now apply grown_expand.
    + congruence.
    + intros k j _ Hk. rewrite R2. exact Hk.
    + intros k j Hk. rewrite R2 in Hk. auto.
    + apply (origin_app P [r] f0 f2); auto. eapply bi_orig; eauto.
    + destruct (find_ifact b2 mn) as [j|] eqn:EJ; [eauto|right]. intros Q. destruct (bi_custom _ _ _ I _ Q) as (j & Hj). rewrite R2 in EJ. congruence.
Qed.

(** ** Configuring *)
Lemma binv_same P b mn m b' : binv P b -> mfind (b_metas b) mn = Some m -> metas_upd b mn m b' ->
  binv P b' /\ b_grow b b'.
Proof.
  intros I Hm MU. pose proof (metas_upd_le _ _ _ _ MU) as L. destruct MU as (F & R & N & A & M).
  assert (MM : forall k, mfind (b_metas b') k = mfind (b_metas b) k).
  { intros k. rewrite M. destruct (String.eqb mn k) eqn:E; [|auto]. apply String.eqb_eq in E. congruence. }
  assert (RR : forall k, find_ifact b' k = find_ifact b k) by (intros; unfold find_ifact; now rewrite R).
  assert (OO : forall r o, overlay_of b r o -> overlay_of b' r o).
  { intros r o. apply overlay_of_le; [auto|]. intros. now rewrite MM. }
  split.
  - destruct I. constructor; intros *; rewrite ?F, ?RR, ?MM, ?N; try (now eauto).
    + intros H. destruct (bi_anns0 _ _ H) as [H1 H2]. split; [auto|]. intros k u Hk. rewrite MM. eauto.
    + intros H H'. destruct (bi_ols0 _ _ _ H H') as (X & r & Y & Z). eauto.
    + intros H H' H''. destruct (bi_overlays0 _ _ H H' H'') as (j & f & o & X & Y & Z).
      exists j, f, o. eauto.
    + intros H H'. destruct (bi_insts0 _ _ H H') as (i & X). exists i.
      rewrite <- (app_nil_r P). eapply reg_of_le; [exact L| | |exact X]; intros; rewrite ?MM, ?RR; auto.
  - split; [auto|]. split; intros; rewrite ?MM, ?RR; auto.
Qed.

Lemma build_leaf_inv b fm ign mn st fl fname xp x m shared n n' b' i al :
  build_leaf b fm mn st fl fname xp x m shared n = Ok (n', (b', i, al)) ->
  exists c tab d tab' d', match x with Some c => Ok c | None => get_extractor (fm_name fm) end = Ok c /\
    n = Special tab d /\ n' = Special tab' d' /\
    leaf_add (mkEnc mn fm ign st fl) (mkPay i c 0) tab d = Ok (tab', d', al) /\
    let m' := match fl with [] => m | _ => add_fixed_fields fl m end in
    let b1 := match fl with [] => b | _ => set_metas b (madd (b_metas b) mn m') end in
    match shared with None => bld b1 mn fname xp st m' = Ok (b', i) | Some i0 => b' = b1 /\ i = i0 end.
Proof.
  unfold build_leaf. destruct (match x with Some c => Ok c | None => _ end) as [c| | |] eqn:EC; cbn [rbind]; try discriminate.
  destruct n as [| tab d]; [discriminate|].
  unfold leaf_add. cbn [en_fixed en_form en_mn en_stencil].
  destruct (match fl with [] => Ok tab | _ => _ end) as [tab1| | |] eqn:ET; cbn [rbind]; try discriminate.
  set (m' := match fl with [] => m | _ => add_fixed_fields fl m end).
  set (b1 := match fl with [] => b | _ => _ end).
  destruct (match shared with None => _ | Some _ => _ end) as [[b2 i2]| | |] eqn:EB; cbn [rbind]; try discriminate.
  destruct (sp_place _ _ _ _ _) as [[[tab' d'] alias]| | |] eqn:EP; cbn [rbind]; try discriminate.
  cbn [fst snd]. intros H. exists c, tab, d, tab', d'. split; [auto|]. split; [auto|].
  assert (n' = Special tab' d') as -> by congruence. assert (i2 = i) as -> by congruence.
  assert (b2 = b') as -> by congruence. assert (alias = al) as -> by congruence.
  split; [auto|]. split; [rewrite ET; exact EP|]. cbv zeta. fold m'. fold b1.
  destruct shared; [split; congruence|exact EB].
Qed.
Lemma build_leaf_adds b fm ign mn st fl fname xp x m shared c :
  match x with Some c => Ok c | None => get_extractor (fm_name fm) end = Ok c ->
  leaf_adds (mkEnc mn fm ign st fl) (fun (a : builder * nat * bool) p => p = mkPay (snd (fst a)) c 0)
    (build_leaf b fm mn st fl fname xp x m shared).
Proof.
  intros Ec n n' [[b' i] al] H. apply (build_leaf_inv b fm ign) in H as (c' & tab & d & tab' & d' & E1 & E2 & E3 & E4 & _).
  assert (c' = c) as -> by congruence. exists tab, d, tab', d', (mkPay i c 0), al. auto.
Qed.

Definition item_ok (P : list irec) (b : builder) (x : item) : Prop :=
  exists r, In r P /\ is_inst r (en_mn (fst x)) /\ In (fst x) (rec_encs r) /\
    rec_class r = Ok (pay_cls (snd x)) /\ pay_ffm (snd x) = 0 /\
    reg_of P b r (en_mn (fst x)) (pay_fact (snd x)).
Lemma reg_of_grow P Q b b' r mn i : b_grow b b' -> reg_of P b r mn i -> reg_of (P ++ Q) b' r mn i.
Proof.
  intros (L & M & R) H. eapply reg_of_le; eauto. destruct H as (f & m & _ & _ & H & _). eauto.
Qed.
Lemma item_ok_grow P Q b b' x : b_grow b b' -> item_ok P b x -> item_ok (P ++ Q) b' x.
Proof.
  intros G (r & H1 & H2 & H3 & H4 & H5 & H6). exists r. split; [apply in_or_app; auto|].
  do 4 (split; [assumption|]). eapply reg_of_grow; eauto.
Qed.

Lemma FOP_app_split {A} (R : A -> A -> Prop) l e r : ForallOrdPairs R (l ++ e :: r) ->
  Forall (fun x => R x e) l /\ ForallOrdPairs R ((l ++ [e]) ++ r).
Proof.
  intros H. split; [|now rewrite <- app_assoc]. induction l as [|a l IH]; [constructor|].
  cbn in H. inversion H as [|? ? H1 H2]; subst. constructor; [|auto]. rewrite Forall_app in H1. destruct H1 as [_ H1].
  now inversion H1.
Qed.

Section Rec.
Context (r : irec) (mn fn : string) (fm : form) (x : option xcls) (c : xcls) (m : meta).
Context (Hi : is_inst r mn) (Hfn : r_form r = Some fn) (Hfm : get_form fn = Ok fm)
  (Hx : match x with Some c => Ok c | None => get_extractor (fm_name fm) end = Ok c)
  (Hc : rec_class r = Ok c).
Let m' := match r_fixed r with [] => m | _ => add_fixed_fields (r_fixed r) m end.
Context (Hm : own_meta r = Ok m').
Let e_of (st : N) : enc := mkEnc mn fm (r_ignore r) st (r_fixed r).

Lemma build_aliases_ok P i sts : forall b t X b' t',
  binv P b -> In r P -> incl sts (r_stencil r :: r_alias r) -> mfind (b_metas b) mn = Some m' ->
  tree_ok t X -> Forall (item_ok P b) X -> reg_of P b r mn i ->
  ForallOrdPairs clear (map fst X ++ map e_of sts) ->
  build_aliases fm mn (r_fixed r) (r_ignore r) (fname_of r mn) (r_expand r) x m i sts (b, t) = Ok (b', t') ->
  exists X', tree_ok t' (X ++ X') /\ map fst X' = map e_of sts /\ binv P b' /\ Forall (item_ok P b') (X ++ X') /\ b_grow b b'.
Proof.
  induction sts as [|st sts IH]; intros b t X b' t' I Hr HI HM T F RG S H.
  - cbn in H. exists []. rewrite app_nil_r. assert (b' = b) as -> by congruence. assert (t' = t) as -> by congruence.
    auto using b_grow_refl.
  - cbn [build_aliases fst snd] in H.
    destruct (build_tree _ _ _ _ _) as [[t1 [[b1 i1] al]]| | |] eqn:EB; cbn [rbind] in H; try discriminate.
    cbn [map] in S. destruct (FOP_app_split _ _ _ _ S) as [S1 S2].
    apply (build_tree_ok (e_of st) (fun (a : builder * nat * bool) p => p = mkPay (snd (fst a)) c 0) _ _ X) in EB;
      [|exact (registry_ok _ _ Hfm)|now apply build_leaf_adds|exact T|].
    2: { rewrite Forall_map in S1. exact S1. }
    destruct EB as (n0 & n0' & p & tab & d & tab' & d' & E1 & E2 & E3 & E4 & E5 & E6). cbn [fst snd] in E5.
    apply (build_leaf_inv b fm (r_ignore r)) in E1 as (c' & tab2 & d2 & tab2' & d2' & G1 & G2 & G3 & G4 & G5).
    assert (c' = c) as -> by congruence. cbv zeta in G5. destruct G5 as [G5 ->].
    assert (al = false) as ->.
    { subst p. assert (tab2 = tab /\ d2 = d) as [-> ->] by (split; congruence).
      assert (Some (tab', d', false) = Some (tab2', d2', al)) as Q by (fold (e_of st) in G4; rewrite G4 in E4; congruence).
      congruence. }
    assert (MU : metas_upd b mn m' b1).
    { rewrite G5. unfold m'. destruct (r_fixed r).
      - unfold metas_upd. do 4 (split; [reflexivity|]). intros k. destruct (String.eqb mn k) eqn:Q; [|auto].
        apply String.eqb_eq in Q. rewrite <- Q. exact HM.
      - repeat split. }
    destruct (binv_same _ _ _ _ _ I HM MU) as [I1 GR1]. clear G5.
    destruct (IH b1 t1 (X ++ [(e_of st, p)])%list b' t') as (X' & T' & M' & I' & F' & GR').
    + exact I1.
    + exact Hr.
    + intros y Hy. apply HI. now right.
    + destruct MU as (_ & _ & _ & _ & MU). rewrite MU, String.eqb_refl. auto.
    + exact E6.
    + rewrite Forall_app. split.
      * eapply Forall_impl; [|exact F]. intros y Hy. rewrite <- (app_nil_r P). eapply item_ok_grow; eauto.
      * constructor; [|constructor]. exists r. cbn [fst snd e_of en_mn]. split; [auto|]. split; [auto|].
        subst p. cbn [pay_cls pay_ffm pay_fact]. split; [|split; [auto|split; [auto|]]].
        -- unfold rec_encs. destruct Hi as [-> ->]. rewrite Hfn, Hfm. apply in_map_iff. exists st. split; [auto|].
           apply HI. now left.
        -- rewrite <- (app_nil_r P). eapply reg_of_grow; eauto.
    + rewrite <- (app_nil_r P). eapply reg_of_grow; eauto.
    + rewrite map_app. exact S2.
    + exact H.
    + exists ((e_of st, p) :: X'). rewrite <- app_assoc in T', F'. cbn [app map fst] in *. rewrite M'.
      split; [auto|]. split; [auto|]. split; [auto|]. split; [auto|]. eauto using b_grow_trans.
Qed.
End Rec.

Lemma parse_inst_ok P b t X r mn b' t' : binv P b -> tree_ok t X -> Forall (item_ok P b) X -> r_mn r = Some mn ->
  ForallOrdPairs clear (map fst X ++ rec_encs r) ->
  parse_inst (b, t) r mn = Ok (b', t') ->
  exists X', tree_ok t' (X ++ X') /\ map fst X' = rec_encs r /\ binv (P ++ [r]) b' /\
    Forall (item_ok (P ++ [r]) b') (X ++ X').
Proof.
  intros I T F Emn S H. unfold parse_inst in H. fold (fname_of r mn) in H.
  destruct (match r_xform r with None => _ | Some _ => _ end) as [x| | |] eqn:EX; cbn [rbind] in H; try discriminate.
  assert (HX : match r_xform r with None => x = None | Some n => exists c, get_extractor n = Ok c /\ x = Some c end).
  { destruct (r_xform r) as [n|]; [|congruence]. destruct (get_extractor n) as [c| | |]; cbn [rbind] in EX; try discriminate.
    exists c. split; congruence. }
  destruct (r_overlay r) as [o|] eqn:EO.
  - cbn [fst snd] in H. destruct (build_overlay _ _ _ _ _) as [b1| | |] eqn:EB; cbn [rbind] in H; try discriminate.
    assert (b1 = b') as -> by congruence. assert (t' = t) as -> by congruence.
    destruct (binv_overlay _ _ _ _ _ _ _ I Emn EO HX EB) as (I' & L & M & R).
    exists []. rewrite app_nil_r. split; [auto|]. split; [|split; [auto|]].
    + unfold rec_encs. rewrite Emn, EO. reflexivity.
    + eapply Forall_impl; [|exact F]. intros y Hy. eapply item_ok_grow; [|exact Hy].
      split; [auto|]. unfold find_ifact. rewrite M, R. auto.
  - destruct (r_form r) as [fn|] eqn:EF; [|discriminate].
    destruct (get_form fn) as [fm| | |] eqn:EFM; cbn [rbind] in H; try discriminate.
    unfold make_inst_meta in H. cbn [fst snd] in H.
    destruct (make_meta _ _ _) as [m| | |] eqn:EM; cbn [rbind] in H; try discriminate.
    destruct (mfind (b_metas b) mn) eqn:ED; [discriminate|]. cbn [rbind] in H.
    set (b1 := set_metas b (madd (b_metas b) mn m)) in H.
    destruct (build_tree _ _ _ _ _) as [[t1 [[b2 i] al]]| | |] eqn:EB; cbn [rbind] in H; try discriminate.
    assert (RE : rec_encs r = mkEnc mn fm (r_ignore r) (r_stencil r) (r_fixed r) ::
              map (fun st => mkEnc mn fm (r_ignore r) st (r_fixed r)) (r_alias r)).
    { unfold rec_encs. rewrite Emn, EO, EF, EFM. reflexivity. }
    rewrite RE in S. destruct (FOP_app_split _ _ _ _ S) as [S1 S2].
    set (m' := match r_fixed r with [] => m | _ => add_fixed_fields (r_fixed r) m end).
    assert (OM : own_meta r = Ok m').
    { unfold own_meta, m'. rewrite EM. cbn [rbind]. destruct (r_fixed r); reflexivity. }
    assert (exists c, match x with Some c => Ok c | None => get_extractor (fm_name fm) end = Ok c) as (c & Ec).
    { destruct (match x with Some c => Ok c | None => get_extractor (fm_name fm) end) as [c| | |] eqn:E; [eauto| | |];
      exfalso;
      apply (build_tree_ok (mkEnc mn fm (r_ignore r) (r_stencil r) (r_fixed r)) (fun (a : builder * nat * bool) p => False) _ _ X) in EB;
      try (exact (registry_ok _ _ EFM)); try exact T; try (rewrite Forall_map in S1; exact S1);
      try (destruct EB as (? & ? & ? & ? & ? & ? & ? & ? & ? & ? & ? & [] & _));
      intros n n' a Ha; unfold build_leaf in Ha; rewrite E in Ha; discriminate. }
    assert (HC : rec_class r = Ok c).
    { unfold rec_class. rewrite EF, EFM. destruct (r_xform r) as [n|]; [destruct HX as (c' & -> & ->)|rewrite HX in Ec]; auto. }
    apply (build_tree_ok (mkEnc mn fm (r_ignore r) (r_stencil r) (r_fixed r))
              (fun (a : builder * nat * bool) p => p = mkPay (snd (fst a)) c 0) _ _ X) in EB;
      [|exact (registry_ok _ _ EFM)|now apply build_leaf_adds|exact T|].
    2: { rewrite Forall_map in S1. exact S1. }
    destruct EB as (n0 & n0' & p & tab & d & tab' & d' & E1 & E2 & E3 & E4 & E5 & E6). cbn [fst snd] in E5.
    apply (build_leaf_inv b1 fm (r_ignore r)) in E1 as (c' & tab2 & d2 & tab2' & d2' & G1 & G2 & G3 & G4 & G5).
    assert (c' = c) as -> by congruence. cbv zeta in G5. fold m' in G5.
    assert (al = false) as ->.
    { subst p. assert (tab2 = tab /\ d2 = d) as [-> ->] by (split; congruence).
      assert (Some (tab', d', false) = Some (tab2', d2', al)) as Q by (rewrite G4 in E4; congruence).
      congruence. }
    assert (HI : is_inst r mn) by (split; auto).
    assert (MU : metas_upd b mn m' (match r_fixed r with [] => b1 | _ => set_metas b1 (madd (b_metas b1) mn m') end)).
    { unfold m'. destruct (r_fixed r) as [|f0 fr]; repeat split.
      intros k. cbn. destruct (String.eqb mn k); reflexivity. }
    destruct (binv_inst P b _ r mn m' b2 i I HI OM ED MU G5) as (I2 & RG & GR).
    assert (HM2 : mfind (b_metas b2) mn = Some m').
    { destruct RG as (f & m2 & _ & Q1 & Q2 & _). congruence. }
    cbn match in H.
    destruct (build_aliases_ok r mn fn fm x c m HI EF EFM Ec HC OM (P ++ [r])%list i (r_alias r) b2 t1
                (X ++ [(mkEnc mn fm (r_ignore r) (r_stencil r) (r_fixed r), p)])%list b' t') as (X' & T' & M' & I' & F' & GR').
    + exact I2.
    + apply in_or_app. right. now left.
    + intros y Hy. now right.
    + exact HM2.
    + exact E6.
    + rewrite Forall_app. split.
      * eapply Forall_impl; [|exact F]. intros y Hy. eapply item_ok_grow; eauto.
      * constructor; [|constructor]. exists r. cbn [fst snd en_mn]. split; [apply in_or_app; right; now left|].
        split; [auto|]. subst p. cbn [pay_cls pay_ffm pay_fact]. split; [rewrite RE; now left|]. auto.
    + exact RG.
    + rewrite map_app. exact S2.
    + exact H.
    + exists ((mkEnc mn fm (r_ignore r) (r_stencil r) (r_fixed r), p) :: X'). rewrite <- app_assoc in T', F'.
      cbn [app map fst] in *. rewrite M', RE. auto.
Qed.

Lemma configure_ok P incl excl recs : forall b t X b' t', binv P b -> tree_ok t X -> Forall (item_ok P b) X ->
  ForallOrdPairs clear (map fst X ++ encodings (kept incl excl recs)) ->
  configure incl excl recs (b, t) = Ok (b', t') ->
  exists X' P', tree_ok t' (X ++ X') /\ map fst X' = encodings (kept incl excl recs) /\
    binv (P ++ P') b' /\ Forall (item_ok (P ++ P') b') (X ++ X') /\
    (forall r, In r P' <-> In r (kept incl excl recs) /\ r_mn r <> None).
Proof.
  revert P. induction recs as [|r recs IH]; intros P b t X b' t' I T F S H; cbn [configure] in H.
  - exists [], []. rewrite !app_nil_r. assert (b' = b) as -> by congruence. assert (t' = t) as -> by congruence.
    cbn. intuition.
  - unfold kept in *. cbn [filter] in *. rewrite C18_filter_lemma in H.
    destruct (r_mn r) as [mn|] eqn:EM.
    + destruct (wantedb incl excl (r_tags r)) eqn:EW; [|eapply IH; eauto].
      destruct (parse_inst (b, t) r mn) as [[b1 t1]| | |] eqn:EP; cbn [rbind] in H; try discriminate.
      unfold encodings in S. cbn [flat_map] in S. rewrite app_assoc in S.
      assert (S1 : ForallOrdPairs clear (map fst X ++ rec_encs r)).
      { revert S. generalize (map fst X ++ rec_encs r)%list as l. generalize (flat_map rec_encs (filter (fun r : irec => wantedb incl excl (r_tags r)) recs)) as l'.
        intros l' l. induction l as [|a l IHl]; [constructor|]. cbn. inversion 1 as [|? ? Q1 Q2]; subst.
        rewrite Forall_app in Q1. constructor; [apply Q1|auto]. }
      destruct (parse_inst_ok P b t X r mn b1 t1 I T F EM S1 EP) as (X1 & T1 & M1 & I1 & F1).
      destruct (IH (P ++ [r])%list b1 t1 (X ++ X1)%list b' t' I1 T1 F1) as (X2 & P2 & T2 & M2 & I2 & F2 & R2).
      * assert (EE : map fst (X ++ X1) = (map fst X ++ rec_encs r)%list) by (rewrite map_app; f_equal; exact M1).
        exact (eq_ind _ (fun l => ForallOrdPairs clear (l ++ _)) S _ (eq_sym EE)).
      * exact H.
      * exists (X1 ++ X2)%list, (r :: P2). rewrite <- !app_assoc in *. cbn [app] in *.
        split; [auto|]. split; [rewrite map_app; cbn [encodings flat_map]; f_equal; [exact M1|exact M2]|]. split; [auto|]. split; [auto|].
        intros r0. cbn [In]. rewrite R2. split; [intros [->|?]; [split; [auto|congruence]|tauto]|tauto].
    + assert (E0 : rec_encs r = []) by (unfold rec_encs; now rewrite EM).
      destruct (r_pseudo r); [|discriminate].
      destruct (wantedb incl excl (r_tags r)).
      * unfold encodings in S |- *. cbn [flat_map] in S |- *. rewrite E0 in *. cbn [app] in *.
        destruct (IH P b t X b' t' I T F S H) as (X2 & P2 & T2 & M2 & I2 & F2 & R2).
        exists X2, P2. split; [auto|]. split; [auto|]. split; [auto|]. split; [auto|].
        intros r0. rewrite R2. cbn [In]. split; [tauto|]. intros [[->|?] ?]; [congruence|tauto].
      * eapply IH; eauto.
Qed.

Lemma add_custom_ok (Dn : string -> Prop) b mn types b' : built_in mn (set_inst_type types meta_rv64i) -> binvC Dn [] b ->
  (forall k u, find_ifact b k = Some u -> k <> mn) -> b_metas b = [] ->
  add_custom b mn types = Ok b' ->
  binvC (fun k => k = mn \/ Dn k) [] b' /\ b_metas b' = [] /\ (forall k, find_ifact b' k = None <-> find_ifact b k = None /\ k <> mn).
Proof.
  intros BI I NM M H. pose proof (built_in_custom _ _ BI) as C. unfold add_custom, new_fact in H. cbn beta iota zeta in H.
  set (f0 := fact_add_anno mn _ (fact_new mn 0 _)) in H. set (i := List.length (b_facts b)) in H.
  set (b2 := set_reg _ _) in H.
  destruct (register_inst b2 mn) as [[b3 uid]| | |] eqn:ER; cbn [rbind] in H; try discriminate.
  apply register_inst_inv in ER as (L3 & I3 & F3 & R3 & A3 & M3 & S3).
  apply upd_fact_inv in H as (f & Hf & ->). unfold b2 in *. cbn [b_facts b_reg b_annos b_metas b_stash set_reg set_facts] in F3, R3, A3, M3, S3. pose proof (bl_ids _ _ L3) as K3. cbn [b_inst set_reg set_facts] in K3. clear b2 L3.
  rewrite F3 in Hf. unfold i in Hf. rewrite nth_app_last in Hf. fold i in Hf.
  assert (f = f0) as -> by exact (f_equal (fun o => match o with Some g => g | None => f end) (eq_sym Hf)). clear Hf.
  assert (RR : forall k, find_ifact (set_facts b3 (set_nth (b_facts b3) i (fact_add_uid mn uid f0))) k =
                 if String.eqb mn k then Some i else find_ifact b k).
  { intros k. unfold find_ifact. cbn. rewrite R3. reflexivity. }
  assert (FF : forall j g, nth_error (b_facts (set_facts b3 (set_nth (b_facts b3) i (fact_add_uid mn uid f0)))) j = Some g ->
             nth_error (b_facts b) j = Some g \/ (j = i /\ g = fact_add_uid mn uid f0)).
  { intros j g. cbn [b_facts set_facts]. rewrite F3, nth_set_nth. destruct (Nat.eqb i j) eqn:E.
    - apply Nat.eqb_eq in E. subst j. unfold i at 1. rewrite nth_app_last. right. split; congruence.
    - apply Nat.eqb_neq in E. intros Hg. left.
      assert (j < List.length (b_facts b ++ [f0]))%nat as Q by (apply nth_error_Some; congruence).
      rewrite app_length in Q. cbn in Q. rewrite nth_error_app1 in Hg by (unfold i in E; lia). exact Hg. }
  assert (F2 : fact_add_uid mn uid f0 = mkFact mn 0 (set_inst_type types meta_rv64i) [(mn, uid)] [(mn, find_anno b mn)] [] []).
  { reflexivity. }
  rewrite F2 in *.
  split; [|split].
  - destruct I. constructor.
    + intros k Ck. rewrite RR. destruct (String.eqb mn k) eqn:E; [eauto|]. apply String.eqb_neq in E. destruct Ck as [Ck|Ck]; [congruence|eauto].
    + intros k j Hk. rewrite RR in Hk. cbn [b_facts set_facts]. rewrite F3. destruct (String.eqb mn k) eqn:E.
      * assert (j = i) as -> by congruence. eexists. split; [eapply nth_set_nth_eq; apply nth_app_last|].
        left. apply String.eqb_eq in E. subst k. reflexivity.
      * destruct (bi_reg0 _ _ Hk) as (g & Hg & D). exists g. split; [|auto].
        assert (j < i)%nat by (apply nth_error_Some; congruence).
        rewrite nth_set_nth_ne by lia. rewrite nth_error_app1 by lia. auto.
    + intros k j g Hk Hg. rewrite RR in Hk. destruct (String.eqb mn k) eqn:E.
      * assert (j = i) as -> by congruence. destruct (FF _ _ Hg) as [Hg'|[_ ->]]; [|left; apply String.eqb_eq in E; subst; reflexivity].
        assert (i < i)%nat by (apply nth_error_Some; congruence). lia.
      * destruct (FF _ _ Hg) as [Hg'|[-> ->]]; [eauto|]. destruct (bi_reg0 _ _ Hk) as (g' & Hg' & _).
        assert (i < i)%nat by (apply nth_error_Some; congruence). lia.
    + intros j g Hg. destruct (FF _ _ Hg) as [Hg'|[-> ->]]; [eauto|left; exact BI].
    + intros k j Hk. rewrite RR in Hk. destruct (String.eqb mn k) eqn:E; [apply String.eqb_eq in E; subst; auto|eauto].
    + intros j g k u Hg Hu. cbn [b_metas b_inst set_facts]. rewrite M3. destruct (FF _ _ Hg) as [Hg'|[-> ->]].
      { destruct (bi_uids0 _ _ _ _ Hg' Hu) as [(Q1 & Q2)|?]; [left; split; [exact Q1|exact (K3 _ _ Q2)]|auto]. }
      cbn in Hu. destruct (String.eqb mn k) eqn:E; [apply String.eqb_eq in E; subst k|discriminate]. left. split; [exact C|]. congruence.
    + intros j g Hg. cbn [b_metas set_facts]. rewrite M3. destruct (FF _ _ Hg) as [Hg'|[-> ->]]; [eauto|].
      cbn. split; [discriminate|]. intros k u. destruct (String.eqb mn k) eqn:E; [apply String.eqb_eq in E; subst; auto|discriminate].
    + intros j g k u Hg Hu. destruct (FF _ _ Hg) as [Hg'|[-> ->]]; [eauto|discriminate].
    + intros k m. cbn [b_metas set_facts]. rewrite M3, M. discriminate.
    + intros j g o Hg Ho. destruct (FF _ _ Hg) as [Hg'|[-> ->]]; [|destruct Ho].
      destruct (bi_ols0 _ _ _ Hg' Ho) as (_ & r & [] & _).
    + intros j g Hg. destruct (FF _ _ Hg) as [Hg'|[-> ->]]; [eauto|constructor].
    + intros r ? [].
    + intros r ? [].
    + intros r ? ? [].
  - cbn [b_metas set_facts]. congruence.
  - intros k. rewrite RR. destruct (String.eqb mn k) eqn:E.
    + apply String.eqb_eq in E. subst k. split; [discriminate|tauto].
    + apply String.eqb_neq in E. intuition.
Qed.
Lemma builder_new_ok uids annos nu b : builder_new uids annos nu = Ok b -> binv [] b.
Proof.
  unfold builder_new. destruct (ir_new uids nu) as [[nu1 ir]| | |]; cbn [rbind]; try discriminate.
  set (b0 := mkB _ _ _ _ _ _ _). assert (I0 : binvC (fun _ => False) [] b0).
  { constructor; unfold find_ifact; cbn; try discriminate; try tauto; intros [|?]; discriminate. }
  destruct (add_custom b0 "nop" _) as [b1| | |] eqn:E1; cbn [rbind]; try discriminate.
  destruct (add_custom_ok _ b0 "nop" _ _ (or_introl (conj eq_refl eq_refl)) I0 ltac:(discriminate) eq_refl E1) as (I1 & M1 & R1).
  intros H. apply (add_custom_ok _ b1 "cmov" _ _ (or_intror (conj eq_refl eq_refl)) I1) in H; [| |exact M1].
  - destruct H as (H & _). destruct H. constructor; auto. intros k [->| ->]; apply bi_custom0; auto.
  - intros k u Hk ->. assert (find_ifact b1 "cmov" = None) as Q by (apply R1; split; [reflexivity|discriminate]). congruence.
Qed.

(** What a configured decoder holds. *)
Lemma configured uids annos nu b0 incl excl recs b t :
  builder_new uids annos nu = Ok b0 -> configure incl excl recs (b0, tree_new) = Ok (b, t) ->
  separated (encodings (kept incl excl recs)) ->
  exists X P, tree_ok t X /\ map fst X = encodings (kept incl excl recs) /\ binv P b /\ Forall (item_ok P b) X /\
    (forall r, In r P <-> In r (kept incl excl recs) /\ r_mn r <> None).
Proof.
  intros HB HC S. exact (configure_ok [] incl excl recs b0 tree_new [] b t (builder_new_ok _ _ _ _ HB) tree_ok_new (Forall_nil _) S HC).
Qed.
