(** The annotation that a decoded instruction reports. *)
From Coq Require Import NArith List Bool String Lia.
From Verif Require Import M_Base M_Field M_Forms M_Meta M_OperandInfo M_Extract M_Decoded M_Registry M_Trie M_Builder M_DTable.
From Verif Require Import S_Trie S_Table S_Anno L_Table L_Ids L_Decode.
From Verif Require L_Builtin.
Import ListNotations.
Local Open Scope N_scope.

Section Annos.
Context (annos : list (string * anno)).
Record ainv (P : list irec) (b : builder) : Prop := mkAI {
  ai_annos : b_annos b = annos;
  ai_names : forall k i f, find_ifact b k = Some i -> nth_error (b_facts b) i = Some f -> k = fc_name f \/ renamed P k;
  ai_ok : forall k i, find_ifact b k = Some i -> exists f, nth_error (b_facts b) i = Some f;
  ai_cust : forall k, custom k -> find_ifact b k <> None;
  ai_ann : forall i f k a, nth_error (b_facts b) i = Some f -> mfind (fc_annos f) k = Some a ->
    custom k \/ exists r, In r P /\ is_inst r k /\ r_expand r = ""%string;
  ai_self : forall i f, nth_error (b_facts b) i = Some f -> custom (fc_name f) ->
    mfind (fc_annos f) (fc_name f) = Some (mfind annos (fc_name f));
  ai_exp : forall i f k u, nth_error (b_facts b) i = Some f -> mfind (fc_metas f) k = Some u ->
    exists r, In r P /\ is_inst r k /\ r_expand r <> ""%string /\
      (sole P (r_expand r) \/ untouched P (r_expand r) -> find_ifact b (r_expand r) = Some i);
  ai_ols : forall i f o, nth_error (b_facts b) i = Some f -> In o (fc_olays f) -> ov_anno o = either annos (ov_mn o) (ov_base o) }.

Lemma in_app_l (P : list irec) r x : In x P -> In x (P ++ [r])%list.
Proof. intros H. apply in_app_iff. now left. Qed.
Lemma ainv_metas P b v : ainv P b -> ainv P (set_metas b v).
Proof. intros []. constructor; auto. Qed.
Lemma inherits P (r : irec) xp : sole (P ++ [r])%list xp \/ untouched (P ++ [r])%list xp -> sole P xp \/ untouched P xp.
Proof. intros [H|H]; [left; eapply sole_app; eauto|right; eapply untouched_app; eauto]. Qed.
Lemma ainv_bld P b r mn st m b' i : is_inst r mn -> ainv P b ->
  bld b mn (fname_of r mn) (r_expand r) st m = Ok (b', i) -> ainv (P ++ [r])%list b'.
Proof.
  intros HI [A1 A2 A2' A3 A4 A5 A6 A7] H. assert (IR : In r (P ++ [r])%list) by (apply in_app_iff; right; now left).
  destruct (string_dec (r_expand r) "") as [EX|EX].
  - rewrite EX in H. apply bld_normal_inv in H. destruct H as [(f0 & u & D & N & _) O R M L].
    set (f2 := fact_add_uid mn u (fact_add_anno mn (panno_of b (fname_of r mn) mn) f0)) in N.
    assert (LE : f_le f0 f2) by (unfold f2; eapply f_le_trans; [apply f_le_anno|apply f_le_uid]).
    assert (G : exists o, grown mn False o f2 /\ forall g, o = Some g -> nth_error (b_facts b) i = Some g).
    { destruct D as [(D1 & D2)|(_ & -> & _)].
      - exists (Some f0). split; [apply grown_normal; auto|congruence].
      - exists None. split; [apply grown_normal; right; repeat split|discriminate]. }
    destruct G as (o & [G1 G2 G3 G4] & GO).
    assert (NM : fname_of r mn = fc_name f0 \/ renamed P (fname_of r mn)).
    { destruct D as [(D1 & D2)|(_ & -> & _)]; [exact (A2 _ _ _ D1 D2)|now left]. }
    assert (CASES : forall j f, nth_error (b_facts b') j = Some f -> (j = i /\ f = f2) \/ (j <> i /\ nth_error (b_facts b) j = Some f)).
    { intros j f Hf. destruct (PeanoNat.Nat.eq_dec j i) as [->|NE]; [left; split; congruence|right; split; [auto|]]. now rewrite <- (O j NE). }
    assert (SAME : forall k j, sole (P ++ [r])%list k \/ untouched (P ++ [r])%list k -> find_ifact b k = Some j -> find_ifact b' k = Some j).
    { intros k j S F. rewrite R. destruct (String.eqb mn k || String.eqb (fname_of r mn) k)%bool eqn:EK; [|exact F].
      assert (fname_of r mn = k) as FK.
      { destruct (String.eqb_spec (fname_of r mn) k) as [Q|Q]; [exact Q|]. rewrite orb_false_r in EK. apply String.eqb_eq in EK. subst k.
        destruct HI as [HI HO]. destruct S as [(_ & _ & S)|(_ & S)].
        - destruct (S r IR HI) as [S1|S1]; unfold fname_of; now rewrite S1.
        - destruct (S r IR HI). congruence. }
      subst k. destruct D as [(D1 & _)|(D1 & _)]; congruence. }
    constructor.
    + now rewrite (bl_annos _ _ L).
    + intros k j f Hk Hf. rewrite R in Hk. destruct (String.eqb mn k || String.eqb (fname_of r mn) k)%bool eqn:EK.
      * assert (j = i) as -> by congruence. assert (f = f2) as -> by congruence. rewrite (fl_name _ _ LE).
        destruct (String.eqb_spec (fname_of r mn) k) as [Q|NE].
        { rewrite <- Q. destruct NM as [NM|NM]; [now left|right; now apply renamed_app]. }
        rewrite orb_false_r in EK. apply String.eqb_eq in EK. subst k. right. exists r. unfold fname_of in NE.
        destruct (r_factory r) as [F|] eqn:EF; [|congruence]. exists F. split; [exact IR|]. destruct HI. auto.
      * destruct (A2' _ _ Hk) as (g & Hg). assert (fc_name f = fc_name g) as ->.
        { destruct (bl_facts _ _ L _ _ Hg) as (g' & Hg' & Lg). assert (f = g') as -> by congruence. apply Lg. }
        destruct (A2 _ _ _ Hk Hg) as [Q|Q]; [auto|right; now apply renamed_app].
    + intros k j Hk. rewrite R in Hk. destruct (String.eqb mn k || String.eqb (fname_of r mn) k)%bool.
      * assert (j = i) as -> by congruence. eauto.
      * destruct (A2' _ _ Hk) as (g & Hg). destruct (bl_facts _ _ L _ _ Hg) as (g' & Hg' & _). eauto.
    + intros k C. rewrite R. destruct (String.eqb mn k || String.eqb (fname_of r mn) k)%bool; [discriminate|now apply A3].
    + intros j f k a Hf Ha. destruct (CASES _ _ Hf) as [[-> ->]|[NE Hf']].
      * destruct (G2 _ _ Ha) as [->|(g & Hg & Hga)]; [right; exists r; auto|].
        destruct (A4 _ _ _ _ (GO _ Hg) Hga) as [C|(r0 & Q1 & Q2)]; [auto|right; exists r0; split; [now apply in_app_l|exact Q2]].
      * destruct (A4 _ _ _ _ Hf' Ha) as [C|(r0 & Q1 & Q2)]; [auto|right; exists r0; split; [now apply in_app_l|exact Q2]].
    + intros j f Hf C. destruct (CASES _ _ Hf) as [[-> ->]|[NE Hf']]; [|eauto].
      rewrite (fl_name _ _ LE) in C |- *. destruct D as [(D1 & D2)|(D1 & -> & _)].
      * apply (fl_annos _ _ LE). now apply (A5 i).
      * exfalso. exact (A3 _ C D1).
    + intros j f k w Hf Hw. destruct (CASES _ _ Hf) as [[-> ->]|[NE Hf']].
      * destruct (G3 _ _ Hw) as [[_ []]|(g & Hg & Hgw)].
        destruct (A6 _ _ _ _ (GO _ Hg) Hgw) as (r0 & Q1 & Q2 & Q3 & Q4).
        exists r0. split; [now apply in_app_l|]. split; [exact Q2|]. split; [exact Q3|]. intros S. apply SAME; [exact S|]. apply Q4. eapply inherits; eauto.
      * destruct (A6 _ _ _ _ Hf' Hw) as (r0 & Q1 & Q2 & Q3 & Q4).
        exists r0. split; [now apply in_app_l|]. split; [exact Q2|]. split; [exact Q3|]. intros S. apply SAME; [exact S|]. apply Q4. eapply inherits; eauto.
    + intros j f ov Hf Ho. destruct (CASES _ _ Hf) as [[-> ->]|[NE Hf']]; [|eauto].
      rewrite G4 in Ho. destruct o as [g|]; [|destruct Ho]. eapply A7; [exact (GO g eq_refl)|exact Ho].
  - apply bld_expand_inv in H; [|exact EX]. destruct H as [(f0 & u & D1 & D2 & N & _) O R M L].
    set (f2 := fact_merge_meta mn m (fact_add_uid mn u f0)) in N.
    assert (LE : f_le f0 f2) by (unfold f2; eapply f_le_trans; [apply f_le_uid|apply f_le_merge]).
    destruct (grown_expand mn u m f0 True I) as [G1 G2 G3 G4]. fold f2 in G1, G2, G3, G4.
    assert (AN : fc_annos f2 = fc_annos f0).
    { unfold f2. destruct (merge_cases mn m (fact_add_uid mn u f0)) as [(v & _ & ->)|[_ ->]]; cbn [fc_annos];
        destruct (add_uid_cases mn u f0) as [(v' & _ & ->)|[_ ->]]; reflexivity. }
    assert (CASES : forall j f, nth_error (b_facts b') j = Some f -> (j = i /\ f = f2) \/ (j <> i /\ nth_error (b_facts b) j = Some f)).
    { intros j f Hf. destruct (PeanoNat.Nat.eq_dec j i) as [->|NE]; [left; split; congruence|right; split; [auto|]]. now rewrite <- (O j NE). }
    assert (FF : forall k, find_ifact b' k = find_ifact b k) by (intros k; unfold find_ifact; now rewrite R).
    constructor.
    + now rewrite (bl_annos _ _ L).
    + intros k j f Hk Hf. rewrite FF in Hk. destruct (A2' _ _ Hk) as (g & Hg). assert (fc_name f = fc_name g) as ->.
      { destruct (bl_facts _ _ L _ _ Hg) as (g' & Hg' & Lg). assert (f = g') as -> by congruence. apply Lg. }
      destruct (A2 _ _ _ Hk Hg) as [Q|Q]; [auto|right; now apply renamed_app].
    + intros k j Hk. rewrite FF in Hk. destruct (A2' _ _ Hk) as (g & Hg). destruct (bl_facts _ _ L _ _ Hg) as (g' & Hg' & _). eauto.
    + intros k C. rewrite FF. now apply A3.
    + intros j f k a Hf Ha. assert (exists g, nth_error (b_facts b) j = Some g /\ mfind (fc_annos g) k = Some a) as (g & Hg & Hga).
      { destruct (CASES _ _ Hf) as [[-> ->]|[NE Hf']]; [exists f0; rewrite <- AN; auto|eauto]. }
      destruct (A4 _ _ _ _ Hg Hga) as [C|(r0 & Q1 & Q2)]; [auto|right; exists r0; split; [now apply in_app_l|exact Q2]].
    + intros j f Hf C. destruct (CASES _ _ Hf) as [[-> ->]|[NE Hf']]; [|eauto].
      rewrite (fl_name _ _ LE) in C |- *. rewrite AN. now apply (A5 i).
    + intros j f k w Hf Hw. assert (OLD : forall g, nth_error (b_facts b) j = Some g -> mfind (fc_metas g) k = Some w -> exists r0, In r0 (P ++ [r])%list /\ is_inst r0 k /\ r_expand r0 <> ""%string /\
        (sole (P ++ [r])%list (r_expand r0) \/ untouched (P ++ [r])%list (r_expand r0) -> find_ifact b' (r_expand r0) = Some j)).
      { intros g Hg Hgw. destruct (A6 _ _ _ _ Hg Hgw) as (r0 & Q1 & Q2 & Q3 & Q4). exists r0. split; [now apply in_app_l|]. split; [exact Q2|]. split; [exact Q3|].
        intros S. rewrite FF. apply Q4. eapply inherits; eauto. }
      destruct (CASES _ _ Hf) as [[-> ->]|[NE Hf']]; [|eauto].
      destruct (G3 _ _ Hw) as [[-> _]|(g & Hg & Hgw)].
      * exists r. split; [exact IR|]. split; [exact HI|]. split; [exact EX|]. intros _. now rewrite FF.
      * apply (OLD g); [congruence|exact Hgw].
    + intros j f ov Hf Ho. destruct (CASES _ _ Hf) as [[-> ->]|[NE Hf']]; [|eauto].
      rewrite G4 in Ho. eapply A7; [exact D2|exact Ho].
Qed.
Lemma ainv_overlay P b r mn o x b' : r_mn r = Some mn -> r_overlay r = Some o -> ainv P b ->
  build_overlay b mn o r x = Ok b' -> ainv (P ++ [r])%list b'.
Proof.
  intros HM HO [A1 A2 A2' A3 A4 A5 A6 A7] H. apply build_overlay_inv in H.
  destruct H as [(base & mask & v & bm & m & uid & i & f0 & _ & _ & _ & F1 & F2 & _ & F3) R M L]. cbv zeta in F3.
  set (ov := mkOv _ _ _ _ _ _ _ _ _) in F3.
  assert (OA : ov_anno ov = either annos (ov_mn ov) (ov_base ov)).
  { unfold ov. cbn [ov_anno ov_mn ov_base]. unfold either, find_anno. rewrite A1. reflexivity. }
  assert (FF : forall k, find_ifact b' k = find_ifact b k) by (intros k; unfold find_ifact; now rewrite R).
  assert (CASES : forall j f, nth_error (b_facts b') j = Some f -> exists g, nth_error (b_facts b) j = Some g /\ fc_name f = fc_name g /\
     fc_annos f = fc_annos g /\ fc_metas f = fc_metas g /\ forall o, In o (fc_olays f) -> o = ov \/ In o (fc_olays g)).
  { intros j f Hf. rewrite F3, nth_set_nth in Hf. destruct (PeanoNat.Nat.eqb i j) eqn:E.
    - apply PeanoNat.Nat.eqb_eq in E. subst j. rewrite F2 in Hf. match type of Hf with Some ?y = _ => assert (f = y) as -> by congruence end.
      exists f0. repeat split; try reflexivity; [exact F2|]. intros o0 Ho. now apply ov_insert_in in Ho.
    - exists f. repeat split; auto. }
  constructor.
  - now rewrite (bl_annos _ _ L).
  - intros k j f Hk Hf. rewrite FF in Hk. destruct (CASES _ _ Hf) as (g & Hg & -> & _).
    destruct (A2 _ _ _ Hk Hg) as [Q|Q]; [auto|right; now apply renamed_app].
  - intros k j Hk. rewrite FF in Hk. destruct (A2' _ _ Hk) as (g & Hg). destruct (bl_facts _ _ L _ _ Hg) as (g' & Hg' & _). eauto.
  - intros k C. rewrite FF. now apply A3.
  - intros j f k a Hf Ha. destruct (CASES _ _ Hf) as (g & Hg & _ & EA & _). rewrite EA in Ha.
    destruct (A4 _ _ _ _ Hg Ha) as [C|(r0 & Q1 & Q2)]; [auto|right; exists r0; split; [now apply in_app_l|exact Q2]].
  - intros j f Hf C. destruct (CASES _ _ Hf) as (g & Hg & EN & EA & _). rewrite EN in *. rewrite EA. eauto.
  - intros j f k w Hf Hw. destruct (CASES _ _ Hf) as (g & Hg & _ & _ & EM & _). rewrite EM in Hw.
    destruct (A6 _ _ _ _ Hg Hw) as (r0 & Q1 & Q2 & Q3 & Q4). exists r0. split; [now apply in_app_l|]. split; [exact Q2|]. split; [exact Q3|].
    intros S. rewrite FF. apply Q4. eapply inherits; eauto.
  - intros j f o0 Hf Ho. destruct (CASES _ _ Hf) as (g & Hg & _ & _ & _ & EO). destruct (EO _ Ho) as [->|Q]; [exact OA|eauto].
Qed.

Lemma set_nth_last {T} (l : list T) x y : set_nth (l ++ [x]) (List.length l) y = (l ++ [y])%list.
Proof. induction l as [|a l IH]; cbn; [reflexivity|]. now rewrite IH. Qed.
Lemma custom_facts b mn types b' : add_custom b mn types = Ok b' ->
  b_annos b' = b_annos b /\ (forall k, find_ifact b' k = if String.eqb mn k then Some (List.length (b_facts b)) else find_ifact b k) /\
  exists f, b_facts b' = (b_facts b ++ [f])%list /\ fc_name f = mn /\ fc_annos f = [(mn, mfind (b_annos b) mn)] /\ fc_metas f = [] /\ fc_olays f = [].
Proof.
  intros H. unfold add_custom, new_fact in H. cbn beta iota zeta in H.
  set (f0 := fact_add_anno mn _ (fact_new mn 0 _)) in H. set (b2 := set_reg _ _) in H.
  destruct (register_inst b2 mn) as [[b3 uid]| | |] eqn:U; cbn [rbind] in H; try discriminate.
  apply register_inst_inv in U as (_ & _ & F3 & R3 & A3 & _).
  apply upd_fact_inv in H as (f & Hf & ->). unfold b2 in F3, R3, A3. cbn [b_facts set_reg set_facts b_reg b_annos] in F3, R3, A3.
  rewrite F3, nth_app_last in Hf.
  assert (f = f0) as -> by exact (f_equal (fun o => match o with Some g => g | None => f end) (eq_sym Hf)).
  split; [exact A3|]. split.
  - intros k. unfold find_ifact. cbn [b_reg set_facts]. rewrite R3. apply mfind_madd.
  - exists (fact_add_uid mn uid f0). cbn [b_facts set_facts]. rewrite F3. split; [|repeat split; reflexivity].
    apply set_nth_last.
Qed.
Lemma ainv_new uids nu b : builder_new uids annos nu = Ok b -> ainv [] b.
Proof.
  unfold builder_new. destruct (ir_new uids nu) as [[nu1 ir]| | |]; cbn [rbind]; try discriminate.
  set (b0 := mkB _ _ _ _ _ _ _).
  destruct (add_custom b0 "nop" _) as [b1| | |] eqn:E1; cbn [rbind]; try discriminate. intros E2.
  apply custom_facts in E1 as (A1 & R1 & f1 & F1 & N1 & L1 & M1 & O1).
  apply custom_facts in E2 as (A2 & R2 & f2 & F2 & N2 & L2 & M2 & O2).
  cbn [b_facts b_annos b0 app] in *. rewrite A1 in *. rewrite F1 in *. cbn [app List.length] in *.
  assert (C : forall i f, nth_error (b_facts b) i = Some f -> (i = 0%nat /\ f = f1) \/ (i = 1%nat /\ f = f2)).
  { rewrite F2. intros [|[|[|i]]] f H; cbn in H; try discriminate; [left|right]; split; congruence. }
  assert (K : forall k i, find_ifact b k = Some i -> (i = 0%nat /\ k = "nop"%string) \/ (i = 1%nat /\ k = "cmov"%string)).
  { intros k i H. rewrite R2, R1 in H. destruct (String.eqb "cmov" k) eqn:E; [apply String.eqb_eq in E; right; split; congruence|].
    destruct (String.eqb "nop" k) eqn:E'; [apply String.eqb_eq in E'; left; split; congruence|]. discriminate. }
  constructor.
  - exact A2.
  - intros k i f Hk Hf. left. destruct (K _ _ Hk) as [[-> ->]|[-> ->]], (C _ _ Hf) as [[? ->]|[? ->]]; congruence.
  - intros k i Hk. rewrite F2. destruct (K _ _ Hk) as [[-> ->]|[-> ->]]; cbn; eauto.
  - intros k [->| ->]; rewrite R2; cbn; [rewrite R1; cbn|]; discriminate.
  - intros i f k a Hf Ha. left. destruct (C _ _ Hf) as [[-> ->]|[-> ->]]; [rewrite L1 in Ha|rewrite L2 in Ha]; cbn [mfind] in Ha;
      [destruct (String.eqb "nop" k) eqn:Q|destruct (String.eqb "cmov" k) eqn:Q]; try discriminate; apply String.eqb_eq in Q; subst k; [now left|now right].
  - intros i f Hf _. destruct (C _ _ Hf) as [[-> ->]|[-> ->]]; [rewrite L1, N1|rewrite L2, N2]; reflexivity.
  - intros i f k u Hf Hu. destruct (C _ _ Hf) as [[-> ->]|[-> ->]]; [rewrite M1 in Hu|rewrite M2 in Hu]; discriminate.
  - intros i f o Hf Ho. destruct (C _ _ Hf) as [[-> ->]|[-> ->]]; [rewrite O1 in Ho|rewrite O2 in Ho]; destruct Ho.
Qed.

Lemma configured_annos uids nu incl excl recs s : make_decoder uids annos nu incl excl recs = Ok s ->
  exists P, ainv P (fst s) /\ forall r, In r P <-> In r (kept incl excl recs) /\ r_mn r <> None.
Proof.
  intros H. unfold make_decoder in H. destruct (builder_new uids annos nu) as [b0| | |] eqn:E; cbn [rbind] in H; try discriminate.
  apply ainv_new in E.
  destruct (configure_keep ainv (fun P b mn m => ainv_metas P b _) (fun P b r mn st m b' i => ainv_bld P b r mn st m b' i)
    (fun P b r mn o x b' => ainv_overlay P b r mn o x b') incl excl recs [] (b0, tree_new) s E H) as (P & Q1 & Q2).
  exists P. split; [auto|]. intros r. rewrite Q2. cbn. tauto.
Qed.
End Annos.

Section Decoded.
Context (uids : list (string * N)) (annos : list (string * anno)) (nu : N)
  (incl excl : list pattern) (recs : list irec) (s : builder * tree).
Context (HD : make_decoder uids annos nu incl excl recs = Ok s).
Let K := kept incl excl recs.
Context (W : well_formed K).

Lemma renamed_sub P P' k : (forall r, In r P -> In r P') -> renamed P k -> renamed P' k.
Proof. intros S (r & F & Q & R). exists r, F. auto. Qed.
Lemma annotation_lemma {A U} ic v : decode (A := A) (U := U) s ic = Ok v ->
  exists r e, listed K r e /\ selected (encodings K) e ic /\
    ((d_mnemonic (i_di v) = en_mn e /\ i_anno v = base_anno annos r (en_mn e)) \/
     ((exists mask, overlay_hit K (d_mnemonic (i_di v)) (en_mn e) mask ic) /\ i_anno v = either annos (d_mnemonic (i_di v)) (en_mn e))).
Proof.
  intros H. destruct (decode_ok_cases _ _ _ _ _ _ _ HD (wf_cells _ W) _ _ H) as (P & r & e & x & i & f & I & HP & L & S & X & IL & RG & Hf & LI).
  destruct (configured_annos _ _ _ _ _ _ _ HD) as (P' & AI & HP').
  assert (PP : forall r0, In r0 P' <-> In r0 P) by (intros r0; rewrite HP, HP'; reflexivity).
  exists r, e. split; [exact L|]. split; [exact S|].
  destruct (leaf_info_cases _ _ _ _ _ LI) as (uid & a & FU & FA & IC & D).
  destruct (listed_mn _ _ (proj2 L)) as (HI & _).
  assert (HR : In r P) by (apply HP; split; [apply L|destruct HI; congruence]).
  destruct D as [(o & O1 & O2 & O3 & O4 & O5)|(O1 & O3 & O4 & O5 & _)]; pose proof O3 as M; apply decode_info_fields in M as [M1 M2].
  - right. pose proof O1 as O0. apply find_some in O1 as [O1 O6]. destruct (bi_ols _ _ _ I _ _ _ Hf O1) as (_ & ro & Hro & OV).
    split.
    + exists (ov_mask o), ro. rewrite <- O2, M1. exact (overlay_of_hit _ _ _ _ _ _ _ _ HP Hro OV O6).
    + rewrite O5, M1, <- O2. eapply ai_ols; eauto.
  - left. split; [exact M1|]. rewrite O5. unfold base_anno. pose proof RG as RG0.
    destruct RG as (f' & m & Hf' & OM & BM & AN & (u0 & UI) & RN & RE & RX & RU). assert (f' = f) as -> by congruence.
    unfold fact_anno, rassert in FA. destruct (fc_annos f) eqn:EA; [congruence|]. rewrite <- EA in *. clear EA. cbn [rbind] in FA.
    destruct (String.eqb (r_expand r) "") eqn:EX.
    + apply String.eqb_eq in EX. destruct (wf_meta _ W _ _ (proj1 L) HI EX) as (AL & _).
      rewrite (L_Builtin.anno_core _ _ _ _ _ _ _ HD P r (en_mn e) i f I HP (proj1 L) HI EX AL RG0 Hf) in FA. congruence.
    + apply String.eqb_neq in EX. destruct (wf_expand _ W _ _ (proj1 L) HI EX) as (NC & SU). destruct (RE EX NC) as (_ & R2).
      destruct (ai_exp _ _ _ AI _ _ _ _ Hf R2) as (r1 & Q1 & Q2 & Q3 & Q4).
      assert (r1 = r) as -> by (apply (bi_uniq _ _ _ I r1 r (en_mn e)); auto; now apply PP).
      assert (SUP : sole P' (r_expand r) \/ untouched P' (r_expand r)).
      { destruct SU as [SU|SU]; [left|right].
        - destruct SU as (C & S1 & S2). split; [auto|]. split; intros r0 Hr; [apply S1|apply S2]; apply HP'; auto.
        - destruct SU as (C & S1). split; [auto|]. intros r0 Hr. apply S1. apply HP'; auto. }
      specialize (Q4 SUP).
      assert (NM : fc_name f = r_expand r).
      { destruct (ai_names _ _ _ AI _ _ _ Q4 Hf) as [Q|(r0 & F & G1 & G2 & G3 & G4)]; [auto|]. exfalso.
        apply HP' in G1 as [G1 _]. destruct SU as [(_ & _ & S2)|(_ & S1)].
        - destruct (S2 _ G1 G2); congruence.
        - destruct (S1 _ G1 G2); congruence. }
      assert (NA : mfind (fc_annos f) (en_mn e) = None).
      { destruct (mfind (fc_annos f) (en_mn e)) as [a0|] eqn:E0; [|reflexivity]. exfalso.
        destruct (ai_ann _ _ _ AI _ _ _ _ Hf E0) as [C|(r0 & G1 & G2 & G3)]; [contradiction|].
        apply EX. rewrite <- G3. f_equal. apply (bi_uniq _ _ _ I r r0 (en_mn e)); auto. now apply PP. }
      rewrite NA, NM in FA.
      assert (RES : mfind (fc_annos f) (r_expand r) = Some (mfind annos (r_expand r))); [|rewrite RES in FA; congruence].
      destruct SU as [SU|[SU _]].
      * destruct (bi_keys _ _ _ I _ _ Q4) as [C|(r0 & G1 & G2 & G3 & G4)]; [destruct SU; contradiction|].
        assert (is_inst r0 (r_expand r)) as HI0.
        { split; [|exact G2]. destruct G4 as [G4|G4]; [exact G4|]. apply SU; [now apply HP|exact G4]. }
        destruct (bi_insts _ _ _ I _ _ G1 HI0) as (j & f1 & m1 & J1 & _ & _ & _ & _ & J2 & _).
        destruct (J2 G3) as (J3 & J4 & _). assert (j = i) as -> by congruence. assert (f1 = f) as -> by congruence.
        destruct J4 as (u & _ & _ & J5). rewrite (J5 (proj1 SU)). unfold panno_of, find_anno. rewrite (ai_annos _ _ _ AI).
        assert (fname_of r0 (r_expand r) = r_expand r) as ->.
        { unfold fname_of. destruct SU as (_ & _ & S2). destruct (S2 r0) as [->| ->]; [now apply HP|apply HI0|reflexivity|reflexivity]. }
        destruct (mfind annos (r_expand r)); reflexivity.
      * rewrite <- NM. eapply ai_self; eauto. rewrite NM. exact SU.
Qed.
End Decoded.
