(** Lemmas: the instructions that exist before any record is read (C72). *)
From Coq Require Import NArith List Bool String Lia.
From Verif Require Import M_Base M_Field M_Forms M_Meta M_Extract M_Decoded M_Registry M_Trie M_Builder M_DTable.
From Verif Require Import S_Bits S_Trie S_Agree S_Table S_Anno S_Founder S_Builtin L_Trie L_Table L_Ids L_Decode L_Founder L_FounderC.
Import ListNotations.
Local Open Scope N_scope.

Lemma stays_app P Q F : stays (P ++ Q) F -> stays P F.
Proof. intros H r I. apply H, in_or_app. auto. Qed.
Section Annos.
Context (AN : list (string * anno)).
Record ninv (P : list irec) (b : builder) : Prop := mkNI {
  ni_an : b_annos b = AN;
  ni_named : forall q n, In q P -> is_inst q n -> mfind (b_metas b) n <> None;
  ni_built : forall F, custom F -> exists i f, nth_error (b_facts b) i = Some f /\ fc_name f = F /\ built_in F (fc_meta f) /\ fc_stencil f = 0 /\
    find_ifact b F <> None /\ (stays P F -> find_ifact b F = Some i);
  ni_inst : forall r mn, In r P -> is_inst r mn -> r_expand r = ""%string -> exists i f, find_ifact b mn = Some i /\ nth_error (b_facts b) i = Some f /\
    mfind (fc_annos f) mn <> None /\ (custom (fname_of r mn) -> stays P (fname_of r mn) -> find_ifact b (fname_of r mn) = Some i);
  ni_uids : forall i f k u, nth_error (b_facts b) i = Some f -> mfind (fc_uids f) k = Some u ->
    (exists r, In r P /\ is_inst r k /\ mfind (ir_map (b_inst b)) (uid_name r k) = Some u) \/
    (custom k /\ fc_name f = k /\ mfind (ir_map (b_inst b)) k = Some u);
  ni_anns : forall i f k a, nth_error (b_facts b) i = Some f -> mfind (fc_annos f) k = Some a ->
    (exists r, In r P /\ is_inst r k /\ r_expand r = ""%string /\ a = either AN (fname_of r k) k) \/
    (custom k /\ fc_name f = k /\ a = mfind AN k) }.

(** ** New builders *)
Lemma add_custom_inv b mn types b' : add_custom b mn types = Ok b' -> exists u,
  b_facts b' = (b_facts b ++ [mkFact mn 0 (set_inst_type types meta_rv64i) [(mn, u)] [(mn, mfind (b_annos b) mn)] [] []])%list /\
  b_reg b' = madd (b_reg b) mn (List.length (b_facts b)) /\ mfind (ir_map (b_inst b')) mn = Some u /\
  keeps (ir_map (b_inst b)) (ir_map (b_inst b')) /\ b_annos b' = b_annos b.
Proof.
  intros H. unfold add_custom, new_fact in H. cbn beta iota zeta in H.
  set (f0 := fact_add_anno mn _ (fact_new mn 0 _)) in H. set (i := List.length (b_facts b)) in *.
  set (b2 := set_reg _ _) in H.
  destruct (register_inst b2 mn) as [[b3 uid]| | |] eqn:ER; cbn [rbind] in H; try discriminate.
  apply register_inst_inv in ER as (L3 & I3 & F3 & R3 & A3 & M3 & S3).
  apply upd_fact_inv in H as (f & Hf & ->). pose proof (bl_ids _ _ L3) as K3. unfold b2 in *.
  cbn [b_facts b_reg b_annos b_metas b_stash set_reg set_facts b_inst] in F3, R3, A3, M3, S3, K3. clear b2 L3.
  rewrite F3 in Hf. unfold i in Hf. rewrite nth_app_last in Hf. fold i in Hf.
  assert (f = f0) as -> by exact (f_equal (fun o => match o with Some g => g | None => f end) (eq_sym Hf)). clear Hf.
  exists uid. cbn [set_facts b_facts b_reg b_inst b_annos]. split; [|auto].
  rewrite F3. unfold i. clear. induction (b_facts b) as [|g l IH]; [reflexivity|]. cbn [app List.length set_nth]. now rewrite IH.
Qed.
Lemma builder_new_inv uids nu b : builder_new uids AN nu = Ok b -> exists u u' mn mc,
  b_facts b = [mkFact "nop" 0 mn [("nop"%string, u)] [("nop"%string, mfind AN "nop")] [] [];
               mkFact "cmov" 0 mc [("cmov"%string, u')] [("cmov"%string, mfind AN "cmov")] [] []] /\
  built_in "nop" mn /\ built_in "cmov" mc /\ find_ifact b "nop" = Some 0%nat /\ find_ifact b "cmov" = Some 1%nat /\
  mfind (ir_map (b_inst b)) "nop" = Some u /\ mfind (ir_map (b_inst b)) "cmov" = Some u' /\ b_annos b = AN.
Proof.
  unfold builder_new. destruct (ir_new uids nu) as [[nu1 ir]| | |]; cbn [rbind]; try discriminate.
  set (b0 := mkB _ _ _ _ _ _ _). destruct (add_custom b0 "nop" _) as [b1| | |] eqn:E1; cbn [rbind]; try discriminate.
  intros E2. apply add_custom_inv in E1 as (u & F1 & R1 & U1 & K1 & A1). apply add_custom_inv in E2 as (u' & F2 & R2 & U2 & K2 & A2).
  unfold b0 in F1, R1, A1. cbn [b_facts b_reg b_annos List.length app] in F1, R1, A1. rewrite F1 in F2, R2. rewrite R1 in R2. rewrite A1 in *.
  exists u, u'. eexists. eexists. split; [exact F2|]. split; [left; split; reflexivity|]. split; [right; split; reflexivity|].
  unfold find_ifact. rewrite R2. split; [reflexivity|]. split; [reflexivity|]. auto.
Qed.
Lemma ninv_new uids nu b : builder_new uids AN nu = Ok b -> ninv [] b.
Proof.
  intros H. apply builder_new_inv in H as (u & u' & mn & mc & F & B1 & B2 & R1 & R2 & U1 & U2 & A). constructor.
  - exact A.
  - intros q n [].
  - intros k [->| ->]; [exists 0%nat|exists 1%nat]; (eexists; split; [rewrite F; reflexivity|]); cbn [fc_name fc_meta fc_stencil];
      (split; [reflexivity|]); (split; [assumption|]); (split; [reflexivity|]); (split; [congruence|auto]).
  - intros r n [].
  - intros i f k w Hf Hw. right. rewrite F in Hf. destruct i as [|[|i]]; cbn [nth_error] in Hf; [| |destruct i; discriminate]; injection Hf as <-; cbn [fc_uids fc_name mfind] in *.
    + destruct (String.eqb "nop" k) eqn:E; [|discriminate]. apply String.eqb_eq in E. subst k. split; [now left|]. split; [reflexivity|congruence].
    + destruct (String.eqb "cmov" k) eqn:E; [|discriminate]. apply String.eqb_eq in E. subst k. split; [now right|]. split; [reflexivity|congruence].
  - intros i f k w Hf Hw. right. rewrite F in Hf. destruct i as [|[|i]]; cbn [nth_error] in Hf; [| |destruct i; discriminate]; injection Hf as <-; cbn [fc_annos fc_name mfind] in *.
    + destruct (String.eqb "nop" k) eqn:E; [|discriminate]. apply String.eqb_eq in E. subst k. split; [now left|]. split; [reflexivity|congruence].
    + destruct (String.eqb "cmov" k) eqn:E; [|discriminate]. apply String.eqb_eq in E. subst k. split; [now right|]. split; [reflexivity|congruence].
Qed.

(** ** Steps *)
Lemma panno_either b x y : b_annos b = AN -> panno_of b x y = either AN x y.
Proof. intros E. unfold panno_of, find_anno, either. now rewrite E. Qed.
(** Steps that leave the names alone. *)
Lemma ninv_same P r b b' : b_le b b' -> b_reg b' = b_reg b ->
  (forall q n, In q (P ++ [r])%list -> is_inst q n -> mfind (b_metas b') n <> None) ->
  (forall n, is_inst r n -> r_expand r <> ""%string) ->
  (forall i f' k u, nth_error (b_facts b') i = Some f' -> mfind (fc_uids f') k = Some u ->
     (exists f, nth_error (b_facts b) i = Some f /\ mfind (fc_uids f) k = Some u) \/
     (is_inst r k /\ mfind (ir_map (b_inst b')) (uid_name r k) = Some u)) ->
  (forall i f' k a, nth_error (b_facts b') i = Some f' -> mfind (fc_annos f') k = Some a ->
     exists f, nth_error (b_facts b) i = Some f /\ mfind (fc_annos f) k = Some a) ->
  ninv P b -> ninv (P ++ [r]) b'.
Proof.
  intros L R NA XP UU AA [I1 I2 I3 I4 I5 I6].
  assert (RR : forall k, find_ifact b' k = find_ifact b k) by (intros k; unfold find_ifact; now rewrite R).
  constructor.
  - now rewrite (bl_annos _ _ L).
  - exact NA.
  - intros F C. destruct (I3 F C) as (i & f & Hf & J1 & J2 & J3 & J4 & J5). destruct (bl_facts _ _ L i f Hf) as (f' & Hf' & LE).
    exists i, f'. rewrite (fl_name _ _ LE), (fl_meta _ _ LE), (fl_sten _ _ LE), RR. do 5 (split; [assumption|]). intros S. apply J5. exact (stays_app _ _ _ S).
  - intros q n I HI X. apply in_app_or in I as [I|[<-|[]]]; [|destruct (XP n HI X)].
    destruct (I4 q n I HI X) as (i & f & J1 & J2 & J3 & J4). destruct (bl_facts _ _ L i f J2) as (f' & Hf' & LE). exists i, f'. rewrite !RR.
    split; [exact J1|]. split; [exact Hf'|]. split.
    + destruct (mfind (fc_annos f) n) as [a|] eqn:E; [|congruence]. rewrite (fl_annos _ _ LE _ _ E). discriminate.
    + intros C S. apply J4; [exact C|exact (stays_app _ _ _ S)].
  - intros i f' k u Hf Hu. destruct (UU i f' k u Hf Hu) as [(f & Hf0 & Hu0)|(Q1 & Q2)].
    + destruct (bl_facts _ _ L i f Hf0) as (f1 & Hf1 & LE). assert (f1 = f') as -> by congruence.
      destruct (I5 i f k u Hf0 Hu0) as [(q & Q1 & Q2 & Q3)|(Q1 & Q2 & Q3)]; [left|right].
      * exists q. split; [apply in_or_app; auto|]. split; [exact Q2|exact (bl_ids _ _ L _ _ Q3)].
      * split; [exact Q1|]. split; [rewrite (fl_name _ _ LE); exact Q2|exact (bl_ids _ _ L _ _ Q3)].
    + left. exists r. split; [apply in_or_app; right; now left|auto].
  - intros i f' k a Hf Ha. destruct (AA i f' k a Hf Ha) as (f & Hf0 & Ha0).
    destruct (bl_facts _ _ L i f Hf0) as (f1 & Hf1 & LE). assert (f1 = f') as -> by congruence.
    destruct (I6 i f k a Hf0 Ha0) as [(q & Q1 & Q2)|(Q1 & Q2 & Q3)]; [left|right].
    + exists q. split; [apply in_or_app; auto|exact Q2].
    + split; [exact Q1|]. split; [rewrite (fl_name _ _ LE); exact Q2|exact Q3].
Qed.
Lemma uid_annos mn u f : fc_annos (fact_add_uid mn u f) = fc_annos f.
Proof. unfold fact_add_uid. destruct (mfind _ _); auto. Qed.
Lemma anno_uids mn a f : fc_uids (fact_add_anno mn a f) = fc_uids f.
Proof. unfold fact_add_anno. destruct (mfind _ _); auto. Qed.
Lemma merge_rest mn m f : fc_annos (fact_merge_meta mn m f) = fc_annos f /\ fc_uids (fact_merge_meta mn m f) = fc_uids f.
Proof. unfold fact_merge_meta. destruct (mfind _ _); auto. Qed.
Lemma uid_find mn u f k w : mfind (fc_uids (fact_add_uid mn u f)) k = Some w -> mfind (fc_uids f) k = Some w \/ (k = mn /\ w = u).
Proof.
  unfold fact_add_uid. destruct (mfind (fc_uids f) mn) eqn:E; [auto|]. cbn [fc_uids]. rewrite mfind_madd. destruct (String.eqb mn k) eqn:EK; [|auto].
  apply String.eqb_eq in EK. intros H. injection H as <-. auto.
Qed.
Lemma anno_find mn u f k w : mfind (fc_annos (fact_add_anno mn u f)) k = Some w -> mfind (fc_annos f) k = Some w \/ (k = mn /\ w = u).
Proof.
  unfold fact_add_anno. destruct (mfind (fc_annos f) mn) eqn:E; [auto|]. cbn [fc_annos]. rewrite mfind_madd. destruct (String.eqb mn k) eqn:EK; [|auto].
  apply String.eqb_eq in EK. intros H. injection H as <-. auto.
Qed.
Lemma anno_has mn u f : mfind (fc_annos (fact_add_anno mn u f)) mn <> None.
Proof. unfold fact_add_anno. destruct (mfind (fc_annos f) mn) eqn:E; [congruence|]. cbn [fc_annos]. apply madd_some. Qed.
Lemma ninv_bld P b r mn m b' i : is_inst r mn -> own_meta r = Ok m -> (forall q, In q P -> ~ is_inst q mn) -> mfind (b_metas b) mn <> None ->
  ninv P b -> bld b mn (fname_of r mn) (r_expand r) (r_stencil r) m = Ok (b', i) -> ninv (P ++ [r]) b'.
Proof.
  intros HI OM NEW KN NI H. pose proof NI as [I1 I2 I3 I4 I5 I6].
  assert (INR : In r (P ++ [r])%list) by (apply in_or_app; right; now left).
  assert (NAMED : forall b'', b_metas b'' = b_metas b -> forall q n, In q (P ++ [r])%list -> is_inst q n -> mfind (b_metas b'') n <> None).
  { intros b'' E q n I Q. rewrite E. apply in_app_or in I as [I|[<-|[]]]; [eauto|]. assert (n = mn) as -> by (destruct Q, HI; congruence). exact KN. }
  destruct (String.eqb (r_expand r) "") eqn:EX.
  2:{ pose proof EX as EX'. apply String.eqb_neq in EX. apply bld_expand_inv in H; [|exact EX]. destruct H as [(f0 & u & G1 & G2 & G3 & G8 & _) G4 G5 G6 G7].
    assert (UN : uid_name r mn = r_expand r) by (unfold uid_name; now rewrite EX').
    apply (ninv_same P r b b'); [exact G7|exact G5|exact (NAMED b' G6)|intros n _; exact EX| | |exact NI].
    - intros j f' k w Hj Hw. destruct (PeanoNat.Nat.eq_dec j i) as [->|NE]; [|rewrite G4 in Hj by exact NE; eauto].
      rewrite G3 in Hj. injection Hj as <-. rewrite (proj2 (merge_rest _ _ _)) in Hw. apply uid_find in Hw as [Hw|[-> ->]]; [eauto|right].
      split; [exact HI|]. rewrite UN. exact (bl_ids _ _ G7 _ _ G8).
    - intros j f' k w Hj Hw. destruct (PeanoNat.Nat.eq_dec j i) as [->|NE]; [|rewrite G4 in Hj by exact NE; eauto].
      rewrite G3 in Hj. injection Hj as <-. rewrite (proj1 (merge_rest _ _ _)), uid_annos in Hw. eauto. }
  pose proof EX as EX'. apply String.eqb_eq in EX. rewrite EX in H. apply bld_normal_inv in H. destruct H as [(f0 & u & G1 & G2 & G8) G4 G5 G6 G7].
  assert (UN : uid_name r mn = mn) by (unfold uid_name; now rewrite EX').
  (* a name that has a factory and is not that of the new instruction keeps it *)
  assert (KEEP : forall k j, k <> mn -> find_ifact b k = Some j -> find_ifact b' k = Some j).
  { intros k j N E. rewrite G5. assert (String.eqb mn k = false) as -> by (apply String.eqb_neq; congruence). cbn [orb].
    destruct (String.eqb_spec (fname_of r mn) k) as [EF|]; [|exact E]. destruct G1 as [(K1 & _)|(K1 & _)]; congruence. }
  (* so does the name of a built-in instruction *)
  assert (KEEPF : forall F j, stays (P ++ [r]) F -> find_ifact b F = Some j -> find_ifact b' F = Some j).
  { intros F j S E. destruct (String.eqb_spec F mn) as [EF|N]; [|now apply KEEP]. subst F.
    pose proof (S r INR HI EX) as FN. rewrite G5, String.eqb_refl. cbn [orb]. rewrite FN in G1. destruct G1 as [(K1 & _)|(K1 & _)]; congruence. }
  constructor.
  - now rewrite (bl_annos _ _ G7).
  - apply NAMED, G6.
  - intros F C. destruct (I3 F C) as (j & f & Hf & J1 & J2 & J3 & J4 & J5). destruct (bl_facts _ _ G7 j f Hf) as (f' & Hf' & LE).
    exists j, f'. rewrite (fl_name _ _ LE), (fl_meta _ _ LE), (fl_sten _ _ LE). do 4 (split; [assumption|]). split.
    + rewrite G5. destruct (_ || _); [discriminate|exact J4].
    + intros S. apply KEEPF; [exact S|]. apply J5. exact (stays_app _ _ _ S).
  - intros q n I Q X. apply in_app_or in I as [I|[<-|[]]].
    + destruct (I4 q n I Q X) as (j & f & J1 & J2 & J3 & J4). destruct (bl_facts _ _ G7 j f J2) as (f' & Hf' & LE). exists j, f'.
      split; [apply KEEP; [|exact J1]; intros ->; exact (NEW q I Q)|]. split; [exact Hf'|]. split.
      * destruct (mfind (fc_annos f) n) as [a|] eqn:E; [|congruence]. rewrite (fl_annos _ _ LE _ _ E). discriminate.
      * intros C S. apply KEEPF; [exact S|]. apply J4; [exact C|exact (stays_app _ _ _ S)].
    + assert (n = mn) as -> by (destruct Q, HI; congruence). eexists i, _. split; [rewrite G5, String.eqb_refl; reflexivity|]. split; [exact G2|].
      split; [rewrite uid_annos; apply anno_has|]. intros _ _. rewrite G5, String.eqb_refl, orb_true_r. reflexivity.
  - intros j f' k w Hj Hw.
    assert (OLD : forall f, nth_error (b_facts b) j = Some f -> mfind (fc_uids f) k = Some w -> fc_name f' = fc_name f ->
      (exists q, In q (P ++ [r])%list /\ is_inst q k /\ mfind (ir_map (b_inst b')) (uid_name q k) = Some w) \/
      (custom k /\ fc_name f' = k /\ mfind (ir_map (b_inst b')) k = Some w)).
    { intros f Hf Hw' E. destruct (I5 j f k w Hf Hw') as [(q & Q1 & Q2 & Q3)|(Q1 & Q2 & Q3)]; [left|right].
      - exists q. split; [apply in_or_app; auto|]. split; [exact Q2|exact (bl_ids _ _ G7 _ _ Q3)].
      - split; [exact Q1|]. split; [congruence|exact (bl_ids _ _ G7 _ _ Q3)]. }
    destruct (PeanoNat.Nat.eq_dec j i) as [->|NE]; [|rewrite G4 in Hj by exact NE; exact (OLD f' Hj Hw eq_refl)].
    rewrite G2 in Hj. injection Hj as <-. apply uid_find in Hw as [Hw|[-> ->]].
    + rewrite anno_uids in Hw. destruct G1 as [(_ & K2)|(_ & -> & _)]; [|discriminate]. apply (OLD f0 K2 Hw).
      now rewrite (fl_name _ _ (f_le_uid _ _ _)), (fl_name _ _ (f_le_anno _ _ _)).
    + left. exists r. split; [exact INR|]. split; [exact HI|]. now rewrite UN.
  - intros j f' k w Hj Hw.
    assert (OLD : forall f, nth_error (b_facts b) j = Some f -> mfind (fc_annos f) k = Some w -> fc_name f' = fc_name f ->
      (exists q, In q (P ++ [r])%list /\ is_inst q k /\ r_expand q = ""%string /\ w = either AN (fname_of q k) k) \/
      (custom k /\ fc_name f' = k /\ w = mfind AN k)).
    { intros f Hf Hw' E. destruct (I6 j f k w Hf Hw') as [(q & Q1 & Q2)|(Q1 & Q2 & Q3)]; [left|right].
      - exists q. split; [apply in_or_app; auto|exact Q2].
      - split; [exact Q1|]. split; [congruence|exact Q3]. }
    destruct (PeanoNat.Nat.eq_dec j i) as [->|NE]; [|rewrite G4 in Hj by exact NE; exact (OLD f' Hj Hw eq_refl)].
    rewrite G2 in Hj. injection Hj as <-. rewrite uid_annos in Hw. apply anno_find in Hw as [Hw|[-> ->]].
    + destruct G1 as [(_ & K2)|(_ & -> & _)]; [|discriminate]. apply (OLD f0 K2 Hw).
      now rewrite (fl_name _ _ (f_le_uid _ _ _)), (fl_name _ _ (f_le_anno _ _ _)).
    + left. exists r. split; [exact INR|]. split; [exact HI|]. split; [exact EX|]. now apply panno_either.
Qed.
Lemma ninv_overlay P b r mn o x b' : r_mn r = Some mn -> r_overlay r = Some o -> ninv P b ->
  build_overlay b mn o r x = Ok b' -> ninv (P ++ [r]) b'.
Proof.
  intros E1 E2 NI H. apply build_overlay_inv in H as [(base & mask & v & bm & m & uid & i & f & _ & _ & _ & _ & H5 & _ & H7) R M L]. cbv zeta in H7.
  assert (FF : forall j f', nth_error (b_facts b') j = Some f' -> exists f1, nth_error (b_facts b) j = Some f1 /\ fc_uids f1 = fc_uids f' /\ fc_annos f1 = fc_annos f').
  { intros j f' Hj. rewrite H7, nth_set_nth in Hj. destruct (Nat.eqb i j) eqn:E; [|eauto]. apply PeanoNat.Nat.eqb_eq in E as <-. rewrite H5 in Hj. injection Hj as <-.
    exists f. auto. }
  apply (ninv_same P r b b'); auto.
  - intros q n I Q. rewrite M. apply in_app_or in I as [I|[<-|[]]]; [exact (ni_named _ _ NI _ _ I Q)|]. destruct Q; congruence.
  - intros n (_ & X). congruence.
  - intros j f' k w Hj Hw. left. destruct (FF j f' Hj) as (f1 & F1 & F2 & F3). exists f1. split; [exact F1|congruence].
  - intros j f' k w Hj Hw. destruct (FF j f' Hj) as (f1 & F1 & F2 & F3). exists f1. split; [exact F1|congruence].
Qed.
Lemma ninv_metas P b mn m : ninv P b -> ninv P (set_metas b (madd (b_metas b) mn m)).
Proof.
  intros [I1 I2 I3 I4 I5 I6]. constructor; auto. intros q n I Q. cbn [set_metas b_metas]. rewrite mfind_madd. destruct (String.eqb mn n); [discriminate|eauto].
Qed.
End Annos.

(** ** Decoders *)
Section Claims.
Context (uids : list (string * N)) (annos : list (string * anno)) (nu : N) (incl excl : list (string -> bool)) (recs : list irec) (s : builder * tree).
Context (HD : make_decoder uids annos nu incl excl recs = Ok s).
Local Notation K := (kept incl excl recs).
Lemma made_ninv : ninv annos (filter has_mn K) (fst s).
Proof.
  pose proof HD as H. unfold make_decoder in H. destruct (builder_new uids annos nu) as [b0| | |] eqn:E; cbn [rbind] in H; try discriminate.
  exact (configure_keep_new (ninv annos) (ninv_metas annos) (fun P b r mn C => ni_named annos P b C r mn) (ninv_bld annos) (ninv_overlay annos)
    incl excl recs [] (b0, tree_new) s (ninv_new annos _ _ _ E) H).
Qed.
Lemma stays_filter F : stays K F -> stays (filter has_mn K) F.
Proof. intros S r I. apply filter_In in I as (I & _). exact (S r I). Qed.
Lemma in_filter r mn : In r K -> is_inst r mn -> In r (filter has_mn K).
Proof. intros I (E & _). apply filter_In. split; [exact I|]. unfold has_mn. now rewrite E. Qed.
Lemma built_fact r mn : In r K -> is_inst r mn -> r_expand r = ""%string -> custom (fname_of r mn) -> stays K (fname_of r mn) ->
  exists i f, find_ifact (fst s) mn = Some i /\ nth_error (b_facts (fst s)) i = Some f /\ fc_name f = fname_of r mn /\
    built_in (fname_of r mn) (fc_meta f) /\ fc_stencil f = 0.
Proof.
  intros I HI EX C S. pose proof made_ninv as NI. destruct (ni_inst _ _ _ NI r mn (in_filter r mn I HI) HI EX) as (i & f & R & Hf & _ & Q).
  destruct (ni_built _ _ _ NI _ C) as (j & g & Hg & J1 & J2 & J3 & _ & J5).
  specialize (J5 (stays_filter _ S)). specialize (Q C (stays_filter _ S)). assert (j = i) as -> by congruence. exists i, g. auto.
Qed.
Lemma opcode_lemma r mn : In r K -> is_inst r mn -> r_expand r = ""%string -> custom (fname_of r mn) -> stays K (fname_of r mn) ->
  get_opcode s mn = Ok 0.
Proof.
  intros I HI EX C S. destruct (built_fact r mn I HI EX C S) as (i & f & R & Hf & _ & _ & ST). unfold get_opcode, get_fact. rewrite R, Hf. cbn [rbind]. now rewrite ST.
Qed.
(** The annotation kept for an instruction whose factory nothing else is called. *)
Lemma anno_core P r mn i f : binv P (fst s) -> (forall r, In r P <-> In r K /\ r_mn r <> None) -> In r K -> is_inst r mn -> r_expand r = ""%string ->
  alone K (fname_of r mn) -> reg_of P (fst s) r mn i -> nth_error (b_facts (fst s)) i = Some f ->
  mfind (fc_annos f) mn = Some (either annos (fname_of r mn) mn).
Proof.
  intros I HP IR HI EX AL (f' & m & Hf' & _ & _ & _ & _ & RN & _) Hf. assert (f' = f) as -> by congruence. destruct (RN EX) as (R1 & _ & _ & R4).
  assert (HR : In r P) by (apply HP; split; [exact IR|destruct HI; congruence]). pose proof made_ninv as NI.
  destruct (ni_inst _ _ _ NI r mn (in_filter r mn IR HI) HI EX) as (j & g & J1 & J2 & J3 & _).
  assert (j = i) as -> by congruence. assert (g = f) as -> by congruence.
  destruct (mfind (fc_annos f) mn) as [a0|] eqn:EA; [|congruence]. f_equal.
  destruct (ni_anns _ _ _ NI i f _ _ Hf EA) as [(q & Q1 & Q2 & Q3 & Q4)|(Q1 & Q2 & Q3)].
  - assert (q = r) as ->; [|exact Q4]. apply (bi_uniq _ _ _ I q r mn); auto. apply filter_In in Q1 as (Q1 & Q1'). apply HP. split; [exact Q1|now apply has_mn_iff].
  - exfalso. apply (proj1 AL). rewrite <- (R4 (conj (proj1 AL) (fun q Iq => proj2 AL q (proj1 (proj1 (HP q) Iq))))), Q2. exact Q1.
Qed.
Context (HS : separated (encodings K)).
Lemma builtin_lemma {A U} ic v : decode (A := A) (U := U) s ic = Ok v ->
  exists r e, listed K r e /\ selected (encodings K) e ic /\
    ((forall mn mask, ~ overlay_hit K mn (en_mn e) mask ic) -> r_expand r = ""%string ->
     d_mnemonic (i_di v) = en_mn e /\ d_uid (i_di v) = lookup_uid s (en_mn e) /\
     (custom (fname_of r (en_mn e)) -> stays K (fname_of r (en_mn e)) ->
      built_in (fname_of r (en_mn e)) (i_meta v) /\ i_anno v = either annos (fname_of r (en_mn e)) (en_mn e)) /\
     (alone K (fname_of r (en_mn e)) -> i_anno v = either annos (fname_of r (en_mn e)) (en_mn e))).
Proof.
  intros H. destruct (decode_ok_cases _ _ _ _ _ _ _ HD HS _ _ H) as (P & r & e & x & i & f & I & HP & L & S & X & IL & RG & Hf & LI).
  exists r, e. split; [exact L|]. split; [exact S|]. intros NO EX.
  destruct (listed_mn _ _ (proj2 L)) as (HI & _). pose proof made_ninv as NI.
  assert (HR : In r P) by (apply HP; split; [apply L|destruct HI; congruence]).
  assert (ONE : forall q, In q (filter has_mn K) -> is_inst q (en_mn e) -> q = r).
  { intros q Iq Q. apply (bi_uniq _ _ _ I q r (en_mn e)); auto. apply filter_In in Iq as (Q1 & Q1'). apply HP. split; [exact Q1|now apply has_mn_iff]. }
  assert (UN : uid_name r (en_mn e) = en_mn e) by (unfold uid_name; now rewrite (proj2 (String.eqb_eq _ _) EX)).
  pose proof RG as (f' & m & Hf' & OM & BM & AN & (u0 & UI) & RN & _ & _ & _). assert (f' = f) as -> by congruence.
  destruct (RN EX) as (R1 & _ & _ & R4).
  destruct (ni_inst _ _ _ NI r (en_mn e) (in_filter r _ (proj1 L) HI) HI EX) as (j & g & J1 & J2 & J3 & _).
  assert (j = i) as -> by congruence. assert (g = f) as -> by congruence.
  destruct (mfind (fc_annos f) (en_mn e)) as [a0|] eqn:EA; [clear J3|congruence].
  destruct (leaf_info_cases _ _ _ _ _ LI) as (uid & a & FU & FA & _ & D). destruct D as [(o & O1 & O2 & _)|(_ & O3 & O4 & O5 & _)].
  { exfalso. apply find_some in O1 as [O1 O6]. destruct (bi_ols _ _ _ I _ _ _ Hf O1) as (_ & ro & Hro & OV).
    apply (NO (ov_mn o) (ov_mask o)). exists ro. rewrite <- O2. exact (overlay_of_hit _ _ _ P (fst s) ro o ic HP Hro OV O6). }
  apply decode_info_fields in O3 as [M1 M2]. split; [exact M1|].
  assert (fact_meta f (en_mn e) = fc_meta f) as FMT.
  { unfold fact_meta. destruct (mfind (fc_metas f) (en_mn e)) as [w|] eqn:E; [|reflexivity]. exfalso.
    destruct (bi_fmetas _ _ _ I _ _ _ _ Hf E) as (q & Q1 & Q2 & Q3). assert (q = r) as -> by (apply (bi_uniq _ _ _ I q r (en_mn e)); auto). tauto. }
  assert (AV : i_anno v = a0).
  { rewrite O5. unfold fact_anno, rassert in FA. destruct (fc_annos f) eqn:E; [congruence|]. rewrite <- E in *. cbn [rbind] in FA. rewrite EA in FA. congruence. }
  destruct (ni_anns _ _ _ NI i f _ _ Hf EA) as [(q & Q1 & Q2 & Q3 & Q4)|(Q1 & Q2 & Q3)].
  - pose proof (ONE q Q1 Q2) as Eq. subst q.
    split; [|split; [intros C ST; destruct (built_fact r _ (proj1 L) HI EX C ST) as (k & h & K1 & K2 & K3 & K4 & _);
      assert (k = i) as -> by congruence; assert (h = f) as -> by congruence; rewrite O4, FMT; split; [exact K4|congruence]|intros _; congruence]].
    rewrite M2. unfold lookup_uid, ir_uid. unfold fact_uid, rassert in FU. rewrite UI in FU. destruct (negb _); cbn [rbind] in FU; [|discriminate].
    destruct (ni_uids _ _ _ NI i f _ _ Hf UI) as [(q & G1 & G2 & G3)|(G1 & G2 & G3)].
    + pose proof (ONE q G1 G2) as Eq. subst q. rewrite UN in G3. rewrite G3. congruence.
    + rewrite G3. congruence.
  - split; [|split].
    + rewrite M2. unfold lookup_uid, ir_uid. unfold fact_uid, rassert in FU. rewrite UI in FU. destruct (negb _); cbn [rbind] in FU; [|discriminate].
      destruct (ni_uids _ _ _ NI i f _ _ Hf UI) as [(q & G1 & G2 & G3)|(G1 & G2 & G3)].
      * pose proof (ONE q G1 G2) as Eq. subst q. rewrite UN in G3. rewrite G3. congruence.
      * rewrite G3. congruence.
    + intros C ST. destruct (built_fact r _ (proj1 L) HI EX C ST) as (k & h & K1 & K2 & K3 & K4 & _).
      assert (k = i) as -> by congruence. assert (h = f) as -> by congruence. rewrite O4, FMT. split; [exact K4|].
      assert (fname_of r (en_mn e) = en_mn e) as -> by congruence. rewrite AV, Q3. unfold either. destruct (mfind annos (en_mn e)); reflexivity.
    + intros AL.
      assert (fc_name f = fname_of r (en_mn e)) as FN.
      { apply R4. destruct AL as (C & AL). split; [exact C|]. intros q Iq. apply AL. apply HP, Iq. }
      exfalso. destruct AL as (C & _). apply C. rewrite <- FN, Q2. exact Q1.
Qed.
End Claims.
