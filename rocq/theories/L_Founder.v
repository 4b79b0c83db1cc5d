(** Lemmas: the first record of a factory decides (C60). *)
From Coq Require Import NArith List Bool String Lia.
From Verif Require Import M_Base M_Field M_Forms M_Meta M_Extract M_Decoded M_Registry M_Trie M_Builder M_DTable.
From Verif Require Import S_Bits S_Trie S_Agree S_Table S_Founder L_Trie L_Table L_Ids L_Decode.
Import ListNotations.
Local Open Scope N_scope.

(** ** Induction over the records, in order *)
Definition has_mn (r : irec) : bool := match r_mn r with Some _ => true | None => false end.
Section Preserve.
Context (Q : list irec -> builder -> Prop).
Context (QM : forall P b mn m, Q P b -> Q P (set_metas b (madd (b_metas b) mn m))).
Context (QB : forall P b r mn m b' i, is_inst r mn -> own_meta r = Ok m -> Q P b ->
  bld b mn (fname_of r mn) (r_expand r) (r_stencil r) m = Ok (b', i) -> Q (P ++ [r])%list b').
Context (QO : forall P b r mn o x b', r_mn r = Some mn -> r_overlay r = Some o -> Q P b ->
  build_overlay b mn o r x = Ok b' -> Q (P ++ [r])%list b').
Lemma parse_keep_own P r mn s s' : r_mn r = Some mn -> Q P (fst s) -> parse_inst s r mn = Ok s' -> Q (P ++ [r])%list (fst s').
Proof.
  intros M HQ H. unfold parse_inst in H.
  match type of H with (rbind ?r _) = _ => destruct r as [x| | |]; cbn [rbind] in H; try discriminate end.
  destruct (r_overlay r) as [o|] eqn:EO.
  - destruct (build_overlay (fst s) mn o r x) as [b| | |] eqn:E; cbn [rbind] in H; try discriminate.
    assert (s' = (b, snd s)) as -> by congruence. eapply QO; eauto.
  - destruct (r_form r) as [fn|]; [|discriminate]. destruct (get_form fn) as [fm| | |]; cbn [rbind] in H; try discriminate.
    unfold make_inst_meta in H. destruct (make_meta _ _ _) as [m| | |] eqn:EMM; cbn [rbind] in H; try discriminate.
    destruct (mfind (b_metas (fst s)) mn) eqn:EM; cbn [rbind] in H; try discriminate.
    set (b0 := set_metas _ _) in H.
    destruct (build_tree _ _ _ _ (snd s)) as [[t1 [[b1 i1] al]]| | |] eqn:E; cbn [rbind] in H; try discriminate.
    apply build_tree_leaf in E as (c & c' & E).
    assert (Q (P ++ [r])%list b1).
    { apply (build_leaf_inv b0 fm []) in E as (c0 & tab & d & tab' & d' & _ & _ & _ & _ & E). cbv zeta in E.
      eapply QB; [split; eauto| | |exact E].
      - unfold own_meta. rewrite EMM. cbn [rbind]. destruct (r_fixed r); reflexivity.
      - destruct (r_fixed r); [|apply QM]; apply QM, HQ. }
    destruct al; [assert (s' = (b1, t1)) as -> by congruence; auto|]. eapply (aliases_keep Q QM); [|exact H]. auto.
Qed.
Lemma configure_keep_own incl excl recs : forall P s s', Q P (fst s) -> configure incl excl recs s = Ok s' ->
  Q (P ++ filter has_mn (kept incl excl recs))%list (fst s').
Proof.
  induction recs as [|r recs IH]; intros P s s' HQ H; cbn [configure] in H.
  - assert (s' = s) as -> by congruence. cbn. now rewrite app_nil_r.
  - unfold kept. cbn [filter]. fold (kept incl excl recs). destruct (r_mn r) as [mn|] eqn:EM.
    + rewrite C18_filter_lemma in H. destruct (wantedb incl excl (r_tags r)) eqn:EW; [|eapply IH; eauto].
      destruct (parse_inst s r mn) as [s1| | |] eqn:E; cbn [rbind] in H; try discriminate.
      apply (parse_keep_own P _ _ _ _ EM HQ) in E. specialize (IH _ _ _ E H). rewrite <- app_assoc in IH.
      cbn [filter]. unfold has_mn at 1. rewrite EM. exact IH.
    + destruct (r_pseudo r); [|discriminate]. specialize (IH _ _ _ HQ H).
      destruct (wantedb incl excl (r_tags r)); [|exact IH]. cbn [filter]. unfold has_mn at 1. rewrite EM. exact IH.
Qed.
End Preserve.

(** ** The invariant *)
Record finv (P : list irec) (b : builder) : Prop := mkFI {
  fi_key : forall F, find_ifact b F <> None -> custom F \/ exists r, In r P /\ (member F r \/ (is_inst r F /\ r_expand r = ""%string));
  fi_own : forall i f, nth_error (b_facts b) i = Some f -> alone P (fc_name f) -> find_ifact b (fc_name f) = Some i;
  fi_first : forall F r0, alone P F -> founder P F r0 -> exists i f, find_ifact b F = Some i /\ nth_error (b_facts b) i = Some f /\
    own_meta r0 = Ok (fc_meta f) /\ fc_stencil f = r_stencil r0 }.
Lemma finv_same P r b b' : b_le b b' -> b_reg b' = b_reg b ->
  (forall i f', nth_error (b_facts b') i = Some f' -> exists f, nth_error (b_facts b) i = Some f /\ f_le f f') ->
  (forall F, ~ member F r) -> finv P b -> finv (P ++ [r]) b'.
Proof.
  intros L R FF NM [I1 I2 I3]. assert (RR : forall k, find_ifact b' k = find_ifact b k) by (intros k; unfold find_ifact; now rewrite R). constructor.
  - intros F H. rewrite RR in H. destruct (I1 F H) as [C|(r0 & A & B)]; [auto|right]. exists r0. split; [apply in_or_app; auto|exact B].
  - intros i f' H A. rewrite RR. destruct (FF i f' H) as (f & Hf & LE). rewrite (fl_name _ _ LE) in *. apply (I2 i f Hf). eapply alone_app; eauto.
  - intros F r0 A (l1 & l2 & E & M & N).
    assert (FO : founder P F r0).
    { destruct l2 as [|c l2] using rev_ind; [apply app_inj_tail in E as (_ & ->); destruct (NM F M)|].
      clear IHl2. replace (l1 ++ r0 :: l2 ++ [c])%list with ((l1 ++ r0 :: l2) ++ [c])%list in E by (rewrite <- app_assoc; reflexivity).
      apply app_inj_tail in E as (-> & _). exists l1, l2. auto. }
    destruct (I3 F r0 (alone_app _ _ _ A) FO) as (i & f & H1 & H2 & H3 & H4). destruct (bl_facts _ _ L i f H2) as (f' & H2' & LE).
    exists i, f'. rewrite RR. rewrite (fl_meta _ _ LE), (fl_sten _ _ LE). auto.
Qed.
Lemma member_alone P r F mn : In r P -> alone P F -> is_inst r F -> r_expand r = ""%string -> mn = F -> member F r.
Proof.
  intros H (_ & A) (E1 & E2) X ->. exists F. split; [split; auto|]. split; [auto|]. unfold fname_of. destruct (A r H E1) as [->| ->]; reflexivity.
Qed.
Lemma finv_bld P b r mn m b' i : is_inst r mn -> own_meta r = Ok m -> finv P b ->
  bld b mn (fname_of r mn) (r_expand r) (r_stencil r) m = Ok (b', i) -> finv (P ++ [r]) b'.
Proof.
  intros HI OM FI H. destruct (String.eqb (r_expand r) "") eqn:EX.
  2:{ apply String.eqb_neq in EX. apply bld_expand_inv in H; [|exact EX]. destruct H as [(f0 & u & G1 & G2 & G3 & _) G4 G5 _ G7].
    apply (finv_same P r b b'); auto.
    - intros j f' Hj. destruct (PeanoNat.Nat.eq_dec j i) as [->|NE].
      + rewrite G3 in Hj. injection Hj as <-. exists f0. split; [exact G2|]. eapply f_le_trans; [apply f_le_uid|apply f_le_merge].
      + rewrite G4 in Hj by exact NE. exists f'. split; [exact Hj|apply f_le_refl].
    - intros F (mn' & _ & X & _). congruence. }
  apply String.eqb_eq in EX. rewrite EX in H. apply bld_normal_inv in H. destruct H as [(f0 & u & G1 & G2 & _) G4 G5 _ G7].
  destruct FI as [I1 I2 I3].
  assert (NF : forall f', nth_error (b_facts b') i = Some f' -> f_le f0 f').
  { intros f' Hf. rewrite G2 in Hf. injection Hf as <-. eapply f_le_trans; [apply f_le_anno|apply f_le_uid]. }
  assert (MR : member (fname_of r mn) r) by (exists mn; auto).
  assert (REG : forall F, alone (P ++ [r]) F -> mn = F -> fname_of r mn = F).
  { intros F (_ & A) EF. unfold fname_of. destruct HI as (E1 & _). destruct (A r) as [->| ->]; auto; [apply in_or_app; right; now left|congruence]. }
  constructor.
  - intros F HF. rewrite G5 in HF. destruct (String.eqb_spec mn F) as [E|N1].
    { right. exists r. split; [apply in_or_app; right; now left|]. rewrite <- E. auto. }
    destruct (String.eqb_spec (fname_of r mn) F) as [E|N2]; cbn [orb] in HF.
    { right. exists r. split; [apply in_or_app; right; now left|]. rewrite <- E. auto. }
    destruct (I1 F HF) as [C|(r0 & A & B)]; [auto|right]. exists r0. split; [apply in_or_app; auto|exact B].
  - intros j f' Hj A. rewrite G5. destruct (PeanoNat.Nat.eq_dec j i) as [->|NE].
    + pose proof (fl_name _ _ (NF f' Hj)) as EN. rewrite EN in *. destruct G1 as [(K1 & K2)|(K1 & -> & K3)].
      * rewrite (I2 i f0 K2 (alone_app _ _ _ A)). now destruct (_ || _).
      * cbn [fc_name fact_new]. now rewrite String.eqb_refl, orb_true_r.
    + rewrite G4 in Hj by exact NE. pose proof (I2 j f' Hj (alone_app _ _ _ A)) as K.
      destruct (String.eqb_spec mn (fc_name f')) as [E|N1]; cbn [orb].
      * pose proof (REG _ A E) as E'. destruct G1 as [(K1 & _)|(K1 & _)]; congruence.
      * destruct (String.eqb_spec (fname_of r mn) (fc_name f')) as [E|N2]; [destruct G1 as [(K1 & _)|(K1 & _)]; congruence|exact K].
  - intros F r0 A (l1 & l2 & E & M & N). destruct l2 as [|c l2] using rev_ind.
    + apply app_inj_tail in E as (<- & <-). destruct M as (mn' & (M1 & _) & _ & M3). assert (mn' = mn) as -> by (destruct HI; congruence).
      assert (NONE : find_ifact b F = None).
      { destruct (find_ifact b F) eqn:Q; [|reflexivity]. exfalso. destruct (I1 F) as [C|(q & Q1 & Q2)]; [congruence|destruct A; tauto|].
        apply (N q Q1). destruct Q2 as [Q2|(Q2 & Q3)]; [exact Q2|]. apply (member_alone P q F F Q1 (alone_app _ _ _ A) Q2 Q3 eq_refl). }
      rewrite M3 in *. destruct G1 as [(K1 & _)|(K1 & K2 & K3)]; [congruence|].
      exists i, (fact_add_uid mn u (fact_add_anno mn (panno_of b F mn) f0)).
      pose proof (NF _ G2) as LE. split; [rewrite G5, String.eqb_refl, orb_true_r; reflexivity|]. split; [exact G2|].
      rewrite (fl_meta _ _ LE), (fl_sten _ _ LE), K2. auto.
    + clear IHl2. replace (l1 ++ r0 :: l2 ++ [c])%list with ((l1 ++ r0 :: l2) ++ [c])%list in E by (rewrite <- app_assoc; reflexivity).
      apply app_inj_tail in E as (-> & <-).
      destruct (I3 F r0 (alone_app _ _ _ A)) as (j & f & H1 & H2 & H3 & H4); [exists l1, l2; auto|].
      destruct (bl_facts _ _ G7 j f H2) as (f' & H2' & LE). exists j, f'. rewrite (fl_meta _ _ LE), (fl_sten _ _ LE). split; [|auto].
      rewrite G5. destruct (String.eqb_spec mn F) as [E|N1]; cbn [orb].
      * pose proof (REG _ A E) as E'. destruct G1 as [(K1 & _)|(K1 & _)]; congruence.
      * destruct (String.eqb_spec (fname_of r mn) F) as [E|N2]; [destruct G1 as [(K1 & _)|(K1 & _)]; congruence|exact H1].
Qed.
Lemma finv_overlay P b r mn o x b' : r_mn r = Some mn -> r_overlay r = Some o -> finv P b ->
  build_overlay b mn o r x = Ok b' -> finv (P ++ [r]) b'.
Proof.
  intros E1 E2 FI H. apply build_overlay_inv in H as [(base & mask & v & bm & m & uid & i & f & _ & _ & _ & _ & H5 & _ & H7) R M L]. cbv zeta in H7.
  apply (finv_same P r b b'); auto.
  - intros j f' Hj. rewrite H7, nth_set_nth in Hj. destruct (Nat.eqb i j) eqn:E; [|exists f'; split; [exact Hj|apply f_le_refl]].
    apply PeanoNat.Nat.eqb_eq in E as <-. rewrite H5 in Hj. injection Hj as <-. exists f. split; [exact H5|apply f_le_overlay].
  - intros F (mn' & (_ & X) & _). congruence.
Qed.
Lemma finv_metas P b mn m : finv P b -> finv P (set_metas b (madd (b_metas b) mn m)).
Proof. intros [I1 I2 I3]. constructor; auto. Qed.
Lemma finv_new b : binv [] b -> finv [] b.
Proof.
  intros I. constructor.
  - intros F H. destruct (find_ifact b F) as [i|] eqn:E; [|congruence]. destruct (bi_keys _ _ _ I F i E) as [C|(r & [] & _)]. auto.
  - intros i f Hf A. destruct (bi_orig _ _ _ I i f Hf) as [B|(_ & r & mn & [] & _)]. exfalso. apply (proj1 A), (built_in_custom _ _ B).
  - intros F r0 _ ([|] & l2 & E & _); discriminate.
Qed.

Section Claims.
Context (uids : list (string * N)) (annos : list (string * anno)) (nu : N) (incl excl : list (string -> bool)) (recs : list irec) (s : builder * tree).
Context (HD : make_decoder uids annos nu incl excl recs = Ok s) (HS : separated (encodings (kept incl excl recs))).
Local Notation K := (kept incl excl recs).
Lemma made_finv : finv (filter has_mn K) (fst s).
Proof.
  unfold make_decoder in HD. destruct (builder_new uids annos nu) as [b0| | |] eqn:E; cbn [rbind] in HD; try discriminate.
  exact (configure_keep_own finv finv_metas finv_bld finv_overlay incl excl recs [] (b0, tree_new) s (finv_new b0 (builder_new_ok _ _ _ _ E)) HD).
Qed.
Lemma founder_filter F r0 : founder K F r0 -> founder (filter has_mn K) F r0.
Proof.
  intros (l1 & l2 & E & M & N). rewrite E, filter_app. cbn [filter]. assert (has_mn r0 = true) as ->.
  { destruct M as (mn & (X & _) & _). unfold has_mn. now rewrite X. }
  exists (filter has_mn l1), (filter has_mn l2). split; [reflexivity|]. split; [exact M|]. intros r H. apply filter_In in H. apply N, H.
Qed.
Lemma has_mn_iff r : has_mn r = true <-> r_mn r <> None.
Proof. unfold has_mn. destruct (r_mn r); split; congruence. Qed.
Lemma alone_filter F : alone K F -> alone (filter has_mn K) F.
Proof. intros (C & A). split; [exact C|]. intros r H. apply filter_In in H. apply A, H. Qed.
(** The factory of an instruction is the one its founder made. *)
Lemma fact_found P r mn i f r0 : binv P (fst s) -> (forall r, In r P <-> In r K /\ r_mn r <> None) ->
  nth_error (b_facts (fst s)) i = Some f -> reg_of P (fst s) r mn i -> r_expand r = ""%string ->
  alone K (fname_of r mn) -> founder K (fname_of r mn) r0 -> own_meta r0 = Ok (fc_meta f) /\ fc_stencil f = r_stencil r0.
Proof.
  intros I HP Hf (f' & m & Hf' & _ & _ & _ & _ & RN & _) EX A FO. assert (f' = f) as -> by congruence.
  destruct (RN EX) as (_ & _ & _ & R4).
  assert (fc_name f = fname_of r mn) as FN. { apply R4. split; [apply A|]. intros q Hq. apply (proj2 A). now apply HP. }
  destruct made_finv as [_ I2 I3]. destruct (I3 _ r0 (alone_filter _ A) (founder_filter _ _ FO)) as (j & g & J1 & J2 & J3 & J4).
  pose proof (I2 i f Hf) as X. rewrite FN in X. specialize (X (alone_filter _ A)). assert (j = i) as -> by congruence. assert (g = f) as -> by congruence. auto.
Qed.
Lemma first_lemma {A U} ic v : decode (A := A) (U := U) s ic = Ok v ->
  exists r e, listed K r e /\ selected (encodings K) e ic /\
    ((forall mn mask, ~ overlay_hit K mn (en_mn e) mask ic) -> r_expand r = ""%string ->
     forall r0, alone K (fname_of r (en_mn e)) -> founder K (fname_of r (en_mn e)) r0 -> own_meta r0 = Ok (i_meta v)).
Proof.
  intros H. destruct (decode_ok_cases _ _ _ _ _ _ _ HD HS _ _ H) as (P & r & e & x & i & f & I & HP & L & S & X & IL & RG & Hf & LI).
  exists r, e. split; [exact L|]. split; [exact S|]. intros NO EX r0 AL FO.
  destruct (fact_found P r (en_mn e) i f r0 I HP Hf RG EX AL FO) as (OM & _).
  destruct (leaf_info_cases _ _ _ _ _ LI) as (uid & a & _ & _ & _ & D). destruct D as [(o & O1 & O2 & _)|(_ & _ & O4 & _)].
  - exfalso. apply find_some in O1 as [O1 O5]. destruct (bi_ols _ _ _ I _ _ _ Hf O1) as (_ & ro & Hro & OV).
    apply (NO (ov_mn o) (ov_mask o)). exists ro. rewrite <- O2. exact (overlay_of_hit _ _ _ P (fst s) ro o ic HP Hro OV O5).
  - rewrite O4. unfold fact_meta. destruct (mfind (fc_metas f) (en_mn e)) as [mm|] eqn:EM; [|exact OM].
    exfalso. destruct (bi_fmetas _ _ _ I _ _ _ _ Hf EM) as (r2 & Q1 & Q2 & Q3). destruct (listed_mn _ _ (proj2 L)) as (HI & _).
    assert (HR : In r P) by (apply HP; split; [apply L|destruct HI; congruence]).
    apply Q3. rewrite <- EX. f_equal. apply (bi_uniq _ _ _ I r2 r (en_mn e)); auto.
Qed.
Lemma opcode_first_lemma r mn r0 : In r K -> is_inst r mn -> r_expand r = ""%string -> alone K (fname_of r mn) -> founder K (fname_of r mn) r0 ->
  get_opcode s mn = Ok (r_stencil r0).
Proof.
  pose proof HD as HD'. destruct s as [b t] eqn:Es. unfold make_decoder in HD'.
  destruct (builder_new uids annos nu) as [b0| | |] eqn:EB; cbn [rbind] in HD'; try discriminate.
  destruct (configured _ _ _ _ _ _ _ _ _ EB HD' HS) as (X & P & _ & _ & I & _ & HP).
  intros Hr HI EX AL FO. destruct (bi_insts _ _ _ I r mn) as (i & RG); [apply HP; split; [auto|destruct HI; congruence]|auto|].
  pose proof RG as (f & m & Hf & _ & _ & _ & _ & RN & _). destruct (RN EX) as (R1 & _).
  rewrite <- Es in *. assert (fst s = b) as FB by now rewrite Es. rewrite <- FB in *.
  destruct (fact_found P r mn i f r0 I HP Hf RG EX AL FO) as (_ & ST).
  unfold get_opcode, get_fact. rewrite R1, Hf. cbn [rbind]. congruence.
Qed.
End Claims.
