(** The answer of every decode with a freshly configured decoder, failures included. *)
From Coq Require Import NArith ZArith Arith List Bool String Lia Permutation Sorted.
From Verif Require Import M_Base M_Field M_Forms M_Meta M_OperandInfo M_Extract M_Decoded M_Cache M_Registry M_Trie M_Builder M_DTable.
From Verif Require Import S_Bits L_Bits S_Trie S_Agree S_Table L_Count L_Trie L_Meta L_Agree L_Table L_Calm L_Decode L_Ids.
Import ListNotations.
Local Open Scope N_scope.

Section Total.
Context (uids : list (string * N)) (annos : list (string * anno)) (nu : N)
  (incl excl : list pattern) (recs : list irec) (s : builder * tree).
Context (HN : 0 < nu < w32) (HD : make_decoder uids annos nu incl excl recs = Ok s)
  (WF : well_formed (kept incl excl recs)).
Let K := kept incl excl recs.
Let E := encodings K.

Lemma finish mn' uid' x' m' ic a' : 
  answers (mkRd mn' m' x') uid' ic (let* di := decode_info mn' uid' x' m' ic in Ok (mkInfo ic di x' m' a')).
Proof. unfold answers. cbn [rd_mn rd_meta rd_x]. destruct (decode_info mn' uid' x' m' ic); cbn [rbind]; eauto. Qed.

Lemma outcome {A U} ic : decodes K (lookup_uid s) ic (decode (A := A) (U := U) s ic).
Proof.
  rewrite decode_pure. destruct (decode_cases _ _ _ _ _ _ _ HD (wf_cells _ WF) ic)
    as [[Q1 Q2]|(P & r & e & x & i & I & HP & L & S & X & C & (bb & IL) & RG & Q)]; [left; auto|right].
  exists r, e, x. split; [auto|]. split; [auto|]. split; [auto|].
  rewrite Q. unfold leaf_after, reserved. rewrite IL. cbn [rbind]. destruct bb; [left; auto|right]. split; [discriminate|].
  destruct RG as (f & m & Hf & OM & BM & AN & (u0 & UI) & RN & RE & RX & RU). unfold get_fact. rewrite Hf. cbn [rbind].
  destruct (configured_ids _ _ _ _ _ _ _ HN HD) as (P' & [_ UR UF] & _). destruct (UF _ _ Hf) as [UF1 UF2].
  destruct (listed_mn _ _ (proj2 L)) as (HI & _).
  assert (HR : In r P) by (apply HP; split; [apply L|destruct HI; congruence]).
  assert (SO : forall mn mask, overlay_hit K mn (en_mn e) mask ic -> sole K (en_mn e) /\ mask < 2 ^ 64).
  { intros mn mask (ro & Q1 & Q2). eapply (wf_base _ WF); [exact Q1|]. exact Q2. }
  assert (IN : forall mn mask, overlay_hit K mn (en_mn e) mask ic -> r_expand r = ""%string /\
     exists o, In o (fc_olays f) /\ ov_nbits o = count1bits mask /\ ov_match ic o = true).
  { intros mn mask HIT. pose proof (SO _ _ HIT) as [SK _]. destruct HIT as (ro & Q1 & (Q2 & jo & Q3 & Q4 & Q5)).
    pose proof (sole_sub _ _ _ _ _ HP SK) as SP.
    destruct (bi_overlays _ _ _ I ro mn) as (j & g & o & G1 & G2 & G3); [apply HP; split; [auto|congruence]|congruence|auto|].
    pose proof G3 as (_ & (jo' & G4 & G5) & G11 & _). apply overlay_parse_inv in G5 as [G5 G6].
    assert (jo' = jo) as -> by congruence. assert (ov_base o = en_mn e) as G7 by congruence.
    destruct (bi_ols _ _ _ I _ _ _ G1 G2) as (G8 & _). rewrite G7 in G8.
    assert (ov_mask o = mask /\ ov_value o = N.land ic mask) as [G9 G10] by (split; congruence).
    assert (r_expand r = ""%string) as EX.
    { destruct (bi_keys _ _ _ I _ _ G8) as [D|(r0 & K1 & K2 & K3 & K4)]; [destruct SP; tauto|].
      assert (r_mn r0 = Some (en_mn e)) as K5 by (destruct K4 as [K4|K4]; [auto|now apply SP]).
      rewrite (bi_uniq _ _ _ I r r0 (en_mn e)); auto. split; auto. }
    split; [exact EX|].
    destruct (RN EX) as (RI & _). assert (j = i) as -> by congruence. assert (g = f) as -> by congruence.
    exists o. split; [auto|]. split; [congruence|]. unfold ov_match. apply N.eqb_eq. congruence. }
  assert (FU : fact_uid f (en_mn e) = Ok u0).
  { unfold fact_uid. rewrite UI. apply UF1 in UI. apply N.eqb_neq in UI. rewrite UI. reflexivity. }
  assert (FA : exists a, fact_anno f (en_mn e) = Ok a).
  { unfold fact_anno. destruct (fc_annos f) eqn:EA; [contradiction|]. cbn [rassert rbind].
    destruct (mfind (_ :: _) (en_mn e)); [eexists; reflexivity|]. destruct (mfind (_ :: _) (fc_name f)); eexists; reflexivity. }
  destruct FA as [a FA]. 
  assert (NOHIT : forall o, In o (fc_olays f) -> ov_base o = en_mn e -> exists ro, In ro K /\
     overlays ro (ov_mn o) (en_mn e) (ov_mask o) (ov_value o) /\ overlay_meta r ro (ov_meta o) /\
     ov_uid o = lookup_uid s (ov_mn o) /\ ov_nbits o = count1bits (ov_mask o) /\
     overlay_extractor ro x (match ov_x o with Some c => ext c 0 | None => x end)).
  { intros o O1 O2. destruct (bi_ols _ _ _ I _ _ _ Hf O1) as (_ & ro & Hro & OV).
    destruct OV as (V1 & (jo & V2 & V3) & V4 & V5 & V6 & bm & V7 & V8). apply overlay_parse_inv in V3 as [V3 V3'].
    exists ro. split; [now apply HP|]. split; [split; [auto|exists jo; rewrite <- O2; auto]|].
    split; [exists m; split; [auto|congruence]|]. split; [unfold lookup_uid, ir_uid; now rewrite V5|]. split; [auto|].
    unfold overlay_extractor. destruct (r_xform ro) as [n|]; [|now rewrite V6]. destruct V6 as (c & V6 & ->). eauto. }
  assert (BASE : inst_meta K r (fact_meta f (en_mn e))).
  { unfold inst_meta, fact_meta. destruct (String.eqb (r_expand r) "") eqn:EX.
    - apply String.eqb_eq in EX. left. split; [auto|]. destruct (RN EX) as (_ & _ & _ & R4).
      destruct (wf_meta _ WF r (en_mn e) (proj1 L) HI EX) as ((W1 & W2) & W3).
      assert (fc_name f = fname_of r (en_mn e)) as FN.
      { apply R4. split; [auto|]. intros r0 Hr0. apply W2. now apply HP. }
      destruct (mfind (fc_metas f) (en_mn e)) as [mm|] eqn:EM.
      + exfalso. destruct (bi_fmetas _ _ _ I _ _ _ _ Hf EM) as (r2 & Q1 & Q2 & Q3).
        apply Q3. rewrite <- EX. f_equal. apply (bi_uniq _ _ _ I r2 r (en_mn e)); auto.
      + destruct (bi_orig _ _ _ I _ _ Hf) as [D|(_ & r1 & mn1 & Q1 & Q2 & Q3 & Q4 & Q5 & Q6)].
        { exfalso. apply W1. rewrite <- FN. now apply built_in_custom in D. }
        rewrite <- Q5. symmetry. apply (W3 r1 mn1); auto; [now apply HP|congruence].
    - apply String.eqb_neq in EX. right. split; [auto|]. destruct (wf_expand _ WF r (en_mn e) (proj1 L) HI EX) as (NC & SL).
      destruct (RE EX NC) as (_ & R2). exists (fc_meta f), m. split; [|split; [auto|now rewrite R2]].
      destruct SL as [SL|UT].
      + destruct (RX EX (sole_sub _ _ _ _ _ HP SL)) as (r0 & Q1 & Q2 & Q3 & Q4). left.
        exists r0. split; [now apply HP|]. auto.
      + right. split; [auto|]. apply (RU EX). destruct UT as [UT1 UT2]. split; [auto|]. intros r0 Hr0. apply UT2. now apply HP. }
  assert (BUID : u0 = lookup_uid s (uid_name r (en_mn e))).
  { unfold uid_name, lookup_uid, ir_uid. destruct (String.eqb (r_expand r) "") eqn:EX.
    - apply String.eqb_eq in EX. destruct (RN EX) as (_ & (u & R3 & R4 & _) & _). rewrite R4. congruence.
    - apply String.eqb_neq in EX. destruct (wf_expand _ WF r (en_mn e) (proj1 L) HI EX) as (NC & _). destruct (RE EX NC) as ((u & R3 & R4) & _). rewrite R4. congruence. }
  unfold leaf_info. rewrite FU, FA. cbn [rbind].
  assert (PLAIN : (forall o, ov_find (fc_olays f) ic = Some o -> ov_base o <> en_mn e) ->
    forall mn mask, ~ overlay_hit K mn (en_mn e) mask ic).
  { intros NB mn mask HIT. destruct (IN _ _ HIT) as (EX & o & Q1 & Q2 & Q3). pose proof (SO _ _ HIT) as [SK _].
    pose proof (sole_sub _ _ _ _ _ HP SK) as SP. destruct (ov_find (fc_olays f) ic) as [o'|] eqn:EO.
    - apply (NB o' eq_refl). apply find_some in EO as [EO _]. destruct (bi_ols _ _ _ I _ _ _ Hf EO) as (G1 & _).
      destruct (RN EX) as (_ & _ & NM & _). destruct (NM SP) as (NM1 & _).
      destruct (bi_reg _ _ _ I _ _ G1) as (g & Hg & D). assert (g = f) as -> by congruence.
      destruct D as [D|(r0 & D1 & D2 & D3)]; [congruence|]. exfalso. rewrite NM1 in D2, D3. apply D3. now apply SP.
    - unfold ov_find in EO. pose proof (find_none _ _ EO o Q1). congruence. }
  destruct (ov_find (fc_olays f) ic) as [o|] eqn:EO.
  - destruct (String.eqb (ov_base o) (en_mn e)) eqn:EB.
    + cbn beta iota zeta. apply String.eqb_eq in EB. pose proof EO as EF. apply find_some in EO as [O1 O5]. apply N.eqb_eq in O5.
      destruct (NOHIT o O1 EB) as (ro & H1 & H2 & H3 & H4 & H6 & H5). rewrite <- O5 in H2.
      eexists (mkRd _ _ _), _. split; [|split; [apply finish|split; [|split]]].
      * right. exists ro, (ov_mask o). split; [auto|]. split; [split; [exact H2|split; [exact H3|exists x; auto]]|].
        intros mn' mask' HIT. destruct (IN _ _ HIT) as (_ & o' & Q1 & Q2 & Q3).
        rewrite <- !count1bits_popcount; [|eapply SO; exists ro; split; [exact H1|exact H2]|eapply SO; exact HIT].
        rewrite <- Q2, <- H6. apply (find_sorted (fc_olays f) ic o); auto. eapply bi_sorted; eauto.
      * apply UF2. exact O1.
      * cbn [rd_mn]. intros ME. rewrite H4, ME. unfold uid_name.
        destruct (IN (ov_mn o) (ov_mask o)) as (EX & _); [exists ro; auto|]. rewrite EX. reflexivity.
      * cbn [rd_mn]. auto.
    + cbn beta iota zeta. apply String.eqb_neq in EB.
      eexists (mkRd _ _ _), _. split; [|split; [apply finish|split; [|split]]].
      * left. split; [split; [reflexivity|split; [exact BASE|exact X]]|]. apply PLAIN. intros o' H. congruence.
      * eapply UF1; eauto.
      * auto.
      * cbn [rd_mn]. congruence.
  - cbn beta iota zeta. eexists (mkRd _ _ _), _. split; [|split; [apply finish|split; [|split]]].
    + left. split; [split; [reflexivity|split; [exact BASE|exact X]]|]. apply PLAIN. discriminate.
    + eapply UF1; eauto.
    + auto.
    + cbn [rd_mn]. congruence.
Qed.

(** ** The typing of every reading is consistent *)
Lemma own_typing r m : own_meta r = Ok m -> typing_ok m.
Proof.
  unfold own_meta. destruct (make_meta _ _ _) as [m0| | |] eqn:Em; cbn [rbind]; try discriminate. intros H.
  apply make_meta_typing in Em. destruct (r_fixed r) as [|f0 fr].
  - assert (m = m0) as -> by congruence. exact Em.
  - assert (m = add_fixed_fields (f0 :: fr) m0) as -> by congruence. now apply fixed_typing.
Qed.
Lemma built_typing mn m : built_in mn m -> typing_ok m.
Proof. intros [[_ ->]|[_ ->]]; exact (proj1 rv_typing). Qed.
Lemma reads_typing r e ic y : reads K r e ic y -> typing_ok (rd_meta y).
Proof.
  intros [((_ & D & _) & _)|(ro & mask & _ & (_ & (m0 & D1 & D2) & _) & _)].
  - destruct D as [[_ D]|(_ & m0 & m1 & D1 & D2 & ->)]; [eapply own_typing; eauto|]. apply merge_typing.
    destruct D1 as [(r0 & _ & _ & D1)|[_ D1]]; [eapply own_typing|eapply built_typing]; eauto.
  - eapply overrides_typing; [exact D2|]. eapply own_typing; eauto.
Qed.
Lemma total {A U} ic : ic < 2 ^ 64 -> readable K ic ->
  match decode (A := A) (U := U) s ic with
  | Ok v => lists_agree (oi_elems (d_src_oi (i_di v))) (d_sources (i_di v)) (d_srcT (i_di v)) /\
            lists_agree (oi_elems (d_dst_oi (i_di v))) (d_dests (i_di v)) (d_dstT (i_di v))
  | Throw e => e = EUnknownOpcode \/ e = EIllegalOpcode
  | AssertFail | UB => False
  end.
Proof.
  intros LT RD. destruct (outcome (A := A) (U := U) ic) as [[_ ->]|(r & e & x & L & S & X & [[_ ->]|(NR & y & uid & RY & AN & _)])]; auto.
  destruct (RD _ _ _ L S RY) as (c & ffm & C1 & C2). unfold answers in AN. rewrite C1 in AN.
  destruct (decode_total c ffm (rd_meta y) ic (rd_mn y) uid LT (reads_typing _ _ _ _ RY) C2) as (d & D1 & D2 & D3).
  rewrite D1 in AN. destruct AN as [a ->]. cbn [i_di]. auto.
Qed.

(** ** Readings are determined by the table *)
Lemma reads_fun r e ic y y' : listed K r e -> reads K r e ic y -> reads K r e ic y' -> y = y'.
Proof.
  assert (UR : forall r r' mn, In r K -> In r' K -> is_inst r mn -> is_inst r' mn -> r = r')
    by exact (insts_unique _ _ _ _ _ _ _ HD (wf_cells _ WF)).
  destruct y as [n m x], y' as [n' m' x']. intros L.
  intros [((D1 & D2 & D3) & D4)|(ro & mask & D1 & (D2 & (m0 & D3 & D3') & x0 & D4 & D5) & D6)]
         [((B1 & B2 & B3) & B4)|(ro' & mask' & B1 & (B2 & (m0' & B3 & B3') & x0' & B4 & B5) & B6)]; cbn [rd_mn rd_meta rd_x] in *.
  - assert (x' = x) as -> by eauto using extractor_of_fun. assert (n' = n) as -> by congruence. f_equal.
    destruct D2 as [[Q1 Q2]|(Q1 & m0 & m1 & Q2 & Q3 & ->)], B2 as [[Q1' Q2']|(Q1' & m0' & m1' & Q2' & Q3' & ->)]; try congruence.
    assert (m0' = m0) as ->; [|congruence].
    destruct Q2 as [(r0 & P1 & P2 & P3)|(P1 & P2)], Q2' as [(r0' & P1' & P2' & P3')|(P1' & P2')].
    + assert (r0' = r0) as -> by (apply (UR r0' r0 (r_expand r)); auto). congruence.
    + exfalso. destruct P1' as [_ P1']. destruct P2 as [P2 P2'']. destruct (P1' r0 P1 P2) as [P4 _]. auto.
    + exfalso. destruct P1 as [_ P1]. destruct P2' as [P2' P2'']. destruct (P1 r0' P1' P2') as [P4 _]. auto.
    + unfold built_in in P2, P2'. destruct P2 as [[X1 ->]|[X1 ->]], P2' as [[X2 ->]|[X2 ->]]; auto; rewrite X1 in X2; discriminate.
  - exfalso. apply (D4 n' mask'). exists ro'. auto.
  - exfalso. apply (B4 n mask). exists ro. auto.
  - assert (ro' = ro) as ->.
    { destruct (wf_overlays _ WF ro ro' _ _ _ _ _ _ D1 B1 D2 B2) as [?|NE]; [auto|]. exfalso. apply NE.
      apply N.le_antisymm; [eapply B6|eapply D6]; [exists ro|exists ro']; eauto. }
    assert (n' = n) as -> by (destruct B2, D2; congruence).
    assert (x0' = x0) as -> by eauto using extractor_of_fun. assert (m' = m) as -> by congruence. f_equal.
    unfold overlay_extractor in D5, B5. destruct (r_xform ro); [|congruence].
    destruct D5 as (c & ? & ->), B5 as (c' & ? & ->). congruence.
Qed.
End Total.

(** ** Answers but for the UID *)
Definition with_uid (u : N) (d : dinfo) : dinfo :=
  mkDI (d_mnemonic d) u (d_src_oi d) (d_dst_oi d) (d_sources d) (d_dests d) (d_srcT d) (d_dstT d) (d_addr d) (d_data d)
    (d_hint d) (d_immT d) (d_imm d) (d_soff d) (d_dsize d) (d_ext d).
Lemma info_uid mn uid x m ic : decode_info mn uid x m ic = let* d := decode_info mn 0 x m ic in Ok (with_uid uid d).
Proof.
  unfold decode_info.
  repeat match goal with |- rbind ?a _ = _ => destruct a; cbn [rbind]; try reflexivity end.
Qed.
Lemma answers_same y uid uid' ic r r' : answers y uid ic r -> answers y uid' ic r' -> same_answer r r'.
Proof.
  unfold answers. rewrite (info_uid _ uid), (info_uid _ uid').
  destruct (decode_info _ 0 _ _ _) as [d| | |]; cbn [rbind].
  - intros [a ->] [a' ->]. split; [reflexivity|]. split; [reflexivity|]. split; reflexivity.
  - intros -> ->. reflexivity.
  - intros -> ->. exact I.
  - intros -> ->. exact I.
Qed.

(** ** Order of the records *)
Lemma inst_meta_sub K K' r m : (forall r, In r K <-> In r K') -> inst_meta K r m -> inst_meta K' r m.
Proof.
  intros H [D|(D & m0 & m1 & D1 & D2 & D3)]; [left; auto|right]. split; [auto|]. exists m0, m1. split; [|auto].
  destruct D1 as [(r0 & Q1 & Q2)|[[Q1 Q2] Q3]]; [left; exists r0; split; [now apply H|auto]|right].
  split; [|auto]. split; [auto|]. intros r0 Hr0. apply Q2. now apply H.
Qed.
Lemma reads_sub K K' r e ic y : (forall r, In r K <-> In r K') -> reads K r e ic y -> reads K' r e ic y.
Proof.
  intros H.
  assert (HIT : forall mn b mask, overlay_hit K' mn b mask ic -> overlay_hit K mn b mask ic).
  { intros mn b mask (ro & Q1 & Q2). exists ro. split; [now apply H|auto]. }
  intros [((D1 & D2 & D3) & D4)|(ro & mask & D1 & D2 & D3)].
  - left. split; [split; [auto|split; [eapply inst_meta_sub; eauto|auto]]|]. intros mn mask Q. eapply D4, HIT, Q.
  - right. exists ro, mask. split; [now apply H|]. split; [auto|]. intros mn mask' Q. eapply D3, HIT, Q.
Qed.
Section Order.
Context (uids uids' : list (string * N)) (annos annos' : list (string * anno)) (nu nu' : N)
  (incl excl : list pattern) (recs recs' : list irec) (s s' : builder * tree).
Context (HN : 0 < nu < w32) (HN' : 0 < nu' < w32)
  (HD : make_decoder uids annos nu incl excl recs = Ok s)
  (HD' : make_decoder uids' annos' nu' incl excl recs' = Ok s')
  (HP : Permutation recs recs') (WF : well_formed (kept incl excl recs)) (SP : separated (encodings (kept incl excl recs'))).
Lemma well_formed_perm : well_formed (kept incl excl recs').
Proof.
  pose proof (kept_perm incl excl _ _ HP) as PK.
  assert (InK : forall r, In r (kept incl excl recs) <-> In r (kept incl excl recs'))
    by (intros r; split; apply Permutation_in; [|apply Permutation_sym]; exact PK).
  assert (SO : forall mn, sole (kept incl excl recs) mn -> sole (kept incl excl recs') mn).
  { unfold sole. intros mn (H1 & H2 & H3); (split; [auto|]); split; intros r Hr; try apply H2; try apply H3; now apply InK. }
  constructor.
  - exact SP.
  - apply (FOP_perm _ (encodings (kept incl excl recs))); [|apply encodings_perm, PK|apply WF].
    unfold tie. intros a b H (ic & Q). apply H. exists ic. tauto.
  - intros r mn Hr Hi EX. apply InK in Hr. destruct (wf_meta _ WF r mn Hr Hi EX) as ((H1 & H2) & H3). split; [split; [auto|]|].
    + intros r0 H. apply H2. now apply InK.
    + intros r0 mn0 H. apply H3. now apply InK.
  - intros r mn Hr Hi EX. apply InK in Hr. destruct (wf_expand _ WF r mn Hr Hi EX) as (H1 & [H2|[H2 H3]]).
    + split; auto.
    + split; [auto|]. right. split; [auto|]. intros r0 H. apply H3. now apply InK.
  - intros r mn base mask value Hr Ho. apply InK in Hr. destruct (wf_base _ WF _ _ _ _ _ Hr Ho) as [H1 H2]. auto.
  - intros r r' mn mn' base mask mask' ic Hr Hr'. apply InK in Hr, Hr'. exact (wf_overlays _ WF r r' mn mn' base mask mask' ic Hr Hr').
Qed.
Lemma order {A U} ic : same_answer (decode (A := A) (U := U) s ic) (decode (A := A) (U := U) s' ic).
Proof.
  pose proof well_formed_perm as WF'.
  pose proof (kept_perm incl excl _ _ HP) as PK.
  pose proof (encodings_perm _ _ PK) as PE.
  assert (InK : forall r, In r (kept incl excl recs) <-> In r (kept incl excl recs'))
    by (intros r; split; apply Permutation_in; [|apply Permutation_sym]; exact PK).
  destruct (outcome _ _ _ _ _ _ _ HN HD WF (A := A) (U := U) ic) as [[N1 ->]|(r & e & x & L & S & X & D)];
  destruct (outcome _ _ _ _ _ _ _ HN' HD' WF' (A := A) (U := U) ic) as [[N2 ->]|(r' & e' & x' & L' & S' & X' & D')].
  - reflexivity.
  - exfalso. apply (N1 e'); [|apply S']. eapply Permutation_in; [apply Permutation_sym, PE|apply S'].
  - exfalso. apply (N2 e); [|apply S]. eapply Permutation_in; [apply PE|apply S].
  - assert (e' = e) as ->.
    { apply (selected_unique incl excl recs ic); [apply WF| |exact S]. eapply selected_perm; [apply Permutation_sym, PE|exact S']. }
    assert (r' = r) as ->.
    { eapply (insts_unique _ _ _ _ _ _ _ HD (wf_cells _ WF) r' r (en_mn e)); [apply InK, L'|apply L|..];
        [apply (listed_mn r' e (proj2 L'))|apply (listed_mn r e (proj2 L))]. }
    assert (x' = x) as -> by eauto using extractor_of_fun.
    destruct D as [[D ->]|(D & y & uid & RY & AN & _)], D' as [[D' ->]|(D' & y' & uid' & RY' & AN' & _)]; try contradiction.
    + reflexivity.
    + assert (y' = y) as ->.
      { eapply (reads_fun _ _ _ _ _ _ _ HD WF r e ic); [exact L| |exact RY].
        eapply reads_sub; [|exact RY']. intros r0. symmetry. apply InK. }
      eapply answers_same; eauto.
Qed.
End Order.
