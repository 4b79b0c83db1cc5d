(** Decoding with a freshly configured decoder. *)
From Coq Require Import NArith ZArith Arith List Bool String Lia Permutation Sorted.
From Verif Require Import M_Base M_Field M_Forms M_Meta M_OperandInfo M_Extract M_Decoded M_Cache M_Registry M_Trie M_Builder M_DTable.
From Verif Require Import S_Bits L_Bits S_Trie S_Table L_Count L_Trie L_Table L_Calm.
Import ListNotations.
Local Open Scope N_scope.

(** ** A first decode *)
Lemma decode_pure {A U} s ic : decode (A := A) (U := U) s ic = pure_info (fst s) (snd s) ic.
Proof.
  unfold decode, get_info, dt_new. cbn [dt_oc]. unfold cache_lookup, cache_new.
  unfold tree_get, pure_info. cbn [dt_tree].
  destruct (tree_sel (snd s) ic) as [[mn p]| | |]; cbn [rbind]; try reflexivity.
  destruct (x_illop _ ic) as [[]| | |]; cbn [rbind]; try reflexivity.
  unfold leaf_get. cbn [dt_stash dt_b].
  assert (stash_lookup XS_HASH XS_MAP (fun k : N => k) (stash_new (V := info)) ic = None) as -> by reflexivity.
  destruct (let* f := get_fact (fst s) (pay_fact p) in leaf_info f mn ic _); reflexivity.
Qed.

Lemma fixed_mask_bits fm fl m : form_ok fm -> fixed_mask fm fl = Ok m ->
  forall i, N.testbit m i = true <-> exists n f, In n fl /\ named fm n f /\ f_rpos f <= i < f_rpos f + f_len f.
Proof.
  intros F. revert m. induction fl as [|n fl IH]; intros m H i; cbn [fixed_mask] in H.
  - assert (m = 0) by congruence. subst m. rewrite N.bits_0. split; [discriminate|intros (? & ? & [] & _)].
  - destruct (get_field fm n) as [f| | |] eqn:E; cbn in H; try discriminate.
    destruct (fixed_mask fm fl) as [m'| | |] eqn:E'; cbn in H; try discriminate.
    assert (m = N.lor (f_smask f) m') by congruence. subst m.
    destruct (get_field_in _ _ _ E) as [Hin Hnm]. destruct (form_ok_field _ _ F Hin) as [Hf Hl].
    rewrite N.lor_spec, f_smask_testbit by auto. rewrite orb_true_iff, (IH m' eq_refl).
    split.
    + intros [H1|(n0 & f0 & H0 & H1 & H2)]; [|exists n0, f0; auto with datatypes].
      exists n, f. split; [now left|]. split; [exact Hnm|]. lia.
    + intros (n0 & f0 & [->|H0] & N0 & H2); [left|right; eauto].
      destruct (named_get _ _ _ F N0) as (g & G & G1 & G2). rewrite E in G.
      assert (g = f) by congruence. subst g. lia.
Qed.

Definition leaf_after (b : builder) (i : nat) (mn : string) (ic : N) (x : Ext) : res info :=
  let* ill := x_illop x ic in
  if ill then Throw EIllegalOpcode else let* f := get_fact b i in leaf_info f mn ic x.

Section Configured.
Context (uids : list (string * N)) (annos : list (string * anno)) (nu : N)
  (incl excl : list pattern) (recs : list irec) (s : builder * tree).
Context (HD : make_decoder uids annos nu incl excl recs = Ok s)
  (HS : separated (encodings (kept incl excl recs))).
Let K := kept incl excl recs.
Let E := encodings K.

Lemma listed_in r e : listed K r e -> In e E.
Proof. intros [H1 H2]. apply in_flat_map. eauto. Qed.
Lemma listed_mn r e : In e (rec_encs r) -> is_inst r (en_mn e) /\ en_fixed e = r_fixed r /\
  exists n, get_form n = Ok (en_form e).
Proof.
  unfold rec_encs. destruct (r_mn r) as [mn|] eqn:E1; [|intros []]. destruct (r_overlay r) eqn:E2; [intros []|].
  destruct (r_form r) as [fn|]; [|intros []]. destruct (get_form fn) as [fm| | |] eqn:E3; [|intros []..].
  intros H. apply in_map_iff in H as (st & <- & _). split; [split; auto|]. split; [auto|]. exists fn. exact E3.
Qed.

Lemma decode_cases ic :
  ((forall e, In e E -> ~ matches e ic) /\ pure_info (fst s) (snd s) ic = Throw EUnknownOpcode) \/
  exists P r e x i, binv P (fst s) /\ (forall r, In r P <-> In r K /\ r_mn r <> None) /\
    listed K r e /\ selected E e ic /\ extractor_of r e x /\ calmX x /\ (exists b, x_illop x ic = Ok b) /\
    reg_of P (fst s) r (en_mn e) i /\
    pure_info (fst s) (snd s) ic = leaf_after (fst s) i (en_mn e) ic x.
Proof.
  destruct s as [b t]. unfold make_decoder in HD. cbn [fst snd].
  destruct (builder_new uids annos nu) as [b0| | |] eqn:EB; cbn [rbind] in HD; try discriminate.
  destruct (configured _ _ _ _ _ _ _ _ _ EB HD HS) as (X & P & T & M & I & F & R).
  assert (EE : forall e, In e E <-> exists x, In x X /\ fst x = e).
  { intros e. unfold E, K. rewrite <- M, in_map_iff. split; intros (x & Q1 & Q2); exists x; auto. }
  pose proof (tree_sel_ok t X ic T) as TS. unfold pure_info.
  destruct (tree_sel t ic) as [[mn q]|ex| |]; try contradiction.
  - right. destruct TS as (x & Hx & -> & FP & MT & BEST).
    rewrite Forall_forall in F. destruct (F x Hx) as (r & Hr & Hi & He & Hc & Hf & RG).
    assert (pay_fact q = pay_fact (snd x) /\ extractor_of r (fst x) (ext (pay_cls q) (pay_ffm q))) as [Q1 Q2].
    { destruct (listed_mn _ _ He) as (_ & _ & fn & Hfn).
      unfold final_pay, has_fixed in FP. destruct (en_fixed (fst x)) as [|f0 fr] eqn:EF.
      - subst q. split; [auto|]. exists (pay_cls (snd x)). split; [auto|]. left. split; [auto|]. now rewrite Hf.
      - destruct FP as (m & FM & ->). split; [reflexivity|]. exists (pay_cls (snd x)). split; [auto|]. right.
        split; [congruence|]. exists m. split; [|reflexivity]. intros i. rewrite EF.
        apply (fixed_mask_bits (en_form (fst x))); [exact (registry_ok _ _ Hfn)|exact FM]. }
    exists P, r, (fst x), (ext (pay_cls q) (pay_ffm q)), (pay_fact q).
    split; [auto|]. split; [exact R|]. split; [split; [apply R; auto|auto]|]. split.
    { split; [apply EE; eauto|]. split; [auto|]. intros e' He' Hm'. apply EE in He' as (y & Hy & <-). auto. }
    split; [auto|]. split; [apply ext_calm|]. split; [apply illop_total|]. split; [rewrite Q1; auto|].
    cbn [rbind]. reflexivity.
  - left. destruct ex; try contradiction. split; [|reflexivity]. intros e He.
    apply EE in He as (x & Hx & <-). auto.
Qed.

Lemma decode_info_fields mn uid x m ic d : decode_info mn uid x m ic = Ok d -> d_mnemonic d = mn /\ d_uid d = uid.
Proof.
  unfold decode_info. intros H.
  repeat match type of H with (rbind ?a _) = Ok _ => destruct a; cbn [rbind] in H; try discriminate end.
  match type of H with Ok ?v = Ok d => assert (d = v) as -> by congruence end. split; reflexivity.
Qed.
Lemma leaf_calm f mn ic x : calmX x -> calm (leaf_info f mn ic x).
Proof.
  intros C. unfold leaf_info. apply calm_bind; [unfold fact_uid; destruct (mfind _ _); [|exact I]; unfold rassert; destruct (negb _); exact I|intros uid].
  apply calm_bind.
  { unfold fact_anno. unfold rassert. destruct (fc_annos f); [exact I|]. cbn [rbind]. destruct (mfind _ _); [exact I|]. destruct (mfind _ _); exact I. }
  intros a.
  destruct (ov_find _ _) as [o|]; [destruct (String.eqb _ _); [destruct (ov_x o)|]|]; cbn beta iota zeta;
    (apply calm_bind; [apply calm_decode_info; auto using ext_calm|intros; exact I]).
Qed.

Lemma overlay_parse_inv jo base mask v : overlay_parse jo = Ok (base, mask, v) <->
  jo_base jo = Some base /\ jo_match jo = Some [mask; v].
Proof.
  unfold overlay_parse. split.
  - destruct (jo_base jo); [|discriminate]. destruct (jo_match jo) as [[|m [|w [|? ?]]]|]; try discriminate.
    intros H. split; congruence.
  - intros [-> ->]. reflexivity.
Qed.

(** What the leaf reports: the base instruction or the first overlay in its list that hits,
    if that is an overlay of this mnemonic. *)
Lemma leaf_info_cases f mn ic x v : leaf_info f mn ic x = Ok v ->
  exists uid a, fact_uid f mn = Ok uid /\ fact_anno f mn = Ok a /\ i_icode v = ic /\
  ((exists o, ov_find (fc_olays f) ic = Some o /\ ov_base o = mn /\
      decode_info (ov_mn o) (ov_uid o) (match ov_x o with Some c => ext c 0 | None => x end) (ov_meta o) ic = Ok (i_di v) /\
      i_meta v = ov_meta o /\ i_anno v = ov_anno o) \/
   ((forall o, ov_find (fc_olays f) ic = Some o -> ov_base o <> mn) /\
      decode_info mn uid x (fact_meta f mn) ic = Ok (i_di v) /\ i_meta v = fact_meta f mn /\ i_anno v = a /\ i_x v = x)).
Proof.
  unfold leaf_info. intros H. destruct (fact_uid f mn) as [uid| | |]; cbn [rbind] in H; try discriminate.
  destruct (fact_anno f mn) as [a| | |]; cbn [rbind] in H; try discriminate.
  exists uid, a. split; [auto|]. split; [auto|].
  destruct (ov_find (fc_olays f) ic) as [o|] eqn:EO.
  - destruct (String.eqb (ov_base o) mn) eqn:EB; cbn beta iota zeta in H.
    + apply String.eqb_eq in EB.
      destruct (decode_info _ _ _ _ _) as [di| | |] eqn:ED; cbn [rbind] in H; try discriminate.
      match type of H with Ok ?w = Ok v => assert (v = w) as -> by congruence end. cbn [i_icode i_di i_meta i_anno].
      split; [auto|]. left. exists o. auto.
    + apply String.eqb_neq in EB.
      destruct (decode_info _ _ _ _ _) as [di| | |] eqn:ED; cbn [rbind] in H; try discriminate.
      match type of H with Ok ?w = Ok v => assert (v = w) as -> by congruence end. cbn [i_icode i_di i_meta i_anno i_x].
      split; [auto|]. right. split; [intros o' Q; congruence|auto].
  - cbn beta iota zeta in H.
    destruct (decode_info _ _ _ _ _) as [di| | |] eqn:ED; cbn [rbind] in H; try discriminate.
    match type of H with Ok ?w = Ok v => assert (v = w) as -> by congruence end. cbn [i_icode i_di i_meta i_anno i_x].
    split; [auto|]. right. split; [discriminate|auto].
Qed.

Lemma overlay_of_hit P b r o ic : (forall r, In r P <-> In r K /\ r_mn r <> None) -> In r P ->
  overlay_of b r o -> ov_match ic o = true -> In r K /\ overlays r (ov_mn o) (ov_base o) (ov_mask o) (N.land ic (ov_mask o)).
Proof.
  intros HP Hr (H1 & (jo & H2 & H3) & _) HM. split; [apply HP; auto|].
  apply overlay_parse_inv in H3 as [H3 H4]. apply N.eqb_eq in HM. rewrite HM. split; [auto|exists jo; auto].
Qed.

Lemma decode_ok_cases {A U} ic v : decode (A := A) (U := U) s ic = Ok v ->
  exists P r e x i f, binv P (fst s) /\ (forall r, In r P <-> In r K /\ r_mn r <> None) /\
    listed K r e /\ selected E e ic /\ extractor_of r e x /\ x_illop x ic = Ok false /\
    reg_of P (fst s) r (en_mn e) i /\ nth_error (b_facts (fst s)) i = Some f /\ leaf_info f (en_mn e) ic x = Ok v.
Proof.
  intros H. rewrite decode_pure in H. destruct (decode_cases ic) as [[_ Q]|(P & r & e & x & i & I & HP & L & S & X & C & (bb & IL) & RG & Q)].
  - congruence.
  - rewrite Q in H. unfold leaf_after in H. rewrite IL in H. cbn [rbind] in H. destruct bb; [discriminate|].
    unfold get_fact in H. destruct (nth_error _ i) as [f|] eqn:EF; cbn [rbind] in H; [|discriminate].
    exists P, r, e, x, i, f. do 8 (split; [assumption|]). assumption.
Qed.

Lemma leaf_reported P i f e ic x v : binv P (fst s) -> (forall r, In r P <-> In r K /\ r_mn r <> None) ->
  nth_error (b_facts (fst s)) i = Some f -> leaf_info f (en_mn e) ic x = Ok v -> reported K v e ic.
Proof.
  intros I HP Hf H. destruct (leaf_info_cases _ _ _ _ _ H) as (uid & a & _ & _ & IC & D). split; [exact IC|].
  destruct D as [(o & O1 & O2 & O3 & _)|(_ & O3 & _)]; apply decode_info_fields in O3 as [-> _]; [right|auto].
  apply find_some in O1 as [O1 O4]. destruct (bi_ols _ _ _ I _ _ _ Hf O1) as (_ & r & Hr & OV).
  exists (ov_mask o), r. rewrite <- O2. eapply overlay_of_hit; eauto.
Qed.

Lemma C02_lemma {A U} ic v : decode (A := A) (U := U) s ic = Ok v ->
  exists r e, listed K r e /\ matches e ic /\ selected E e ic /\ reported K v e ic.
Proof.
  intros H. destruct (decode_ok_cases _ _ H) as (P & r & e & x & i & f & I & HP & L & S & X & IL & RG & Hf & LI).
  exists r, e. split; [auto|]. split; [apply S|]. split; [auto|]. eapply leaf_reported; eauto.
Qed.
Lemma C03_lemma {A U} ic : decode (A := A) (U := U) s ic = Throw EUnknownOpcode <-> forall e, In e E -> ~ matches e ic.
Proof.
  rewrite decode_pure. destruct (decode_cases ic) as [[Q1 Q2]|(P & r & e & x & i & I & HP & L & S & X & C & (bb & IL) & RG & Q)].
  - rewrite Q2. tauto.
  - rewrite Q. split.
    + intros H. exfalso. unfold leaf_after in H. rewrite IL in H. cbn [rbind] in H. destruct bb; [discriminate|].
      unfold get_fact in H. destruct (nth_error _ i) as [f|]; cbn [rbind] in H; [|discriminate].
      pose proof (leaf_calm f (en_mn e) ic x C) as CA. rewrite H in CA. exact CA.
    + intros H. exfalso. apply (H e); apply S.
Qed.
Lemma C07_lemma {A U} ic :
  (forall e, In e E -> ~ matches e ic) /\ decode (A := A) (U := U) s ic <> Throw EIllegalOpcode \/
  exists r e x, listed K r e /\ selected E e ic /\ extractor_of r e x /\
    (decode (A := A) (U := U) s ic = Throw EIllegalOpcode <-> reserved x ic) /\
    (forall v, decode (A := A) (U := U) s ic = Ok v -> reported K v e ic).
Proof.
  rewrite decode_pure. destruct (decode_cases ic) as [[Q1 Q2]|(P & r & e & x & i & I & HP & L & S & X & C & (bb & IL) & RG & Q)].
  - left. split; [auto|]. congruence.
  - right. exists r, e, x. split; [auto|]. split; [auto|]. split; [auto|]. rewrite Q. unfold leaf_after, reserved. rewrite IL. cbn [rbind].
    unfold get_fact. destruct bb.
    + split; [split; auto|]. discriminate.
    + destruct (nth_error _ i) as [f|] eqn:EF; cbn [rbind]; [|split; [split; discriminate|discriminate]].
      split; [|intros v Hv; eapply leaf_reported; eauto].
      split; [|discriminate]. intros H.
      pose proof (leaf_calm f (en_mn e) ic x C) as CA. rewrite H in CA. destruct CA.
Qed.

(** ** With no ties the selected encoding is the one *)
Lemma selected_unique ic e e' : no_ties E -> selected E e ic -> selected E e' ic -> e = e'.
Proof.
  intros NT (H1 & H2 & H3) (H1' & H2' & H3'). destruct (ForallOrdPairs_In NT e e' H1 H1') as [Q|[Q|Q]]; [auto| |];
    exfalso; apply Q; exists ic; auto.
Qed.
Lemma sole_sub P mn : (forall r, In r P <-> In r K /\ r_mn r <> None) -> sole K mn -> sole P mn.
Proof.
  intros HP (C & S1 & S2). split; [auto|]. split; intros r Hr; [apply S1|apply S2]; apply HP; auto.
Qed.
Lemma find_sorted l ic o : StronglySorted ov_ge l -> ov_find l ic = Some o ->
  forall o', In o' l -> ov_match ic o' = true -> ov_nbits o' <= ov_nbits o.
Proof.
  unfold ov_find. induction 1 as [|a l S IH F]; [discriminate|]. cbn. destruct (ov_match ic a) eqn:EM.
  - intros Q o' [<-|Ho'] Hm; assert (o = a) as -> by congruence; [lia|]. rewrite Forall_forall in F. apply (F o' Ho').
  - intros Q o' [<-|Ho'] Hm; [congruence|auto].
Qed.

(** ** What the identity and the meta-data are *)
Lemma describes {A U} ic v : decode (A := A) (U := U) s ic = Ok v ->
  exists r e, listed K r e /\ selected E e ic /\ i_icode v = ic /\
    ((d_mnemonic (i_di v) = en_mn e /\
      (sole K (en_mn e) -> forall mn mask, ~ overlay_hit K mn (en_mn e) mask ic) /\
      ((r_expand r <> ""%string -> ~ custom (en_mn e)) -> d_uid (i_di v) = lookup_uid s (uid_name r (en_mn e))) /\
      ((if String.eqb (r_expand r) "" then uniform K r (en_mn e) else ~ custom (en_mn e) /\ (sole K (r_expand r) \/ untouched K (r_expand r))) ->
       describes_base K r e ic v)) \/
     (exists ro mask, In ro K /\ describes_overlay r e ro mask ic v /\ d_uid (i_di v) = lookup_uid s (d_mnemonic (i_di v)) /\
        (sole K (en_mn e) -> forall mn' mask', overlay_hit K mn' (en_mn e) mask' ic -> count1bits mask' <= count1bits mask))).
Proof.
  intros H. destruct (decode_ok_cases _ _ H) as (P & r & e & x & i & f & I & HP & L & S & X & IL & RG & Hf & LI).
  exists r, e. split; [auto|]. split; [auto|].
  destruct RG as (f' & m & Hf' & OM & BM & AN & (u0 & UI) & RN & RE & RX & RU). assert (f' = f) as -> by congruence.
  destruct (leaf_info_cases _ _ _ _ _ LI) as (uid & a & FU & FA & IC & D). split; [exact IC|].
  destruct (listed_mn _ _ (proj2 L)) as (HI & _).
  assert (HR : In r P) by (apply HP; split; [apply L|destruct HI; congruence]).
  (* overlays of this base are in this factory *)
  assert (IN : sole K (en_mn e) -> forall mn mask, overlay_hit K mn (en_mn e) mask ic -> r_expand r = ""%string /\
     exists o, In o (fc_olays f) /\ ov_nbits o = count1bits mask /\ ov_match ic o = true).
  { intros SO mn mask (ro & Q1 & (Q2 & jo & Q3 & Q4 & Q5)). pose proof (sole_sub _ _ HP SO) as SP.
    destruct (bi_overlays _ _ _ I ro mn) as (j & g & o & G1 & G2 & G3); [apply HP; split; [auto|congruence]|congruence|auto|].
    pose proof G3 as (_ & (jo' & G4 & G5) & G11 & _). apply overlay_parse_inv in G5 as [G5 G6].
    assert (jo' = jo) as -> by congruence. assert (ov_base o = en_mn e) as G7 by congruence.
    destruct (bi_ols _ _ _ I _ _ _ G1 G2) as (G8 & _). rewrite G7 in G8.
    assert (ov_mask o = mask /\ ov_value o = N.land ic mask) as [G9 G10] by (split; congruence).
    assert (r_expand r = ""%string) as EX.
    { destruct (bi_keys _ _ _ I _ _ G8) as [C|(r0 & K1 & K2 & K3 & K4)]; [destruct SP; tauto|].
      assert (r_mn r0 = Some (en_mn e)) as K5 by (destruct K4 as [K4|K4]; [auto|now apply SP]).
      rewrite (bi_uniq _ _ _ I r r0 (en_mn e)); auto. split; auto. }
    split; [exact EX|].
    destruct (RN EX) as (RI & _). assert (j = i) as -> by congruence. assert (g = f) as -> by congruence.
    exists o. split; [auto|]. split; [congruence|]. unfold ov_match. apply N.eqb_eq. congruence. }
  destruct D as [(o & O1 & O2 & O3 & O4 & _)|(O1 & O3 & O4 & _)]; pose proof O3 as M; apply decode_info_fields in M as [M1 M2].
  - right. pose proof O1 as O0. apply find_some in O1 as [O1 O5]. destruct (bi_ols _ _ _ I _ _ _ Hf O1) as (_ & ro & Hro & OV).
    destruct OV as (V1 & (jo & V2 & V3) & V4 & V5 & V6 & bm & V7 & V8). apply overlay_parse_inv in V3 as [V3 V3'].
    apply N.eqb_eq in O5.
    exists ro, (ov_mask o). split; [now apply HP|]. split; [split; [|split]|split].
    + rewrite O5. split; [congruence|]. exists jo. rewrite <- O2. auto.
    + exists m. split; [auto|]. rewrite O4. rewrite O2 in V7. congruence.
    + exists x, (match ov_x o with Some c => ext c 0 | None => x end). split; [auto|]. split.
      * unfold overlay_extractor. destruct (r_xform ro) as [n|]; [|now rewrite V6].
        destruct V6 as (c & V6 & ->). eauto.
      * unfold read_by. rewrite M1, M2, O4. exact O3.
    + rewrite M1, M2. unfold lookup_uid, ir_uid. now rewrite V5.
    + intros SO mn' mask' Q. destruct (IN SO _ _ Q) as (_ & o' & Q1 & Q2 & Q3). rewrite <- Q2, <- V4.
      apply (find_sorted (fc_olays f) ic o); auto. eapply bi_sorted; eauto.
  - left. split; [auto|]. split; [|split].
    + intros SO mn mask Q. destruct (IN SO _ _ Q) as (EX & o & Q1 & Q2 & Q3). pose proof (sole_sub _ _ HP SO) as SP.
      destruct (ov_find (fc_olays f) ic) as [o'|] eqn:EO.
      * apply (O1 o' eq_refl). apply find_some in EO as [EO _]. destruct (bi_ols _ _ _ I _ _ _ Hf EO) as (G1 & _).
        destruct (RN EX) as (_ & _ & NM & _). destruct (NM SP) as (NM1 & _).
        destruct (bi_reg _ _ _ I _ _ G1) as (g & Hg & D). assert (g = f) as -> by congruence.
        destruct D as [D|(r0 & D1 & D2 & D3)]; [congruence|]. exfalso. rewrite NM1 in D2, D3. apply D3. now apply SP.
      * unfold ov_find in EO. pose proof (find_none _ _ EO o Q1). congruence.
    + intros NC. rewrite M2. unfold uid_name, lookup_uid, ir_uid. unfold fact_uid in FU.
      assert (UU : forall u, mfind (fc_uids f) (en_mn e) = Some u -> uid = u).
      { intros u Hu. rewrite Hu in FU. unfold rassert in FU. destruct (negb _); cbn [rbind] in FU; congruence. }
      destruct (String.eqb (r_expand r) "") eqn:EX.
      * apply String.eqb_eq in EX. destruct (RN EX) as (_ & (u & R3 & R4 & _) & _). rewrite R4. auto.
      * apply String.eqb_neq in EX. destruct (RE EX (NC EX)) as ((u & R3 & R4) & _). rewrite R4. auto.
    + intros W. split; [auto|]. split; [|exists x; split; [auto|]; unfold read_by; rewrite M1, M2, O4; exact O3].
      unfold inst_meta. rewrite O4. unfold fact_meta. destruct (String.eqb (r_expand r) "") eqn:EX.
      * apply String.eqb_eq in EX. left. split; [auto|]. destruct (RN EX) as (_ & _ & _ & R4). destruct W as ((W1 & W2) & W3).
        assert (fc_name f = fname_of r (en_mn e)) as FN.
        { apply R4. split; [auto|]. intros r0 Hr0. apply W2. now apply HP. }
        destruct (mfind (fc_metas f) (en_mn e)) as [mm|] eqn:EM.
        -- exfalso. destruct (bi_fmetas _ _ _ I _ _ _ _ Hf EM) as (r2 & Q1 & Q2 & Q3).
           apply Q3. rewrite <- EX. f_equal. apply (bi_uniq _ _ _ I r2 r (en_mn e)); auto.
        -- destruct (bi_orig _ _ _ I _ _ Hf) as [C|(_ & r1 & mn1 & Q1 & Q2 & Q3 & Q4 & Q5 & Q6)].
           { exfalso. apply W1. rewrite <- FN. now apply built_in_custom in C. }
           rewrite <- Q5. symmetry. apply (W3 r1 mn1); auto; [now apply HP|congruence].
      * apply String.eqb_neq in EX. right. split; [auto|]. destruct W as (NC & SO).
        destruct (RE EX NC) as (_ & R2). exists (fc_meta f), m. split; [|split; [auto|now rewrite R2]].
        destruct SO as [SO|UT].
        -- destruct (RX EX (sole_sub _ _ HP SO)) as (r0 & Q1 & Q2 & Q3 & Q4). left.
           exists r0. split; [now apply HP|]. auto.
        -- right. split; [auto|]. apply (RU EX). destruct UT as [UT1 UT2]. split; [auto|]. intros r0 Hr0. apply UT2. now apply HP.
Qed.


Lemma C19_lemma {A U} ic v e : decode (A := A) (U := U) s ic = Ok v -> no_ties E -> selected E e ic ->
  sole K (en_mn e) ->
  (d_mnemonic (i_di v) = en_mn e /\ (forall mn mask, ~ overlay_hit K mn (en_mn e) mask ic)) \/
  (exists mask, overlay_hit K (d_mnemonic (i_di v)) (en_mn e) mask ic /\
     forall mn' mask', overlay_hit K mn' (en_mn e) mask' ic -> count1bits mask' <= count1bits mask).
Proof.
  intros H NT S SO. destruct (describes _ _ H) as (r & e' & L & S' & IC & D).
  assert (e' = e) as -> by eauto using selected_unique.
  destruct D as [(D1 & D2 & _)|(ro & mask & D1 & D2 & D3 & D4)]; [left; split; [exact D1|exact (D2 SO)]|right].
  exists mask. split; [|exact (D4 SO)]. exists ro. split; [exact D1|exact (proj1 D2)].
Qed.
Lemma opcode_lemma r mn : In r K -> is_inst r mn -> r_expand r = ""%string -> sole K mn ->
  get_opcode s mn = Ok (r_stencil r).
Proof.
  destruct s as [b t] eqn:Es. unfold make_decoder in HD.
  destruct (builder_new uids annos nu) as [b0| | |] eqn:EB; cbn [rbind] in HD; try discriminate.
  destruct (configured _ _ _ _ _ _ _ _ _ EB HD HS) as (X & P & _ & _ & I & _ & HP).
  intros Hr HI EX SO. destruct (bi_insts _ _ _ I r mn) as (i & f & m & Hf & _ & _ & _ & _ & RN & _); [apply HP; split; [auto|destruct HI; congruence]|auto|].
  destruct (RN EX) as (R1 & _ & R3 & _). destruct (R3 (sole_sub _ _ HP SO)) as (_ & _ & N3).
  unfold get_opcode, get_fact. cbn [fst]. rewrite R1, Hf. cbn [rbind]. congruence.
Qed.
End Configured.

(** ** Order of the records *)
Lemma but_uid_info mn uid x m ic d : decode_info mn uid x m ic = Ok d -> decode_info mn 0 x m ic = Ok (but_uid d).
Proof.
  unfold decode_info. intros H.
  repeat match type of H with (rbind ?a _) = Ok _ => destruct a; cbn [rbind] in H |- *; try discriminate end.
  match type of H with Ok ?v = Ok d => assert (d = v) as -> by congruence end. reflexivity.
Qed.
Lemma FOP_perm {T} (R : T -> T -> Prop) l l' : (forall a b, R a b -> R b a) -> Permutation l l' ->
  ForallOrdPairs R l -> ForallOrdPairs R l'.
Proof.
  intros Sy. induction 1 as [|a l l' P IH|a b l|l l' l'' P1 IH1 P2 IH2]; intros H; auto.
  - inversion H as [|? ? F T0]; subst. constructor; [|auto]. rewrite Forall_forall in F |- *.
    intros x Hx. apply F. eapply Permutation_in; [apply Permutation_sym|]; eauto.
  - inversion H as [|? ? F T0]; subst. inversion T0 as [|? ? F' T1]; subst. inversion F; subst.
    repeat constructor; auto.
Qed.
Lemma FOP_impl {T} (R R' : T -> T -> Prop) l : (forall a b, R a b -> R' a b) -> ForallOrdPairs R l -> ForallOrdPairs R' l.
Proof. intros H. induction 1 as [|a l F T0 IH]; constructor; [|exact IH]. eapply Forall_impl; [|exact F]. apply H. Qed.
Lemma encodings_perm K K' : Permutation K K' -> Permutation (encodings K) (encodings K').
Proof.
  unfold encodings. induction 1; cbn [flat_map]; eauto using Permutation_app, Permutation_trans.
  rewrite !app_assoc. apply Permutation_app_tail, Permutation_app_comm.
Qed.
Lemma kept_perm incl excl l l' : Permutation l l' -> Permutation (kept incl excl l) (kept incl excl l').
Proof.
  unfold kept. induction 1 as [|a l l' P IH|a b l|l l' l'' P1 IH1 P2 IH2]; cbn [filter]; eauto using Permutation_trans.
  - destruct (wantedb _ _ _); auto.
  - do 2 destruct (wantedb _ _ _); auto. apply perm_swap.
Qed.
Lemma unamb_separated E E' : Permutation E E' -> unambiguous E -> separated E'.
Proof.
  intros P H. apply (FOP_impl (fun e e' => clear e e' /\ clear e' e)); [tauto|]. apply (FOP_perm _ E); auto. tauto.
Qed.
Lemma fixed_bits_fun e m m' : fixed_bits e m -> fixed_bits e m' -> m = m'.
Proof.
  intros H H'. apply N.bits_inj. intros i. specialize (H i). specialize (H' i).
  destruct (N.testbit m i), (N.testbit m' i); auto; [symmetry|]; tauto.
Qed.
Lemma extractor_of_fun r e x x' : extractor_of r e x -> extractor_of r e x' -> x = x'.
Proof.
  intros (c & H1 & D) (c' & H1' & D'). assert (c' = c) as -> by congruence.
  destruct D as [[D1 D2]|(D1 & m & D2 & D3)], D' as [[D1' D2']|(D1' & m' & D2' & D3')]; try congruence.
  assert (m' = m) as -> by eauto using fixed_bits_fun. congruence.
Qed.

Lemma selected_perm E E' e ic : Permutation E E' -> selected E e ic -> selected E' e ic.
Proof.
  intros P (H1 & H2 & H3). split; [eapply Permutation_in; eauto|]. split; [auto|]. intros e' He'. apply H3.
  eapply Permutation_in; [apply Permutation_sym|]; eauto.
Qed.
Lemma insts_unique uids annos nu incl excl recs s :
  make_decoder uids annos nu incl excl recs = Ok s -> separated (encodings (kept incl excl recs)) ->
  forall r r' mn, In r (kept incl excl recs) -> In r' (kept incl excl recs) -> is_inst r mn -> is_inst r' mn -> r = r'.
Proof.
  destruct s as [b t]. unfold make_decoder. intros HD HS.
  destruct (builder_new uids annos nu) as [b0| | |] eqn:EB; cbn [rbind] in HD; try discriminate.
  destruct (configured _ _ _ _ _ _ _ _ _ EB HD HS) as (X & P & _ & _ & I & _ & HP).
  intros r r' mn H1 H2 H3 H4. apply (bi_uniq _ _ _ I r r' mn); auto; apply HP; (split; [auto|]); destruct H3, H4; congruence.
Qed.

Section Order.
Context (uids uids' : list (string * N)) (annos annos' : list (string * anno)) (nu nu' : N)
  (incl excl : list pattern) (recs recs' : list irec) (s s' : builder * tree).
Context (HD : make_decoder uids annos nu incl excl recs = Ok s)
  (HD' : make_decoder uids' annos' nu' incl excl recs' = Ok s')
  (HP : Permutation recs recs') (WF : well_formed (kept incl excl recs)) (SP : separated (encodings (kept incl excl recs'))).
Let K := kept incl excl recs.
Let K' := kept incl excl recs'.
Let E := encodings K.
Let E' := encodings K'.
Local Lemma PK : Permutation K K'. Proof. now apply kept_perm. Qed.
Local Lemma PE : Permutation E E'. Proof. apply encodings_perm, PK. Qed.
Local Lemma InK r : In r K <-> In r K'.
Proof. split; apply Permutation_in; [|apply Permutation_sym]; apply PK. Qed.
Local Lemma S1 : separated E. Proof. apply WF. Qed.
Local Lemma S2 : separated E'.
Proof. exact SP. Qed.
Local Lemma sole_K mn : sole K mn <-> sole K' mn.
Proof.
  unfold sole. split; intros (H1 & H2 & H3); (split; [auto|]); split; intros r Hr; try apply H2; try apply H3; now apply InK.
Qed.
Local Lemma untouched_K mn : untouched K mn <-> untouched K' mn.
Proof. unfold untouched. split; intros (H1 & H2); (split; [auto|]); intros r Hr; apply H2; now apply InK. Qed.
Local Lemma uniform_K r mn : uniform K r mn <-> uniform K' r mn.
Proof.
  unfold uniform, alone. split; intros ((H1 & H2) & H3); (split; [split; [auto|]|]).
  - intros r0 H. apply H2; now apply InK.
  - intros r0 mn0 H. apply H3; now apply InK.
  - intros r0 H. apply H2; now apply InK.
  - intros r0 mn0 H. apply H3; now apply InK.
Qed.

Lemma C05_unknown {A U} ic : decode (A := A) (U := U) s ic = Throw EUnknownOpcode <-> decode (A := A) (U := U) s' ic = Throw EUnknownOpcode.
Proof.
  rewrite (C03_lemma _ _ _ _ _ _ _ HD S1), (C03_lemma _ _ _ _ _ _ _ HD' S2). fold K K' E E'.
  split; intros H e He; apply H; eapply Permutation_in; try exact He; [apply Permutation_sym|]; apply PE.
Qed.
Lemma unique_r r r' mn : In r K -> In r' K -> is_inst r mn -> is_inst r' mn -> r = r'.
Proof. apply (insts_unique _ _ _ _ _ _ _ HD S1). Qed.
Lemma unique_e e e' ic : selected E e ic -> selected E' e' ic -> e' = e.
Proof.
  intros H H'. apply (selected_unique incl excl recs ic); [apply WF| |exact H]. fold K E.
  eapply selected_perm; [apply Permutation_sym, PE|exact H'].
Qed.
Lemma unique_listed r r' e : listed K r e -> listed K' r' e -> r' = r.
Proof.
  intros [H1 H2] [H1' H2']. apply (unique_r r' r (en_mn e)); [now apply InK|auto| |];
    [apply (listed_mn r' e H2')|apply (listed_mn r e H2)].
Qed.
Lemma C05_illegal {A U} ic : decode (A := A) (U := U) s ic = Throw EIllegalOpcode <-> decode (A := A) (U := U) s' ic = Throw EIllegalOpcode.
Proof.
  destruct (C07_lemma _ _ _ _ _ _ _ HD S1 (A := A) (U := U) ic) as [[N1 N2]|(r & e & x & L & S & X & I & _)];
  destruct (C07_lemma _ _ _ _ _ _ _ HD' S2 (A := A) (U := U) ic) as [[N1' N2']|(r' & e' & x' & L' & S' & X' & I' & _)].
  - tauto.
  - exfalso. apply (N1 e'); [|apply S']. eapply Permutation_in; [apply Permutation_sym, PE|apply S'].
  - exfalso. apply (N1' e); [|apply S]. eapply Permutation_in; [apply PE|apply S].
  - assert (e' = e) as -> by exact (unique_e _ _ _ S S'). assert (r' = r) as -> by exact (unique_listed _ _ _ L L').
    assert (x' = x) as -> by eauto using extractor_of_fun. rewrite I, I'. tauto.
Qed.
Lemma C05_lemma {A U} ic v v' : decode (A := A) (U := U) s ic = Ok v -> decode (A := A) (U := U) s' ic = Ok v' ->
  but_uid (i_di v) = but_uid (i_di v') /\ i_meta v = i_meta v'.
Proof.
  intros H H'. destruct (describes _ _ _ _ _ _ _ HD S1 _ _ H) as (r & e & L & S & IC & D).
  destruct (describes _ _ _ _ _ _ _ HD' S2 _ _ H') as (r' & e' & L' & S' & IC' & D').
  assert (e' = e) as -> by exact (unique_e _ _ _ S S'). assert (r' = r) as -> by exact (unique_listed _ _ _ L L').
  destruct (listed_mn r e (proj2 L)) as (HI & _). destruct L as [HR _].
  assert (NOT : forall mn mask, overlay_hit K mn (en_mn e) mask ic -> sole K (en_mn e)).
  { intros mn mask (ro & Q1 & Q2). eapply wf_base; eauto. }
  assert (HIT : forall mn mask, overlay_hit K mn (en_mn e) mask ic <-> overlay_hit K' mn (en_mn e) mask ic).
  { intros mn mask. split; intros (ro & Q1 & Q2); exists ro; (split; [now apply InK|auto]). }
  assert (RD : forall x, read_by x ic v -> read_by x ic v' -> d_mnemonic (i_di v) = d_mnemonic (i_di v') -> i_meta v = i_meta v' ->
               but_uid (i_di v) = but_uid (i_di v')).
  { intros x Q1 Q2 Q3 Q4. apply but_uid_info in Q1, Q2. rewrite Q3, Q4 in Q1. congruence. }
  destruct D as [(M1 & M2 & _ & M3)|(ro & mask & M1 & M2 & _ & M3)], D' as [(M1' & M2' & _ & M3')|(ro' & mask' & M1' & M2' & _ & M3')].
  - assert (W : if String.eqb (r_expand r) "" then uniform K r (en_mn e) else ~ custom (en_mn e) /\ (sole K (r_expand r) \/ untouched K (r_expand r))).
    { destruct (String.eqb (r_expand r) "") eqn:EX; [apply String.eqb_eq in EX; eapply wf_meta|apply String.eqb_neq in EX; eapply wf_expand]; eauto. }
    destruct (M3 W) as (_ & B1 & x & B2 & B3).
    destruct M3' as (_ & B1' & x' & B2' & B3').
    { destruct (String.eqb _ _); [now apply uniform_K|split; [apply W|destruct W as [_ [W|W]]; [left; now apply sole_K|right; now apply untouched_K]]]. }
    assert (x' = x) as -> by eauto using extractor_of_fun.
    assert (MM : i_meta v = i_meta v').
    { destruct B1 as [[Q1 Q2]|(Q1 & m0 & m1 & Q2 & Q3 & Q4)], B1' as [[Q1' Q2']|(Q1' & m0' & m1' & Q2' & Q3' & Q4')]; try congruence.
      assert (m0' = m0) as ->; [|congruence].
      destruct Q2 as [(r0 & P1 & P2 & P3)|(P1 & P2)], Q2' as [(r0' & P1' & P2' & P3')|(P1' & P2')].
      - assert (r0' = r0) as -> by (apply (unique_r r0' r0 (r_expand r)); auto; now apply InK). congruence.
      - exfalso. destruct P1' as [_ P1']. apply InK in P1. destruct P2 as [P2 P2'']. destruct (P1' r0 P1 P2) as [P4 _]. auto.
      - exfalso. destruct P1 as [_ P1]. apply InK in P1'. destruct P2' as [P2' P2'']. destruct (P1 r0' P1' P2') as [P4 _]. auto.
      - unfold built_in in P2, P2'. destruct P2 as [[X1 ->]|[X1 ->]], P2' as [[X2 ->]|[X2 ->]]; auto; rewrite X1 in X2; discriminate. }
    split; [|exact MM]. apply (RD x); auto. congruence.
  - exfalso. assert (overlay_hit K (d_mnemonic (i_di v')) (en_mn e) mask' ic) as Q.
    { exists ro'. split; [now apply InK|apply M2']. }
    eapply M2; eauto.
  - exfalso. assert (overlay_hit K (d_mnemonic (i_di v)) (en_mn e) mask ic) as Q by (exists ro; split; [auto|apply M2]).
    eapply M2'; [apply sole_K; eauto|apply HIT; eauto].
  - assert (Q : overlay_hit K (d_mnemonic (i_di v)) (en_mn e) mask ic) by (exists ro; split; [auto|apply M2]).
    assert (Q' : overlay_hit K' (d_mnemonic (i_di v')) (en_mn e) mask' ic) by (exists ro'; split; [auto|apply M2']).
    pose proof (NOT _ _ Q) as SO. pose proof (M3 SO _ _ (proj2 (HIT _ _) Q')) as LE.
    pose proof (M3' (proj1 (sole_K _) SO) _ _ (proj1 (HIT _ _) Q)) as LE'.
    apply InK in M1'. destruct M2 as (O1 & (m0 & O2 & O3) & x & x1 & O4 & O5 & O6).
    destruct M2' as (O1' & (m0' & O2' & O3') & x' & x1' & O4' & O5' & O6').
    assert (ro' = ro) as ->.
    { destruct (wf_overlays _ WF ro ro' _ _ _ _ _ _ M1 M1' O1 O1') as [?|NE]; [auto|]. exfalso. apply NE.
      destruct (wf_base _ WF ro _ _ _ _ M1 O1) as (_ & B), (wf_base _ WF ro' _ _ _ _ M1' O1') as (_ & B').
      rewrite <- !count1bits_popcount by assumption. apply N.le_antisymm; assumption. }
    assert (x' = x) as -> by eauto using extractor_of_fun.
    assert (x1' = x1) as ->.
    { unfold overlay_extractor in O5, O5'. destruct (r_xform ro); [|congruence].
      destruct O5 as (c & ? & ->), O5' as (c' & ? & ->). congruence. }
    assert (MM : i_meta v = i_meta v') by congruence.
    split; [|exact MM]. apply (RD x1); auto. destruct O1, O1'. congruence.
Qed.
End Order.
