(** Opcode bits beyond the end of the instruction do not matter (C70). *)
From Coq Require Import NArith ZArith List Bool String Lia.
From Verif Require Import M_Base M_Field M_Forms M_Meta M_OperandInfo M_Extract M_Decoded M_Cache M_Registry M_Trie M_Builder M_DTable.
From Verif Require Import S_Bits L_Bits S_Trie S_Table S_Trunc L_Count L_Trie L_Table L_Calm L_Decode L_TruncClass.
Import ListNotations.
Local Open Scope N_scope.

(** ** The bits *)
Lemma slice_agree n a b lo len : agree_to n a b -> lo + len <= n -> slice lo len a = slice lo len b.
Proof.
  intros H L. apply N.bits_inj. intros i. rewrite !slice_testbit.
  destruct (i <? len) eqn:E; [apply N.ltb_lt in E|now rewrite ?andb_false_r, ?andb_false_l].
  rewrite (H (lo + i)) by lia. reflexivity.
Qed.
Lemma own_agree ic : agree_to (ilen ic) ic (own_bits ic).
Proof. intros i L. unfold own_bits. rewrite N.mod_pow2_bits_low by exact L. reflexivity. Qed.
Lemma agree_le n m a b : agree_to n a b -> m <= n -> agree_to m a b.
Proof. intros H L i Hi. apply H. lia. Qed.
Lemma ilen_ge ic : 16 <= ilen ic.
Proof. unfold ilen. destruct (slice 0 2 ic =? 3); lia. Qed.
Lemma ilen_own ic : ilen (own_bits ic) = ilen ic.
Proof.
  unfold ilen at 1. rewrite <- (slice_agree _ _ _ 0 2 (own_agree ic)) by (pose proof (ilen_ge ic); lia). reflexivity.
Qed.
Lemma class_ilen a b : length_class a = length_class b -> ilen a = ilen b.
Proof.
  assert (Q : forall x, length_class x = 0 <-> ilen x = 16).
  { intros x. unfold length_class, ilen. destruct (slice 0 2 x =? 3); cbn [negb]; [|tauto].
    destruct (negb (slice 2 3 x =? 7)), (slice 5 1 x =? 0), (slice 6 1 x =? 0), (negb (slice 12 3 x =? 7)); split; discriminate. }
  intros H. pose proof (Q a) as Qa. pose proof (Q b) as Qb. rewrite H in Qa.
  assert (ilen a = 16 \/ ilen a = 32) as [R|R] by (unfold ilen; destruct (_ =? 3); auto);
  assert (ilen b = 16 \/ ilen b = 32) as [R'|R'] by (unfold ilen; destruct (_ =? 3); auto); rewrite R, R' in *; try reflexivity.
  - destruct Qb as [Qb _]. rewrite Qb by (now apply Qa). reflexivity.
  - destruct Qa as [Qa _]. rewrite Qa by (now apply Qb). reflexivity.
Qed.
Lemma class_own ic : length_class (own_bits ic) = length_class ic.
Proof.
  pose proof (own_agree ic) as A. assert (A16 := agree_le _ 16 _ _ A (ilen_ge ic)).
  unfold length_class. rewrite <- !(slice_agree 16 _ _ _ _ A16) by lia. reflexivity.
Qed.

Section Trunc.
Context (uids : list (string * N)) (annos : list (string * anno)) (nu : N)
  (incl excl : list pattern) (recs : list irec) (s : builder * tree).
Context (HD : make_decoder uids annos nu incl excl recs = Ok s).
Let K := kept incl excl recs.
Context (WF : well_formed K) (TD : tidy K).
Context (ic : N).
Let oc := own_bits ic.

Lemma enc_rec e : In e (encodings K) -> exists r, listed K r e.
Proof. unfold encodings. intros H. apply in_flat_map in H as (r & H). exists r. exact H. Qed.
Lemma matches_own e : In e (encodings K) -> matches e ic <-> matches e oc.
Proof.
  intros He. destruct (enc_rec e He) as (r & L). unfold matches, oc. rewrite class_own.
  split; intros (H1 & H2 & H3); (split; [exact H1|]); pose proof (class_ilen _ _ H1) as LE; split.
  - intros f F1 F2. etransitivity; [symmetry; apply (slice_agree _ _ _ _ _ (own_agree ic)); rewrite LE; eapply td_opcode; eauto|exact (H2 f F1 F2)].
  - intros n f F1 F2. etransitivity; [symmetry; apply (slice_agree _ _ _ _ _ (own_agree ic)); rewrite LE; eapply td_fixed; eauto|exact (H3 n f F1 F2)].
  - intros f F1 F2. etransitivity; [apply (slice_agree _ _ _ _ _ (own_agree ic)); rewrite LE; eapply td_opcode; eauto|exact (H2 f F1 F2)].
  - intros n f F1 F2. etransitivity; [apply (slice_agree _ _ _ _ _ (own_agree ic)); rewrite LE; eapply td_fixed; eauto|exact (H3 n f F1 F2)].
Qed.

Lemma final_fun x q q' : final_pay x q -> final_pay x q' -> q = q'.
Proof.
  unfold final_pay. destruct (has_fixed x); [|congruence]. intros (m & H1 & ->) (m' & H2 & ->). congruence.
Qed.
Lemma map_FOP {A B} (f : A -> B) (R : B -> B -> Prop) l : ForallOrdPairs R (map f l) -> ForallOrdPairs (fun a b => R (f a) (f b)) l.
Proof.
  induction l as [|a l IH]; cbn [map]; intros H; inversion H; subst; constructor; auto. now rewrite Forall_map in *.
Qed.

(** The tree answers alike, and with an item of a listed record. *)
Lemma sel_own : (tree_sel (snd s) ic = Throw EUnknownOpcode /\ tree_sel (snd s) oc = Throw EUnknownOpcode) \/
  exists P r e q mn, tree_sel (snd s) ic = Ok (mn, q) /\ tree_sel (snd s) oc = Ok (mn, q) /\
    binv P (fst s) /\ (forall r, In r P <-> In r K /\ r_mn r <> None) /\
    listed K r e /\ mn = en_mn e /\ matches e ic /\ extractor_of r e (ext (pay_cls q) (pay_ffm q)) /\
    (exists c, rec_class r = Ok c /\ (pay_cls q = c \/ pay_cls q = clone_cls c)).
Proof.
  destruct s as [b t]. unfold make_decoder in HD. cbn [fst snd].
  destruct (builder_new uids annos nu) as [b0| | |] eqn:EB; cbn [rbind] in HD; try discriminate.
  destruct (configured _ _ _ _ _ _ _ _ _ EB HD (wf_cells _ WF)) as (X & P & T & M & I & F & R).
  pose proof (wf_ties _ WF) as NT. fold K in M. unfold no_ties in NT. rewrite <- M in NT. apply map_FOP in NT.
  assert (MO : forall x, In x X -> matches (fst x) ic <-> matches (fst x) oc).
  { intros x Hx. apply matches_own. rewrite <- M. apply in_map. exact Hx. }
  pose proof (tree_sel_ok t X ic T) as TS. pose proof (tree_sel_ok t X oc T) as TS'.
  destruct (tree_sel t ic) as [[mn q]|ex| |]; try contradiction.
  - right. destruct TS as (x & Hx & -> & FP & MT & BEST).
    destruct (tree_sel t oc) as [[mn' q']|ex'| |]; try contradiction.
    2: { destruct ex'; try contradiction. exfalso. apply (TS' x Hx). now apply MO. }
    destruct TS' as (x' & Hx' & -> & FP' & MT' & BEST').
    assert (x' = x) as ->.
    { destruct (ForallOrdPairs_In NT x x' Hx Hx') as [Q|[Q|Q]]; [auto| |]; exfalso; apply Q; exists ic.
      - split; [exact MT|]. split; [now apply MO|]. split; [apply BEST'; [exact Hx|now apply MO]|apply BEST; [exact Hx'|now apply MO]].
      - split; [now apply MO|]. split; [exact MT|]. split; [apply BEST; [exact Hx'|now apply MO]|apply BEST'; [exact Hx|now apply MO]]. }
    rewrite (final_fun x q' q FP' FP).
    rewrite Forall_forall in F. destruct (F x Hx) as (r & Hr & Hi & He & Hc & Hf & RG).
    exists P, r, (fst x), q, (en_mn (fst x)).
    split; [reflexivity|]. split; [reflexivity|]. split; [exact I|]. split; [exact R|]. split; [split; [apply R; auto|auto]|].
    split; [reflexivity|]. split; [exact MT|].
    destruct (listed_mn _ _ He) as (_ & _ & fn & Hfn).
    unfold final_pay, has_fixed in FP. destruct (en_fixed (fst x)) as [|f0 fr] eqn:EF.
    + subst q. split; [|exists (pay_cls (snd x)); auto]. exists (pay_cls (snd x)). split; [auto|]. left. split; [auto|]. now rewrite Hf.
    + destruct FP as (m & FM & ->). split; [|exists (pay_cls (snd x)); auto]. exists (pay_cls (snd x)). split; [auto|]. right.
      split; [congruence|]. exists m. split; [|reflexivity]. intros i. rewrite EF.
      apply (fixed_mask_bits (en_form (fst x))); [exact (registry_ok _ _ Hfn)|exact FM].
  - left. destruct ex; try contradiction. split; [reflexivity|].
    destruct (tree_sel t oc) as [[mn' q']|ex'| |]; try contradiction.
    + destruct TS' as (x' & Hx' & _ & _ & MT' & _). exfalso. apply (TS x' Hx'). now apply MO.
    + destruct ex'; try contradiction. reflexivity.
Qed.

Lemma six_eq f g : (forall k, f k = g k) -> six f = six g.
Proof. intros H. unfold six. now rewrite !H. Qed.
Lemma info_own mn uid c ffm m : agree_to (width c) ic oc -> (oc = 0 -> ic = 0) ->
  decode_info mn uid (ext c ffm) m ic = decode_info mn uid (ext c ffm) m oc.
Proof.
  intros A Z. unfold decode_info.
  rewrite (t_srcI c ffm ic oc A), (t_dstI c ffm ic oc A), (t_src c ffm ic oc A), (t_dst c ffm ic oc A), (t_addr c ffm ic oc A),
    (t_data c ffm ic oc A), (t_hint c ffm ic oc A), (t_imm c ffm ic oc A), (t_soff c ffm ic oc A),
    (six_eq _ _ (t_srcT c ffm ic oc A m)), (six_eq _ _ (t_dstT c ffm ic oc A m)).
  assert ((ic =? 0) = (oc =? 0)) as ->; [|reflexivity].
  assert (ic = 0 -> oc = 0) by (unfold oc, own_bits; intros ->; now rewrite N.mod_0_l by (apply N.pow_nonzero; unfold ilen; lia)).
  destruct (N.eqb_spec ic 0) as [N1|N1], (N.eqb_spec oc 0) as [N2|N2]; tauto.
Qed.

Lemma find_ext {A} (f g : A -> bool) l : (forall a, In a l -> f a = g a) -> find f l = find g l.
Proof.
  induction l as [|a l IH]; intros H; [reflexivity|]. cbn [find]. rewrite (H a (or_introl eq_refl)), IH; auto with datatypes.
Qed.
Lemma mask_small n mask : mask < 2 ^ n -> forall a b, agree_to n a b -> N.land a mask = N.land b mask.
Proof.
  intros H a b A. apply N.bits_inj. intros i. rewrite !N.land_spec. destruct (N.lt_ge_cases i n) as [L|L]; [now rewrite (A i L)|].
  assert (N.testbit mask i = false) as ->; [|now rewrite !andb_false_r].
  destruct (N.eq_dec mask 0) as [->|NZ]; [apply N.bits_0|]. apply N.bits_above_log2. apply N.lt_le_trans with n; [|exact L].
  apply N.log2_lt_pow2; lia.
Qed.
(** All overlays in a factory are of one instruction. *)
Lemma one_base P i f o : binv P (fst s) -> (forall r, In r P <-> In r K /\ r_mn r <> None) ->
  nth_error (b_facts (fst s)) i = Some f -> In o (fc_olays f) -> ov_base o = fc_name f.
Proof.
  intros I HP Ef Ho. destruct (bi_ols _ _ _ I _ _ _ Ef Ho) as (FI & ro & R1 & O1 & (jo & O2 & O3) & _).
  apply overlay_parse_inv in O3 as [O3 O5].
  assert (OV : overlays ro (ov_mn o) (ov_base o) (ov_mask o) (ov_value o)) by (split; [exact O1|exists jo; auto]).
  destruct (wf_base _ WF _ _ _ _ _ (proj1 (proj1 (HP ro) R1)) OV) as [SO _].
  pose proof (sole_sub _ _ _ _ _ HP SO) as SP.
  destruct (bi_keys _ _ _ I _ _ FI) as [C|(r0 & K1 & K2 & K3 & K4)]; [destruct SP; tauto|].
  assert (r_mn r0 = Some (ov_base o)) as K5 by (destruct K4 as [K4|K4]; [auto|now apply SP]).
  destruct (bi_insts _ _ _ I r0 (ov_base o)) as (i' & f' & m & F1 & _ & _ & _ & _ & Q & _); [auto|split; auto|].
  destruct (Q K3) as (Q1 & _ & Q2 & _). assert (i' = i) as -> by congruence. assert (f' = f) as -> by congruence.
  symmetry. apply (Q2 SP).
Qed.

Lemma decode_own {A U} : same_report (decode (A := A) (U := U) s ic) (decode (A := A) (U := U) s oc).
Proof.
  rewrite !decode_pure. unfold pure_info.
  destruct sel_own as [[-> ->]|(P & r & e & q & mn & -> & -> & I & HP & L & EM & MT & X & c & RC & QC)]; [reflexivity|].
  cbn [rbind].
  pose proof (own_agree ic) as OA. fold oc in OA.
  assert (LE : ilen ic = ilen (en_stencil e)) by (apply class_ilen, MT).
  assert (SH : ilen ic = 16 \/ ilen ic = 32) by (unfold ilen; destruct (_ =? 3); auto).
  assert (WC : forall c, ilen ic = 32 \/ compact c = true -> agree_to (width c) ic oc).
  { intros c0 H. apply (agree_le _ _ _ _ OA). unfold width. destruct H as [-> | ->]; [destruct (compact c0); lia|apply ilen_ge]. }
  assert (AC : agree_to (width (pay_cls q)) ic oc).
  { apply WC. destruct SH as [SH|SH]; [right|now left]. assert (CC : compact c = true) by (apply (td_class _ TD r e); congruence || auto).
    destruct QC as [-> | ->]; [exact CC|]. destruct c; cbn in *; congruence. }
  rewrite <- (t_illop _ (pay_ffm q) _ _ AC).
  destruct (illop_total (pay_cls q) (pay_ffm q) ic) as [bb IL]. rewrite IL. cbn [rbind]. destruct bb; [reflexivity|].
  assert (Z : oc = 0 -> ic = 0).
  { intros Z. exfalso. assert (matches e 0) by (rewrite <- Z; apply matches_own; [apply in_flat_map; eauto|exact MT]).
    pose proof (td_zero _ TD r e _ L H X) as RS. unfold reserved in RS. rewrite <- Z, <- (t_illop _ (pay_ffm q) _ _ AC), IL in RS. discriminate. }
  unfold get_fact. destruct (nth_error (b_facts (fst s)) (pay_fact q)) as [f|] eqn:Ef; cbn [rbind]; [|exact Logic.I].
  assert (OV : forall o, In o (fc_olays f) -> exists ro, In ro K /\ overlays ro (ov_mn o) (ov_base o) (ov_mask o) (ov_value o) /\
    match r_xform ro with None => ov_x o = None | Some n => exists c, get_extractor n = Ok c /\ ov_x o = Some c end).
  { intros o Ho. destruct (bi_ols _ _ _ I _ _ _ Ef Ho) as (_ & ro & R1 & O1 & (jo & O2 & O3) & _ & _ & O4 & _).
    exists ro. split; [now apply HP|]. split; [|exact O4]. apply overlay_parse_inv in O3 as [O3 O5]. split; [exact O1|]. exists jo. auto. }
  unfold leaf_info. destruct (fact_uid f mn) as [uid|ex| |]; cbn [rbind]; [|reflexivity..].
  destruct (fact_anno f mn) as [a|ex| |]; cbn [rbind]; [|reflexivity..].
  assert (FIN : forall mn' u' c' k' m' (a' : option anno), agree_to (width c') ic oc ->
    same_report (let* di := decode_info mn' u' (ext c' k') m' ic in Ok (mkInfo ic di (ext c' k') m' a'))
                (let* di := decode_info mn' u' (ext c' k') m' oc in Ok (mkInfo oc di (ext c' k') m' a'))).
  { intros mn' u' c' k' m' a' AG. rewrite <- (info_own mn' u' c' k' m' AG Z).
    destruct (decode_info mn' u' (ext c' k') m' ic) as [di|ex| |]; cbn [rbind same_report]; [|reflexivity..].
    cbn [i_di i_meta i_anno]. split; [reflexivity|]. split; [reflexivity|]. split; [reflexivity|].
    split; [intros g; exact (t_spec c' k' ic oc AG g)|]. exact (t_dasm c' k' ic oc AG _ _). }
  destruct (String.eqb_spec (fc_name f) mn) as [EQ|NE].
  - assert (OB : forall o, In o (fc_olays f) -> ov_base o = en_mn e) by (intros o Ho; rewrite <- EM, <- EQ; eapply one_base; eauto).
    assert (OM : forall o, In o (fc_olays f) -> ov_match ic o = ov_match oc o).
    { intros o Ho. destruct (OV o Ho) as (ro & R1 & R2 & _). unfold ov_match. rewrite (OB o Ho) in R2.
      rewrite (mask_small (ilen ic) (ov_mask o)) with (b := oc); [reflexivity| |exact OA]. rewrite LE.
      exact (td_overlay _ TD _ _ _ _ _ _ R1 L R2). }
    assert (FI : ov_find (fc_olays f) oc = ov_find (fc_olays f) ic) by (symmetry; apply find_ext, OM).
    rewrite FI. destruct (ov_find (fc_olays f) ic) as [o|] eqn:EO; [|apply FIN, AC].
    destruct (String.eqb (ov_base o) mn); [|apply FIN, AC].
    unfold ov_find in EO. apply find_some in EO as [O1 O2]. destruct (OV o O1) as (ro & R1 & R2 & R3). rewrite (OB o O1) in R2.
    destruct (r_xform ro) as [n|] eqn:EX; [destruct R3 as (c' & G1 & ->)|rewrite R3; apply FIN, AC].
    apply FIN, WC. destruct SH as [SH|SH]; [right|now left]. rewrite LE in SH.
    exact (td_overlay_class _ TD _ _ _ _ _ _ _ _ R1 L R2 SH EX G1).
  - assert (NB : forall oo o, ov_find (fc_olays f) oo = Some o -> String.eqb (ov_base o) mn = false).
    { intros oo o Q. apply find_some in Q as [Q _]. apply String.eqb_neq. rewrite (one_base _ _ _ _ I HP Ef Q). exact NE. }
    destruct (ov_find (fc_olays f) ic) as [o|] eqn:E1; [rewrite (NB _ _ E1)|];
    (destruct (ov_find (fc_olays f) oc) as [o'|] eqn:E2; [rewrite (NB _ _ E2)|]); apply FIN, AC.
Qed.
End Trunc.
