(** The shipped tables against the manual: which instruction an opcode is, and the reserved
    opcodes. *)
From Coq Require Import Ascii NArith ZArith Arith List Bool String Lia.
From Verif Require Import M_Base M_Field M_Forms M_Meta M_OperandInfo M_Extract M_Decoded M_Trie M_Builder M_DTable M_Raw.
From Verif Require Import S_Bits L_Bits S_Trie S_Slots S_Imm S_Pairs S_Agree S_Table S_Shipped S_Reserved S_Manual.
From Verif Require Import L_Trie L_Table L_Check L_Decode L_Readable L_Claims L_Shipped L_Reserved L_Manual.
Import ListNotations.
Local Open Scope N_scope.

(** ** Sets of opcodes as mask and value *)
Definition inside (q : N * N) (ic : N) : Prop := N.land ic (fst q) = snd q.
Definition within (p q : N * N) : bool := (N.land (fst q) (fst p) =? fst q) && (N.land (snd p) (fst q) =? snd q).
Lemma within_ok p q ic : within p q = true -> inside p ic -> inside q ic.
Proof.
  unfold within, inside. intros H E. apply andb_true_iff in H as [H1 H2]. apply N.eqb_eq in H1, H2.
  rewrite <- H1 at 1. rewrite (N.land_comm _ (fst p)), N.land_assoc, E. exact H2.
Qed.
Definition disjointb (p q : N * N) : bool := negb (N.land (N.lxor (snd p) (snd q)) (N.land (fst p) (fst q)) =? 0).
Lemma disjointb_ok p q ic : disjointb p q = true -> inside p ic -> inside q ic -> False.
Proof.
  unfold disjointb, inside. intros H E F. apply negb_true_iff, N.eqb_neq in H. apply H. apply land_zero_testbit. intros i.
  rewrite <- E, <- F, N.lxor_spec, !N.land_spec.
  destruct (N.testbit ic i), (N.testbit (fst p) i), (N.testbit (fst q) i); auto.
Qed.
(** [p] and one more bit. *)
Definition with_bit (p : N * N) (i : N) (b : bool) : N * N := (N.lor (fst p) (2 ^ i), if b then N.lor (snd p) (2 ^ i) else snd p).
Lemma with_bit_ok p i ic : inside p ic -> inside (with_bit p i (N.testbit ic i)) ic.
Proof.
  unfold inside, with_bit. cbn [fst snd]. intros E. rewrite N.land_lor_distr_r, E. apply N.bits_inj. intros j.
  rewrite N.lor_spec, N.land_spec, N.pow2_bits_eqb. destruct (N.testbit ic i) eqn:B; rewrite ?N.lor_spec, ?N.pow2_bits_eqb;
    destruct (N.eqb_spec i j) as [->|]; rewrite ?B, ?andb_false_r, ?andb_true_r, ?orb_false_r; auto.
Qed.
(** Every opcode inside [p] is inside one of [Q]. *)
Fixpoint coverb (bits : list N) (p : N * N) (Q : list (N * N)) : bool :=
  if existsb (within p) Q then true else
  match bits with
  | [] => false
  | i :: bits => if coverb bits (with_bit p i true) Q then coverb bits (with_bit p i false) Q else false
  end.
Lemma coverb_ok bits p Q ic : coverb bits p Q = true -> inside p ic -> exists q, In q Q /\ inside q ic.
Proof.
  revert p. induction bits as [|i bits IH]; intros p H I; cbn [coverb] in H.
  - destruct (existsb (within p) Q) eqn:E; [|discriminate]. apply existsb_exists in E as (q & H1 & H2). eauto using within_ok.
  - destruct (existsb (within p) Q) eqn:E; [apply existsb_exists in E as (q & H1 & H2); eauto using within_ok|].
    destruct (coverb bits (with_bit p i true) Q) eqn:C; [|discriminate]. apply (with_bit_ok _ i) in I.
    destruct (N.testbit ic i); [apply (IH _ C I)|apply (IH _ H I)].
Qed.
Lemma narrower_within p q : narrower p q -> (forall ic, fits p ic -> fits q ic) /\ pat_mv p <> pat_mv q.
Proof.
  intros [H1 H2]. split; [auto|]. intros E. apply H2. intros ic F. apply pat_fits. rewrite E. now apply pat_fits.
Qed.
Lemma mv_sub l i : N.testbit (snd (mvs l)) i = true -> N.testbit (fst (mvs l)) i = true.
Proof.
  destruct (mvs_bits l (N.to_nat i)) as [H1 H2]. rewrite N2Nat.id in H1, H2. rewrite H1, H2. destruct (nth_error _ _) as [[b|]|]; auto; discriminate.
Qed.
Lemma all_fit_within p q : (forall ic, fits p ic -> fits q ic) -> within (pat_mv p) (pat_mv q) = true.
Proof.
  intros H. assert (V : forall a, inside (pat_mv p) a -> inside (pat_mv q) a) by (intros a Ha; apply pat_fits, H, pat_fits, Ha).
  unfold within. apply andb_true_iff. rewrite !N.eqb_eq. set (m := fst (pat_mv p)) in *. set (v := snd (pat_mv p)) in *.
  assert (S : forall i, N.testbit v i = true -> N.testbit m i = true) by (intros i; apply mv_sub).
  assert (I1 : inside (pat_mv p) v).
  { unfold inside. fold m v. apply N.bits_inj. intros i. rewrite N.land_spec. specialize (S i). destruct (N.testbit v i); [now rewrite S|reflexivity]. }
  pose proof (V _ I1) as Q1. split; [|exact Q1].
  apply N.bits_inj. intros i. rewrite N.land_spec. destruct (N.testbit (fst (pat_mv q)) i) eqn:E1; [|reflexivity].
  destruct (N.testbit m i) eqn:E2; [reflexivity|]. exfalso.
  assert (I2 : inside (pat_mv p) (N.lor v (2 ^ i))).
  { unfold inside. fold m v. apply N.bits_inj. intros j. rewrite N.land_spec, N.lor_spec, N.pow2_bits_eqb. specialize (S j).
    destruct (N.eqb_spec i j) as [<-|]; [rewrite E2; destruct (N.testbit v i); [now rewrite <- S, E2|apply andb_false_r]|].
    rewrite orb_false_r. destruct (N.testbit v j); [now rewrite S|reflexivity]. }
  apply V in I2. unfold inside in Q1, I2. rewrite <- Q1 in I2. apply (f_equal (fun x => N.testbit x i)) in I2.
  rewrite !N.land_spec, N.lor_spec, N.pow2_bits_true, E1, orb_true_r, !andb_true_r in I2. specialize (S i). rewrite E2 in S. symmetry in I2. discriminate (S I2).
Qed.

(** ** The rows of a table *)
Definition o_q (o : orow) : N * N := (o_mk o, o_v o).
Definition lc_okb (q : N * N) : bool :=
  if coversb (fst q) 0 2 then
    if slice 0 2 (snd q) =? 3 then if coversb (fst q) 2 3 then negb (slice 2 3 (snd q) =? 7) else false else true
  else false.
Lemma lc_ok q a b : lc_okb q = true -> inside q a -> inside q b -> length_class a = length_class b.
Proof.
  unfold lc_okb, inside. intros H A B. destruct (coversb (fst q) 0 2) eqn:C1; [|discriminate]. unfold length_class.
  rewrite (covers_ok _ _ _ _ _ C1 A), (covers_ok _ _ _ _ _ C1 B). destruct (slice 0 2 (snd q) =? 3); cbn [negb]; [|reflexivity].
  destruct (coversb (fst q) 2 3) eqn:C2; [|discriminate]. now rewrite (covers_ok _ _ _ _ _ C2 A), (covers_ok _ _ _ _ _ C2 B), H.
Qed.
Lemma row_matches e q ic : enc_ok e -> row_of e = Some q -> lc_okb q = true -> inside q ic -> matches e ic.
Proof.
  intros O R L I. unfold row_of in R. destruct (all_mask e) as [m|] eqn:E; [|discriminate]. assert (q = (m, N.land (en_stencil e) m)) as -> by congruence.
  apply (all_mask_matches _ _ _ O E). split; [|exact I]. apply (lc_ok _ _ _ L I). unfold inside. reflexivity.
Qed.
Definition row_goodb (o : orow) : bool :=
  match row_of (o_e o) with Some q => within (o_q o) q && lc_okb q && enc_okb (o_e o) | None => false end &&
  match o_ov o with None => true | Some kw => within (o_q o) kw end.
Lemma row_good o ic : row_goodb o = true -> inside (o_q o) ic ->
  matches (o_e o) ic /\ match o_ov o with None => True | Some kw => inside kw ic end.
Proof.
  unfold row_goodb. intros H I. apply andb_true_iff in H as [H1 H2]. split.
  - destruct (row_of (o_e o)) as [q|] eqn:E; [|discriminate]. apply andb_true_iff in H1 as [H1 H4]. apply andb_true_iff in H1 as [H1 H3].
    exact (row_matches _ _ _ (enc_okb_ok _ H4) E H3 (within_ok _ _ _ H1 I)).
  - destruct (o_ov o) as [kw|]; [exact (within_ok _ _ _ H2 I)|exact Logic.I].
Qed.
Lemma own_origin r o : In o (own_rows r) -> In (o_e o) (rec_encs r) /\ o_n o = en_mn (o_e o) /\ o_ov o = None.
Proof.
  unfold own_rows. intros H. apply in_flat_map in H as (e & H1 & H2). destruct (row_of e) as [[m v]|]; [|destruct H2].
  destruct H2 as [<-|[]]. auto.
Qed.
Lemma ovb_inv r n b k w : r_mn r = Some n -> ovb r = Some (b, k, w) -> overlays r n b k w.
Proof.
  unfold ovb, overlays. intros ->. destruct (r_overlay r) as [jo|]; [|discriminate].
  destruct (jo_base jo) as [b'|] eqn:E1; [|discriminate]. destruct (jo_match jo) as [[|m [|v [|? ?]]]|] eqn:E2; try discriminate.
  intros [= <- <- <-]. split; [auto|]. eauto.
Qed.
Lemma row_origin T o : In o (rows T) -> exists r, In r T /\ In (o_e o) (rec_encs r) /\
  match o_ov o with
  | None => o_n o = en_mn (o_e o)
  | Some (k, w) => exists ro, In ro T /\ overlays ro (o_n o) (en_mn (o_e o)) k w
  end.
Proof.
  unfold rows. intros H. apply in_app_or in H as [H|H]; apply in_flat_map in H as (r & H1 & H2).
  - apply own_origin in H2 as (H2 & H3 & H4). exists r. rewrite H4. auto.
  - unfold ov_rows in H2. destruct (r_mn r) as [n|] eqn:E1; [|destruct H2]. destruct (ovb r) as [[[b k] w]|] eqn:E2; [|destruct H2].
    apply in_flat_map in H2 as (r' & H2 & H3). destruct (instb r') as [b'|] eqn:E3; cbn [oseqb] in H3; [|destruct H3].
    destruct (String.eqb_spec b' b) as [->|]; [|destruct H3]. apply in_map_iff in H3 as (q & <- & H3).
    apply own_origin in H3 as (H3 & H4 & _). exists r'. cbn. split; [auto|]. split; [auto|]. exists r. split; [auto|].
    apply instb_ok in E3. destruct (listed_mn _ _ H3) as (HI & _). replace (en_mn (o_e q)) with b; [now apply ovb_inv|].
    destruct E3 as [E3 _], HI as [HI _]. congruence.
Qed.
(** No two records have one name. *)
Fixpoint nodupb (l : list string) : bool := match l with [] => true | n :: r => if mem n r then false else nodupb r end.
Definition mns (T : list irec) : list string := flat_map (fun r => match r_mn r with Some n => [n] | None => [] end) T.
Lemma names_unique T : nodupb (mns T) = true -> forall r r' n, In r T -> In r' T -> r_mn r = Some n -> r_mn r' = Some n -> r = r'.
Proof.
  assert (U : forall T r n, In r T -> r_mn r = Some n -> In n (mns T)).
  { intros T0 r n H E. apply in_flat_map. exists r. rewrite E. split; [auto|now left]. }
  induction T as [|r0 T IH]; intros H r r' n; [intros []|]. unfold mns in H. cbn [flat_map] in H. fold (mns T) in H.
  assert (D : nodupb (mns T) = true /\ forall m, r_mn r0 = Some m -> ~ In m (mns T)).
  { destruct (r_mn r0) as [m|]; [|split; [exact H|discriminate]]. cbn [app nodupb] in H. destruct (mem m (mns T)) eqn:E; [discriminate|].
    split; [exact H|]. intros m' [= <-] I. apply mem_in in I. congruence. }
  destruct D as [D1 D2]. intros [<-|I1] [<-|I2] E1 E2; auto.
  - destruct (D2 _ E1 (U _ _ _ I2 E2)).
  - destruct (D2 _ E2 (U _ _ _ I1 E1)).
  - eauto.
Qed.
Section Full.
Context (T : list irec) (GR : forallb row_goodb (rows T) = true) (ND : nodupb (mns T) = true).
Context (K : list irec) (SI : forall r, In r K -> In r T).
Lemma provided_row o ic : In o (rows T) -> provided K (o_n o) -> inside (o_q o) ic ->
  exists r, listed K r (o_e o) /\ matches (o_e o) ic /\
    match o_ov o with None => True | Some (k, _) => overlay_hit K (o_n o) (en_mn (o_e o)) k ic end.
Proof.
  intros I (r0 & P1 & P2 & P3) C. rewrite forallb_forall in GR. destruct (row_good _ _ (GR _ I) C) as [M V].
  destruct (row_origin _ _ I) as (r & O1 & O2 & O3). destruct (listed_mn _ _ O2) as (HI & _).
  destruct (o_ov o) as [[k w]|].
  - destruct O3 as (ro & O3 & O4). assert (ro = r0) as -> by (apply (names_unique _ ND) with (o_n o); auto; apply O4).
    destruct (P3 _ _ _ O4) as (r' & P4 & P5). assert (r' = r) as -> by (apply (names_unique _ ND) with (en_mn (o_e o)); auto; [apply P5|apply HI]).
    exists r. split; [split; auto|]. split; [auto|]. exists r0. split; [auto|]. unfold inside in V. cbn [fst snd] in V. now rewrite V.
  - assert (r = r0) as -> by (apply (names_unique _ ND) with (o_n o); auto; rewrite O3; apply HI).
    exists r0. split; [split; auto|]. auto.
Qed.
(** An opcode of both rows is read by the first. *)
Definition beatsb (o' o : orow) : bool :=
  if more_specificb (o_e o') (o_e o) then true else
  match o_ov o' with
  | None => false
  | Some (k', _) => if String.eqb (en_mn (o_e o')) (en_mn (o_e o)) then
      match o_ov o with None => true | Some (k, _) => popcount k <? popcount k' end else false
  end.
Lemma beats o' o e ic y : beatsb o' o = true -> In o' (rows T) -> provided K (o_n o') -> inside (o_q o') ic ->
  selected (encodings K) e ic -> read_as K o e ic y -> False.
Proof.
  intros B I P C S (_ & <- & _ & R). destruct (provided_row _ _ I P C) as (r & L & M & V). unfold beatsb in B.
  destruct (more_specificb (o_e o') (o_e o)) eqn:E.
  - destruct S as (_ & _ & S). apply (S (o_e o')); [apply in_flat_map; exists r; exact L|auto|now apply more_specificb_ok].
  - destruct (o_ov o') as [[k' w']|]; [|discriminate]. destruct (String.eqb_spec (en_mn (o_e o')) (en_mn (o_e o))) as [Q|]; [|discriminate].
    rewrite Q in V. destruct (o_ov o) as [[k w]|]; [|exact (R _ _ V)]. apply N.ltb_lt in B. pose proof (R _ _ V). lia.
Qed.

Context (M : list minst) (odd : list string) (bits : list N).
Definition named_in (R : list orow) (n : string) : list orow := filter (fun o => String.eqb (o_n o) n) R.
Definition covered_okb : bool := let R := rows T in forallb (fun m => coverb bits (pat_mv (mi_pat m)) (map o_q (named_in R (mi_name m)))) M.
Lemma covered_ok m ic : covered_okb = true -> In m M -> fits (mi_pat m) ic ->
  exists o, In o (rows T) /\ o_n o = mi_name m /\ inside (o_q o) ic.
Proof.
  unfold covered_okb. intros H I F. rewrite forallb_forall in H. specialize (H _ I). apply pat_fits in F.
  destruct (coverb_ok _ _ _ _ H F) as (q & H1 & H2). apply in_map_iff in H1 as (o & <- & H1). apply filter_In in H1 as [H1 H3].
  apply String.eqb_eq in H3. eauto.
Qed.
Definition strictly (p q : N * N) : bool := if within p q then negb ((fst p =? fst q) && (snd p =? snd q)) else false.
Definition least_okb : bool :=
  let P := map (fun m => (mi_name m, pat_mv (mi_pat m))) M in
  let R := rows T in
  forallb (fun o =>
    if mem (o_n o) odd then true else
    let Q := filter (fun p => String.eqb (fst p) (o_n o)) P in
    match Q with
    | [] => forallb (fun p => disjointb (snd p) (o_q o)) P
    | _ => existsb (fun p => if within (o_q o) (snd p) then
        forallb (fun p' => if strictly (snd p') (snd p) then
          forallb (fun o' => if disjointb (o_q o') (o_q o) then true else beatsb o' o) (named_in R (fst p')) else true) P
        else false) Q
    end) R.
Lemma least_ok o e ic y : covered_okb = true -> least_okb = true -> In o (rows T) -> selected (encodings K) e ic -> read_as K o e ic y ->
  ~ In (rd_mn y) odd ->
  (exists m, mi_name m = rd_mn y /\ closest M K m ic) \/ (~ in_manual M (rd_mn y) /\ forall m, In m M -> ~ fits (mi_pat m) ic).
Proof.
  intros CV H I S R NO. unfold least_okb in H. rewrite forallb_forall in H. specialize (H _ I). cbv beta zeta in H.
  assert (RN : o_n o = rd_mn y) by apply R. assert (IN : inside (o_q o) ic) by apply R. rewrite RN in H.
  destruct (mem (rd_mn y) odd) eqn:E; [apply mem_in in E; contradiction|].
  set (P := map (fun m => (mi_name m, pat_mv (mi_pat m))) M) in *.
  remember (filter (fun p => String.eqb (fst p) (rd_mn y)) P) as Q eqn:EQ. symmetry in EQ. destruct Q as [|q0 Q0].
  - right. rewrite forallb_forall in H. split.
    + intros (m & H1 & H2). enough (In (mi_name m, pat_mv (mi_pat m)) []) by auto. rewrite <- EQ. apply filter_In.
      split; [apply in_map_iff; eauto|]. cbn [fst]. now apply String.eqb_eq.
    + intros m Hm F. apply pat_fits in F. assert (IM : In (mi_name m, pat_mv (mi_pat m)) P) by (apply in_map_iff; eauto).
      exact (disjointb_ok _ _ _ (H _ IM) F IN).
  - left. apply existsb_exists in H as (p & H1 & H2). rewrite <- EQ in H1. apply filter_In in H1 as [H1 H3]. apply String.eqb_eq in H3.
    apply in_map_iff in H1 as (m & <- & H1). cbn [fst snd] in *. destruct (within (o_q o) (pat_mv (mi_pat m))) eqn:W; [|discriminate].
    exists m. split; [auto|]. split; [auto|]. split; [apply pat_fits; exact (within_ok _ _ _ W IN)|].
    intros m' Hm' PV F' NR. destruct (covered_ok _ _ CV Hm' F') as (o' & C1 & C2 & C3). rewrite forallb_forall in H2.
    specialize (H2 (mi_name m', pat_mv (mi_pat m'))). cbn [fst snd] in H2. apply narrower_within in NR as [N1 N2].
    assert (strictly (pat_mv (mi_pat m')) (pat_mv (mi_pat m)) = true) as ST.
    { unfold strictly. rewrite (all_fit_within _ _ N1). apply negb_true_iff. apply not_true_iff_false. intros Q. apply andb_true_iff in Q as [Q1 Q2].
      apply N.eqb_eq in Q1, Q2. apply N2. destruct (pat_mv (mi_pat m')), (pat_mv (mi_pat m)). cbn in *. congruence. }
    rewrite ST in H2. specialize (H2 (in_map _ _ _ Hm')). rewrite forallb_forall in H2. specialize (H2 o').
    destruct (disjointb (o_q o') (o_q o)) eqn:D; [exact (disjointb_ok _ _ _ D C3 IN)|]. rewrite <- C2 in PV.
    refine (beats o' o e ic y (H2 _) C1 PV C3 S R). apply filter_In. split; [auto|]. now apply String.eqb_eq.
Qed.

(** ** Reserved opcodes *)
Definition res_set (c : xcls) (ffm : N) : option (N * N) :=
  match c with
  | X_CJR | X_CJALR | X_CI_addiw | X_C2_sp_load | X_C2_sp_load_word | X_C2_sp_load_double =>
      if slice 7 5 ffm =? 0 then Some (field_mask 7 5, 0) else None
  | X_CI_sp | X_CI_rD_shifted => Some (N.lor (field_mask 12 1) (field_mask 2 5), 0)
  | X_CIW_sp => Some (N.ldiff (field_mask 5 8) ffm, 0)
  | X_I_load_pair | X_C2_sp_load_word_pair => Some (2 ^ 7, 2 ^ 7)
  | X_S_pair => Some (2 ^ 20, 2 ^ 20)
  | X_C0_load_word_pair | X_C0_store_word_pair | X_C2_sp_store_word_pair => Some (2 ^ 2, 2 ^ 2)
  | _ => None
  end.
Lemma slice_zero lo len w : slice lo len w = 0 <-> N.land w (field_mask lo len) = 0.
Proof.
  split; intros H.
  - apply land_zero_testbit. intros i. unfold field_mask. rewrite shl_testbit, ones_testbit.
    destruct (N.leb_spec lo i); [|apply andb_false_r]. cbn [andb]. apply (f_equal (fun x => N.testbit x (i - lo))) in H.
    rewrite slice_testbit, N.bits_0 in H. replace (lo + (i - lo)) with i in H by lia. rewrite andb_comm. exact H.
  - apply N.bits_inj. intros i. rewrite slice_testbit, N.bits_0. apply (f_equal (fun x => N.testbit x (lo + i))) in H.
    unfold field_mask in H. rewrite N.land_spec, shl_testbit, ones_testbit, N.bits_0 in H. replace (lo + i - lo) with i in H by lia.
    rewrite (proj2 (N.leb_le lo (lo + i))) in H by lia. cbn [andb] in H. rewrite andb_comm. exact H.
Qed.
Lemma bit_land w i : N.testbit w i = true <-> N.land w (2 ^ i) = 2 ^ i.
Proof.
  split; intros H.
  - apply N.bits_inj. intros j. rewrite N.land_spec, N.pow2_bits_eqb. destruct (N.eqb_spec i j) as [<-|]; [now rewrite H|apply andb_false_r].
  - apply (f_equal (fun x => N.testbit x i)) in H. rewrite N.land_spec, N.pow2_bits_true, andb_true_r in H. exact H.
Qed.
Lemma res_set_ok c ffm ic : reserved_when c ffm ic = true <-> match res_set c ffm with Some q => inside q ic | None => False end.
Proof.
  unfold inside. destruct c; cbn [reserved_when res_set]; unfold is_x0, no_ci_imm; try (split; [discriminate|contradiction]); cbn [fst snd];
    try apply bit_land;
    try (destruct (slice 7 5 ffm =? 0); cbn [andb fst snd]; [rewrite N.eqb_eq; apply slice_zero|split; [discriminate|contradiction]]);
    try (rewrite andb_true_iff, !N.eqb_eq, !slice_zero, N.land_lor_distr_r, N.lor_eq_0_iff; tauto).
  rewrite N.eqb_eq, slice_zero. replace (N.land (N.ldiff ic ffm) (field_mask 5 8)) with (N.land ic (N.ldiff (field_mask 5 8) ffm)); [tauto|].
  apply N.bits_inj. intros i. rewrite !N.land_spec, !N.ldiff_spec. destruct (N.testbit ic i), (N.testbit ffm i), (N.testbit (field_mask 5 8) i); reflexivity.
Qed.
Definition both (p q : N * N) : N * N := (N.lor (fst p) (fst q), N.lor (snd p) (snd q)).
Lemma both_ok p q ic : inside p ic -> inside q ic -> inside (both p q) ic.
Proof. unfold inside, both. cbn [fst snd]. intros H1 H2. now rewrite N.land_lor_distr_r, H1, H2. Qed.
Context (RS : list string).
Definition reserved_okb : bool := let R := rows T in forallb (fun r => forallb (fun e =>
  match row_of e, fx_mask e with
  | Some q, Some _ => enc_okb e && forallb (fun cf => match res_set (fst cf) (snd cf) with None => true | Some z =>
      if disjointb q z then true else if existsb (fun p => within (both q z) (pat_mv p)) RS then true else
      existsb (fun o => if within (both q z) (o_q o) then if more_specificb (o_e o) e then
        existsb (fun m => if String.eqb (mi_name m) (o_n o) then within (both q z) (pat_mv (mi_pat m)) else false) M else false else false) R
      end) (exts r)
  | _, _ => false
  end) (rec_encs r)) T.
Lemma reserved_sound r e x ic : reserved_okb = true -> ic < 2 ^ 64 -> listed K r e -> selected (encodings K) e ic -> extractor_of r e x -> reserved x ic ->
  (exists p, In p RS /\ fits p ic) \/ exists m, In m M /\ fits (mi_pat m) ic /\ ~ provided K (mi_name m).
Proof.
  intros H B [L1 L2] S X Q. unfold reserved_okb in H. cbv zeta in H. rewrite forallb_forall in H. specialize (H _ (SI _ L1)).
  rewrite forallb_forall in H. specialize (H _ L2). destruct (row_of e) as [[mk v]|] eqn:ER; [|discriminate]. destruct (fx_mask e) eqn:EF; [|discriminate].
  apply andb_true_iff in H as [H0 H]. rewrite forallb_forall in H. destruct (exts_in r e x L2) as ([c ffm] & C1 & ->); [congruence|exact X|].
  specialize (H _ C1). cbn [fst snd] in *. unfold reserved in Q. rewrite illop_lemma in Q by auto.
  assert (RW : reserved_when c ffm ic = true) by congruence. apply res_set_ok in RW. destruct (res_set c ffm) as [z|]; [|destruct RW].
  pose proof (row_ok _ _ _ _ (enc_okb_ok _ H0) ER (proj1 (proj2 S))) as IN. destruct (disjointb (mk, v) z) eqn:D; [destruct (disjointb_ok _ _ _ D IN RW)|].
  pose proof (both_ok (mk, v) z ic IN RW) as BI. destruct (existsb (fun p => within (both (mk, v) z) (pat_mv p)) RS) eqn:E1.
  - apply existsb_exists in E1 as (p & P1 & P2). left. exists p. split; [auto|]. apply pat_fits. exact (within_ok _ _ _ P2 BI).
  - right. apply existsb_exists in H as (o & O1 & O2). destruct (within (both (mk, v) z) (o_q o)) eqn:E2; [|discriminate].
    destruct (more_specificb (o_e o) e) eqn:E3; [|discriminate]. apply existsb_exists in O2 as (m & M1 & M2).
    destruct (String.eqb_spec (mi_name m) (o_n o)) as [NM|]; [|discriminate]. exists m. split; [auto|]. split; [apply pat_fits; exact (within_ok _ _ _ M2 BI)|].
    rewrite NM. intros PV. destruct (provided_row _ _ O1 PV (within_ok _ _ _ E2 BI)) as (r' & L' & MT & _).
    destruct S as (_ & _ & S). apply (S (o_e o)); [apply in_flat_map; exists r'; exact L'|auto|now apply more_specificb_ok].
Qed.
Definition catchesb (q : N * N) (e : enc) : bool :=
  match row_of e with Some w => if within q w then lc_okb w else false | None => false end.
Definition refused_okb : bool :=
  let E := encodings T in
  forallb (fun p => let q := pat_mv p in let C := filter (catchesb q) E in
    match C with [] => false | _ => true end &&
    forallb (fun r => forallb (fun e => match row_of e with None => false | Some w =>
      if disjointb q w then true else
      if existsb (fun e' => more_specificb e' e) C then true else
      forallb (fun cf => match res_set (fst cf) (snd cf) with None => false | Some z => within (both q w) z end) (exts r)
      end) (rec_encs r)) T) RS.
Lemma refused u ic a p : reserved_okb = true -> refused_okb = true -> In p RS -> fits p ic -> ic < 2 ^ 64 -> decodes T u ic a -> a = Throw EIllegalOpcode.
Proof.
  intros RO H IP F B D. apply pat_fits in F. change (inside (pat_mv p) ic) in F. unfold refused_okb in H. cbv zeta in H. rewrite forallb_forall in H.
  specialize (H _ IP). set (C := filter _ _) in H. apply andb_true_iff in H as [H1 H2]. rewrite forallb_forall in H2.
  assert (OK : forall e, In e (encodings T) -> enc_ok e).
  { intros e He. apply in_flat_map in He as (r & I1 & I2). unfold reserved_okb in RO. rewrite forallb_forall in RO. specialize (RO _ I1).
    rewrite forallb_forall in RO. specialize (RO _ I2). destruct (row_of e), (fx_mask e); try discriminate. apply andb_true_iff in RO as [RO _]. now apply enc_okb_ok. }
  assert (CM : forall e, In e C -> In e (encodings T) /\ matches e ic).
  { intros e He. apply filter_In in He as [I1 I2]. split; [auto|]. unfold catchesb in I2. destruct (row_of e) as [w|] eqn:ER; [|discriminate].
    destruct (within (pat_mv p) w) eqn:W; [|discriminate]. exact (row_matches _ _ _ (OK _ I1) ER I2 (within_ok _ _ _ W F)). }
  destruct D as [[D _]|(r & e & x & L & S & X & D)].
  - destruct C as [|e C']; [discriminate|]. destruct (CM e (or_introl eq_refl)) as [Q1 Q2]. destruct (D _ Q1 Q2).
  - enough (reserved x ic) by (destruct D as [[_ D]|[D _]]; [exact D|contradiction]). destruct L as [L1 L2]. specialize (H2 _ L1).
    rewrite forallb_forall in H2. specialize (H2 _ L2). destruct (row_of e) as [[mk v]|] eqn:ER; [|discriminate].
    assert (IE : In e (encodings T)) by (apply in_flat_map; eauto). pose proof (row_ok _ _ _ _ (OK _ IE) ER (proj1 (proj2 S))) as IN.
    destruct (disjointb (pat_mv p) (mk, v)) eqn:DJ; [destruct (disjointb_ok _ _ _ DJ F IN)|].
    destruct (existsb (fun e' => more_specificb e' e) C) eqn:EX.
    + apply existsb_exists in EX as (e' & E1 & E2). destruct (CM _ E1) as [Q1 Q2]. destruct S as (_ & _ & S). destruct (S _ Q1 Q2). now apply more_specificb_ok.
    + unfold reserved_okb in RO. rewrite forallb_forall in RO. specialize (RO _ L1). rewrite forallb_forall in RO. specialize (RO _ L2).
      rewrite ER in RO. destruct (fx_mask e) eqn:EF; [|discriminate]. destruct (exts_in r e x L2) as ([c ffm] & C1 & ->); [congruence|exact X|].
      rewrite forallb_forall in H2. specialize (H2 _ C1). cbn [fst snd] in *. unfold reserved. rewrite illop_lemma by auto. f_equal.
      apply res_set_ok. destruct (res_set c ffm) as [z|]; [|discriminate]. refine (within_ok _ _ _ H2 _). now apply both_ok.
Qed.
End Full.
