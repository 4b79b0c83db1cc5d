(** The shipped tables against the manual: bit patterns and operands. *)
From Coq Require Import Ascii NArith ZArith Arith List Bool String Lia.
From Verif Require Import M_Base M_Field M_Forms M_Meta M_OperandInfo M_Extract M_Decoded M_Trie M_Builder M_DTable M_Raw.
From Verif Require Import S_Bits L_Bits S_Trie S_Slots S_Imm S_Pairs S_Agree S_Table S_Shipped S_Manual.
From Verif Require Import L_Trie L_Table L_Check L_Decode L_Readable L_Decoded L_Regs L_Claims L_Shipped.
Import ListNotations.
Local Open Scope N_scope.

(** ** Patterns as mask and value *)
Fixpoint mvs (l : list (option bool)) : N * N :=
  match l with
  | [] => (0, 0)
  | x :: r => let (m, v) := mvs r in
      match x with None => (2 * m + N.b2n false, 2 * v + N.b2n false) | Some b => (2 * m + N.b2n true, 2 * v + N.b2n b) end
  end.
Definition pat_mv (p : string) : N * N := mvs (rev (pattern_bits p)).
Lemma mvs_bits l i :
  N.testbit (fst (mvs l)) (N.of_nat i) = match nth_error l i with Some (Some _) => true | _ => false end /\
  N.testbit (snd (mvs l)) (N.of_nat i) = match nth_error l i with Some (Some b) => b | _ => false end.
Proof.
  revert i. induction l as [|x l IH]; intros i; [destruct i; auto|]. cbn [mvs]. destruct (mvs l) as [m v]. cbn [fst snd] in IH.
  destruct i as [|i].
  - cbn [nth_error]. change (N.of_nat 0) with 0. destruct x as [b|]; cbn [fst snd]; now rewrite !N.testbit_0_r.
  - cbn [nth_error]. rewrite Nat2N.inj_succ. destruct x as [b|]; cbn [fst snd]; rewrite !N.testbit_succ_r; apply IH.
Qed.
Lemma pat_fits p ic : fits p ic <-> N.land ic (fst (pat_mv p)) = snd (pat_mv p).
Proof.
  unfold fits, pat_mv. set (l := rev (pattern_bits p)). split.
  - intros H. apply N.bits_inj. intros i. rewrite N.land_spec, <- (N2Nat.id i).
    destruct (mvs_bits l (N.to_nat i)) as [-> ->]. specialize (H (N.to_nat i)). destruct (nth_error l (N.to_nat i)) as [[b|]|].
    + rewrite (H b eq_refl). apply andb_true_r.
    + apply andb_false_r.
    + apply andb_false_r.
  - intros H i b E. apply (f_equal (fun x => N.testbit x (N.of_nat i))) in H. rewrite N.land_spec in H.
    destruct (mvs_bits l i) as [E1 E2]. rewrite E1, E2, E, andb_true_r in H. exact H.
Qed.
(** Every opcode with these bits fits the pattern. *)
Definition subsumes (q : N * N) (mk v : N) : bool := (N.land (fst q) mk =? fst q) && (N.land v (fst q) =? snd q).
Lemma subsumes_ok p mk v ic : subsumes (pat_mv p) mk v = true -> N.land ic mk = v -> fits p ic.
Proof.
  unfold subsumes. intros H E. apply andb_true_iff in H as [H1 H2]. apply N.eqb_eq in H1, H2. apply pat_fits.
  rewrite <- H1 at 1. rewrite (N.land_comm _ mk), N.land_assoc, E. exact H2.
Qed.

(** ** What the table checks *)
Definition row_of (e : enc) : option (N * N) :=
  match all_mask e with Some m => Some (m, N.land (en_stencil e) m) | None => None end.
Lemma row_ok e mk v ic : enc_ok e -> row_of e = Some (mk, v) -> matches e ic -> N.land ic mk = v.
Proof.
  unfold row_of. intros O. destruct (all_mask e) as [m|] eqn:E; [|discriminate]. intros H M.
  assert (m = mk) as -> by congruence. assert (N.land (en_stencil e) mk = v) as <- by congruence.
  exact (proj2 (proj1 (all_mask_matches _ _ _ O E) M)).
Qed.
(** Under which name and for which bits an encoding is reported: as itself, or as an overlay
    with this mask. *)
Record orow := mkRow { o_n : string; o_mk : N; o_v : N; o_e : enc; o_ov : option (N * N) }.
Definition own_rows (r : irec) : list orow :=
  flat_map (fun e => match row_of e with Some (m, v) => [mkRow (en_mn e) m v e None] | None => [] end) (rec_encs r).
Definition ov_rows (recs : list irec) (ro : irec) : list orow :=
  match r_mn ro, ovb ro with
  | Some n, Some (b, mk, v) =>
      flat_map (fun r => if oseqb (instb r) b then map (fun q => mkRow n (N.lor (o_mk q) mk) (N.lor (o_v q) v) (o_e q) (Some (mk, v))) (own_rows r) else []) recs
  | _, _ => []
  end.
Definition rows (recs : list irec) : list orow := flat_map own_rows recs ++ flat_map (ov_rows recs) recs.
Definition rows_okb (recs : list irec) : bool :=
  enc_oks (encodings recs) && forallb (fun e => match row_of e with Some _ => true | None => false end) (encodings recs).

(** The row an opcode is read by. *)
Definition read_as (recs : list irec) (o : orow) (e : enc) (ic : N) (y : reading) : Prop :=
  o_n o = rd_mn y /\ o_e o = e /\ N.land ic (o_mk o) = o_v o /\
  match o_ov o with
  | None => forall mn mask, ~ overlay_hit recs mn (en_mn e) mask ic
  | Some (k, _) => forall mn mask, overlay_hit recs mn (en_mn e) mask ic -> popcount mask <= popcount k
  end.
Lemma reads_row recs recs' r e ic y : rows_okb recs = true -> (forall r, In r recs' -> In r recs) ->
  listed recs' r e -> matches e ic -> reads recs' r e ic y ->
  exists o, In o (rows recs) /\ read_as recs' o e ic y.
Proof.
  intros OK SI [L1 L2] M R. unfold rows_okb in OK. apply andb_true_iff in OK as [O1 O2]. apply enc_oks_ok in O1. rewrite Forall_forall in O1.
  rewrite forallb_forall in O2. assert (IE : In e (encodings recs)) by (apply in_flat_map; eauto).
  specialize (O1 e IE). specialize (O2 e IE). destruct (row_of e) as [[mk v]|] eqn:ER; [|discriminate]. pose proof (row_ok _ _ _ _ O1 ER M) as Q.
  assert (OWN : In (mkRow (en_mn e) mk v e None) (own_rows r)) by (apply in_flat_map; exists e; rewrite ER; split; [auto|now left]).
  destruct R as [((D1 & _) & D0)|(ro & mask & D1 & (D2 & _) & D0)].
  - exists (mkRow (en_mn e) mk v e None). split; [apply in_or_app; left; apply in_flat_map; eauto|]. split; [auto|]. cbn. auto.
  - exists (mkRow (rd_mn y) (N.lor mk mask) (N.lor v (N.land ic mask)) e (Some (mask, N.land ic mask))).
    split; [|split; [auto|]; cbn; split; [auto|]; split; [now rewrite N.land_lor_distr_r, Q|exact D0]].
    apply in_or_app. right. apply in_flat_map. exists ro. split; [auto|]. unfold ov_rows. rewrite (ovb_ok _ _ _ _ _ D2).
    destruct D2 as (-> & _). apply in_flat_map. exists r. split; [auto|]. destruct (listed_mn _ _ L2) as (HI & _). apply instb_ok in HI.
    rewrite HI. cbn [oseqb]. rewrite String.eqb_refl. apply in_map_iff. exists (mkRow (en_mn e) mk v e None). auto.
Qed.
Lemma decodes_reads recs u ic v : decodes recs u ic (Ok v) ->
  exists r e y, listed recs r e /\ matches e ic /\ selected (encodings recs) e ic /\ reads recs r e ic y /\ d_mnemonic (i_di v) = rd_mn y /\
    decode_info (rd_mn y) (d_uid (i_di v)) (rd_x y) (rd_meta y) ic = Ok (i_di v).
Proof.
  intros [[_ H]|(r & e & x & L & S & X & [[_ H]|(_ & y & w & R & AN & _)])]; [discriminate..|].
  exists r, e, y. split; [auto|]. split; [apply S|]. split; [auto|]. split; [auto|]. unfold answers in AN.
  destruct (decode_info _ w _ _ _) as [d| | |] eqn:E; try discriminate. destruct AN as [a AN].
  assert (i_di v = d) as Q by (injection AN; intros; subst; reflexivity). rewrite Q. apply decode_info_fields in E as Q'. destruct Q' as [Q1 Q2].
  rewrite Q2. auto.
Qed.

Definition mem (n : string) (l : list string) : bool := existsb (String.eqb n) l.
Lemma mem_in n l : mem n l = true <-> In n l.
Proof.
  unfold mem. rewrite existsb_exists. split.
  - intros (x & H & E). apply String.eqb_eq in E. now subst.
  - intros H. exists n. split; [auto|apply String.eqb_refl].
Qed.
(** ** Patterns *)
Definition patterns_okb (M : list minst) (odd : list string) (R : list orow) : bool :=
  let P := map (fun m => (mi_name m, pat_mv (mi_pat m))) M in
  forallb (fun o =>
    if existsb (fun p => if String.eqb (fst p) (o_n o) then subsumes (snd p) (o_mk o) (o_v o) else false) P then true
    else if mem (o_n o) odd then true else negb (existsb (fun p => String.eqb (fst p) (o_n o)) P)) R.
Lemma patterns_row M odd R o ic : patterns_okb M odd R = true -> In o R -> N.land ic (o_mk o) = o_v o ->
  in_manual M (o_n o) -> ~ In (o_n o) odd -> exists m, In m M /\ mi_name m = o_n o /\ fits (mi_pat m) ic.
Proof.
  intros P I1 E1 (m0 & I0 & N0) NO. unfold patterns_okb in P. rewrite forallb_forall in P.
  specialize (P _ I1). cbv beta iota zeta in P. destruct (existsb _ _) eqn:E2 in P.
  - apply existsb_exists in E2 as (p & H1 & H2). apply in_map_iff in H1 as (m & <- & H1). cbn [fst snd] in H2.
    destruct (String.eqb_spec (mi_name m) (o_n o)) as [Q|]; [|discriminate]. exists m. split; [auto|]. split; [auto|].
    exact (subsumes_ok _ _ _ _ H2 E1).
  - destruct (mem _ odd) eqn:E3 in P; [apply mem_in in E3; contradiction|]. apply negb_true_iff in P.
    enough (false = true) by discriminate. rewrite <- P. apply existsb_exists. exists (mi_name m0, pat_mv (mi_pat m0)).
    split; [apply in_map_iff; eauto|]. cbn [fst]. rewrite N0. apply String.eqb_refl.
Qed.
Lemma patterns_sound M odd recs recs' u ic v : rows_okb recs = true -> patterns_okb M odd (rows recs) = true ->
  (forall r, In r recs' -> In r recs) -> decodes recs' u ic (Ok v) ->
  in_manual M (d_mnemonic (i_di v)) -> ~ In (d_mnemonic (i_di v)) odd ->
  exists m, In m M /\ mi_name m = d_mnemonic (i_di v) /\ fits (mi_pat m) ic.
Proof.
  intros O P SI D IM NO. destruct (decodes_reads _ _ _ _ D) as (r & e & y & L & MT & _ & R & EN & _).
  destruct (reads_row _ _ _ _ _ _ O SI L MT R) as (o & I1 & E0 & E2 & E1 & _). rewrite EN, <- E0 in *.
  exact (patterns_row _ _ _ _ _ P I1 E1 IM NO).
Qed.

(** ** Operands *)
Definition field_mask (lo len : N) : N := N.shiftl (N.ones len) lo.
Lemma slice_cong lo len a b : N.land a (field_mask lo len) = N.land b (field_mask lo len) -> slice lo len a = slice lo len b.
Proof.
  intros H. apply N.bits_inj. intros i. rewrite !slice_testbit. apply (f_equal (fun x => N.testbit x (lo + i))) in H.
  unfold field_mask in H. rewrite !N.land_spec, shl_testbit, ones_testbit in H. replace (lo + i - lo) with i in H by lia.
  destruct (i <? len); [|reflexivity]. rewrite (proj2 (N.leb_le lo (lo + i))) in H by lia. cbn [andb] in H.
  rewrite !andb_true_r in H. now rewrite H.
Qed.
(** The pattern [(mk, v)] fixes these bits. *)
Definition coversb (mk lo len : N) : bool := N.land (field_mask lo len) mk =? field_mask lo len.
Lemma covers_ok mk v lo len ic : coversb mk lo len = true -> N.land ic mk = v -> slice lo len ic = slice lo len v.
Proof.
  intros H E. apply N.eqb_eq in H. apply slice_cong. rewrite <- E. apply N.bits_inj. intros i.
  apply (f_equal (fun x => N.testbit x i)) in H. rewrite N.land_spec in H. rewrite !N.land_spec, <- H.
  destruct (N.testbit ic i), (N.testbit mk i), (N.testbit (field_mask lo len) i); reflexivity.
Qed.
Definition place_okb (q : N * N) (l : loc) (p : place) : bool :=
  match l, p with
  | LReg a, At5 b | LAlways a, At5 b | LCReg a, At3 b | LConst a, Reg b => a =? b
  | LReg a, Reg n | LAlways a, Reg n => if coversb (fst q) a 5 then slice a 5 (snd q) =? n else false
  | _, _ => false
  end.
Lemma place_ok q l p ic : place_okb q l p = true -> N.land ic (fst q) = snd q -> loc_val l ic = place_val p ic.
Proof.
  destruct l as [a|a|a|a], p as [b|b|b]; cbn [place_okb loc_val place_val]; try discriminate; intros H E;
    try (apply N.eqb_eq in H; now subst);
    (destruct (coversb _ a 5) eqn:C; [|discriminate]; apply N.eqb_eq in H; now rewrite (covers_ok _ _ _ _ _ C E)).
Qed.
Definition bank_eqb (a : option bank) (b : bank) : bool :=
  match a, b with Some BX, BX | Some BF, BF | Some BV, BV => true | _, _ => false end.
Lemma bank_eqb_ok a b : bank_eqb a b = true -> a = Some b.
Proof. destruct a as [[]|], b; cbn; congruence. Qed.
Definition oper_okb (q : N * N) (m : meta) (s : slot) (o : oper) : bool :=
  bank_eqb (option_map bank_of (slot_otype m s)) (op_bank o) && place_okb q (sl_loc s) (op_place o) &&
  Bool.eqb (sl_sdata s) (op_data o) && Bool.eqb (sl_implied s) (op_acc o).
Lemma oper_ok q m s o ic : oper_okb q m s o = true -> N.land ic (fst q) = snd q -> shown (slot_elem m ic s) = meant ic o.
Proof.
  unfold oper_okb, shown, meant, slot_elem. intros H E. repeat (apply andb_true_iff in H as [H ?]). cbn [e_type e_val e_sdata e_implied].
  apply bank_eqb_ok in H. apply eqb_prop in H0, H1. rewrite H, H0, H1, (place_ok _ _ _ _ H2 E). reflexivity.
Qed.
Fixpoint opers_okb (q : N * N) (m : meta) (ss : list slot) (os : list oper) : bool :=
  match ss, os with
  | [], [] => true
  | s :: ss, o :: os => oper_okb q m s o && opers_okb q m ss os
  | _, _ => false
  end.
Lemma opers_ok q m ic ss os : opers_okb q m ss os = true -> N.land ic (fst q) = snd q ->
  map shown (map (slot_elem m ic) ss) = map (meant ic) os.
Proof.
  revert os. induction ss as [|s ss IH]; intros [|o os] H E; try discriminate; [reflexivity|]. cbn [opers_okb] in H.
  apply andb_true_iff in H as [H1 H2]. cbn [map]. f_equal; [exact (oper_ok _ _ _ _ _ H1 E)|auto].
Qed.

Definition seg_eqb (a b : segment) : bool :=
  let '(h, l, p) := a in let '(h', l', p') := b in (h =? h') && (l =? l') && (p =? p').
Lemma seg_eqb_ok a b : seg_eqb a b = true -> a = b.
Proof.
  destruct a as [[h l] p], b as [[h' l'] p']. cbn. intros H. apply andb_true_iff in H as [H H3]. apply andb_true_iff in H as [H1 H2].
  apply N.eqb_eq in H1, H2, H3. congruence.
Qed.
Fixpoint segs_eqb (a b : list segment) : bool :=
  match a, b with [], [] => true | x :: a, y :: b => seg_eqb x y && segs_eqb a b | _, _ => false end.
Lemma segs_eqb_ok a b : segs_eqb a b = true -> a = b.
Proof.
  revert b. induction a as [|x a IH]; intros [|y b] H; try discriminate; [reflexivity|]. cbn in H. apply andb_true_iff in H as [H1 H2].
  apply seg_eqb_ok in H1. f_equal; auto.
Qed.
Definition sign_eqb (a b : imm_sign) : bool :=
  match a, b with Unsigned, Unsigned => true | SignBit p, SignBit q => p =? q | _, _ => false end.
Lemma sign_eqb_ok a b : sign_eqb a b = true -> a = b.
Proof. destruct a, b; cbn; try discriminate; [reflexivity|]. intros H. apply N.eqb_eq in H. congruence. Qed.
Definition seg_free (ffm : N) (s : segment) : bool :=
  let '(hi, lo, at_) := s in N.land ffm (field_mask at_ (hi - lo + 1)) =? 0.
Lemma seg_free_ok ffm l ic : forallb (seg_free ffm) l = true -> imm_value l (N.ldiff ic ffm) = imm_value l ic.
Proof.
  induction l as [|[[hi lo] p] l IH]; [reflexivity|]. cbn [forallb imm_value fold_right]. intros H. apply andb_true_iff in H as [H1 H2].
  fold (imm_value l (N.ldiff ic ffm)). fold (imm_value l ic). rewrite IH by auto. f_equal. cbn [seg_value seg_free] in *. f_equal.
  apply N.eqb_eq in H1. apply slice_cong. apply N.bits_inj. intros i. apply (f_equal (fun x => N.testbit x i)) in H1.
  rewrite N.land_spec, N.bits_0 in H1. rewrite !N.land_spec, N.ldiff_spec.
  destruct (N.testbit ffm i), (N.testbit (field_mask p (hi - lo + 1)) i), (N.testbit ic i); cbn in *; congruence.
Qed.
Definition seg_zero (q : N * N) (s : segment) : bool :=
  let '(hi, lo, at_) := s in if coversb (fst q) at_ (hi - lo + 1) then slice at_ (hi - lo + 1) (snd q) =? 0 else false.
Lemma seg_zero_ok q l ic : forallb (seg_zero q) l = true -> N.land ic (fst q) = snd q -> imm_value l ic = 0.
Proof.
  intros H E. induction l as [|[[hi lo] p] l IH]; [reflexivity|]. cbn [forallb imm_value fold_right] in *. apply andb_true_iff in H as [H1 H2].
  fold (imm_value l ic). rewrite IH by auto. rewrite N.lor_0_r. cbn [seg_value seg_zero] in *. destruct (coversb _ p _) eqn:C; [|discriminate].
  apply N.eqb_eq in H1. rewrite (covers_ok _ _ _ _ _ C E), H1. reflexivity.
Qed.
Definition imm_okb (q : N * N) (ffm : N) (d d' : imm_desc) : bool :=
  match d, d' with
  | NoImm, NoImm => true
  | ConstImm v z, ConstImm v' z' => (v =? v') && (z =? z')%Z
  | ConstImm v z, NoImm => (v =? 0) && (z =? 0)%Z
  | ImmSegs l clear s, ImmSegs l' false s' => segs_eqb l l' && sign_eqb s s' && (negb clear || forallb (seg_free ffm) l)
  | ImmSegs l false _, NoImm => forallb (seg_zero q) l
  | _, _ => false
  end.
Lemma twos_zero n z : 0 < n -> twos_complement n 0 z -> z = 0%Z.
Proof.
  intros L H. apply (twos_unique n 0); [auto|auto|]. split; [|reflexivity].
  assert (0 < 2 ^ (Z.of_N n - 1))%Z by (apply Z.pow_pos_nonneg; lia). lia.
Qed.
Lemma imm_ok q ffm d d' ic i z : imm_okb q ffm d d' = true -> N.land ic (fst q) = snd q ->
  i = imm_of d ffm ic -> offset_of d i z -> i = imm_of d' 0 ic /\ offset_of d' i z.
Proof.
  destruct d as [|v w|l cl s], d' as [|v' w'|l' cl' s']; cbn [imm_okb]; try discriminate; intros H E; cbn [imm_of offset_of].
  - auto.
  - apply andb_true_iff in H as [H1 H2]. apply N.eqb_eq in H1. apply Z.eqb_eq in H2. intros -> ->. now subst.
  - apply andb_true_iff in H as [H1 H2]. apply N.eqb_eq in H1. apply Z.eqb_eq in H2. intros -> ->. now subst.
  - destruct cl; [discriminate|]. rewrite (seg_zero_ok _ _ _ H E). intros -> O. split; [reflexivity|].
    destruct s as [|p]; [exact O|]. apply (twos_zero (p + 1)); [lia|exact O].
  - destruct cl; discriminate.
  - destruct cl'; [destruct cl; discriminate|]. assert (H' : segs_eqb l l' && sign_eqb s s' && (negb cl || forallb (seg_free ffm) l) = true) by (destruct cl; exact H).
    clear H. rename H' into H. apply andb_true_iff in H as [H H3]. apply andb_true_iff in H as [H1 H2].
    apply segs_eqb_ok in H1. apply sign_eqb_ok in H2. subst l' s'. intros -> O. split; [|exact O].
    destruct cl; [|reflexivity]. cbn [negb orb] in H3. now apply seg_free_ok.
Qed.

(** A reading against a row. *)
Definition reads_okb (q : N * N) (m : minst) (c : xcls) (ffm : N) (mt : meta) : bool :=
  negb (is_pair_store c) && negb (is_pair_load c) && match c with X_PF_hint => false | _ => true end &&
  opers_okb q mt (live ffm (dst_slots c)) (mi_dests m) && opers_okb q mt (live ffm (src_slots c)) (mi_srcs m) &&
  imm_okb q ffm (imm_table c) (mi_imm m).
Lemma reads_ok m c ffm mt n u ic d : reads_okb (pat_mv (mi_pat m)) m c ffm mt = true -> ic < 2 ^ 64 -> fits (mi_pat m) ic ->
  decode_info n u (ext c ffm) mt ic = Ok d -> reports m ic d.
Proof.
  intros H B F D. apply pat_fits in F. unfold reads_okb in H. repeat (apply andb_true_iff in H as [H ?]).
  apply negb_true_iff in H, H4. unfold reports.
  rewrite (proj1 (C26_src _ _ _ _ _ _ _ H D)), (proj1 (C26_dst _ _ _ _ _ _ _ H4 D)). unfold slot_elems.
  rewrite (opers_ok _ _ _ _ _ H2 F), (opers_ok _ _ _ _ _ H1 F). split; [auto|]. split; [auto|].
  apply (imm_ok _ _ _ _ _ _ _ H0 F); [exact (decoded_imm _ _ _ _ _ _ _ B D)|].
  assert (PF : c <> X_PF_hint) by (intros ->; discriminate). exact (decoded_offset _ _ _ _ _ _ _ PF B D).
Qed.
Definition operands_okb (M : list minst) (odd : list string) (recs : list irec) : bool :=
  let P := map (fun m => (m, pat_mv (mi_pat m))) M in
  forallb (fun r => forallb (fun e => match fx_mask e with Some _ => true | None => false end) (rec_encs r) &&
    forallb (fun q => let '(n, c, ffm, mt) := q in
      if mem n odd then true else
      forallb (fun p => if String.eqb (mi_name (fst p)) n then reads_okb (snd p) (fst p) c ffm mt else true) P) (readings recs r)) recs.
Lemma operands_sound M odd recs recs' u ic v : operands_okb M odd recs = true ->
  (forall r, In r recs' -> In r recs) -> ic < 2 ^ 64 -> decodes recs' u ic (Ok v) -> ~ In (d_mnemonic (i_di v)) odd ->
  forall m, In m M -> mi_name m = d_mnemonic (i_di v) -> fits (mi_pat m) ic -> reports m ic (i_di v).
Proof.
  intros OK SI B D NO m IM NM F. destruct (decodes_reads _ _ _ _ D) as (r & e & y & L & MT & S & R & EN & DI).
  unfold operands_okb in OK. rewrite forallb_forall in OK. specialize (OK r (SI _ (proj1 L))). apply andb_true_iff in OK as [H1 H2].
  rewrite forallb_forall in H1, H2. destruct L as [Hr He]. specialize (H1 e He).
  assert (fx_mask e <> None) as FX by (destruct (fx_mask e); discriminate).
  enough (exists c ffm, rd_x y = ext c ffm /\ In (rd_mn y, c, ffm, rd_meta y) (readings recs r)) as (c & ffm & C1 & C2).
  { specialize (H2 _ C2). cbv beta iota in H2. destruct (mem (rd_mn y) odd) eqn:E; [apply mem_in in E; rewrite EN in NO; contradiction|].
    rewrite forallb_forall in H2. specialize (H2 (m, pat_mv (mi_pat m)) (in_map _ _ _ IM)). cbn [fst snd] in H2.
    rewrite NM, EN, String.eqb_refl in H2. rewrite C1 in DI. exact (reads_ok _ _ _ _ _ _ _ _ H2 B F DI). }
  destruct (listed_mn _ _ He) as (HI & _). apply instb_ok in HI. unfold readings. rewrite HI.
  destruct R as [((D1 & D2 & D3) & _)|(ro & mask & D1 & (D2 & (m0 & D3 & D3') & x & D4 & D5) & _)].
  - destruct (exts_in _ _ _ He FX D3) as (c & C1 & C2). exists (fst c), (snd c). split; [exact C2|]. apply in_or_app. left.
    apply in_flat_map. exists (rd_meta y). split; [eapply L_Shipped.metas_sub; eauto|]. apply in_map_iff. rewrite D1. eauto.
  - assert (exists c, In c (overlay_exts r ro) /\ rd_x y = ext (fst c) (snd c)) as (c & C1 & C2).
    { unfold overlay_extractor in D5. unfold overlay_exts. destruct (r_xform ro) as [n|].
      - destruct D5 as (c & D5 & D6). rewrite D5. exists (c, 0). split; [now left|exact D6].
      - rewrite D5. eapply exts_in; eauto. }
    exists (fst c), (snd c). split; [exact C2|]. apply in_or_app. right.
    apply in_flat_map. exists ro. split; [auto|]. rewrite (ovb_ok _ _ _ _ _ D2). destruct D2 as (D2 & _). rewrite D2, String.eqb_refl.
    apply in_flat_map. exists (rd_meta y). split; [|apply in_map_iff; eauto].
    unfold overlay_metas. rewrite D3, D3'. now left.
Qed.
