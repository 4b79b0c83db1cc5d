(** Operand lists agree with masks. *)
From Coq Require Import NArith ZArith List Bool Lia ZifyBool ZifyN String.
From Verif Require Import M_Base M_Field M_Forms M_Meta M_OperandInfo M_Extract M_Decoded.
From Verif Require Import S_Bits S_Operands S_Slots S_Imm S_Agree S_Pairs L_Bits L_Count L_OperandInfo L_Slots L_Imm L_Pairs.
Import ListNotations.
Local Open Scope N_scope.

(** ** The constructor's assertions hold iff the lists agree. *)
Lemma agree_loop_ok l bits ot :
  (forall e, In e l -> e_val e < 64) ->
  (forall e, In e l -> (match ot with None => True | Some _ => e_type e = ot end) -> N.testbit bits (e_val e) = true) ->
  agree_loop l bits ot = Ok true.
Proof.
  induction l as [|e l IH]; intros V H; [reflexivity|]. cbn [agree_loop].
  replace (64 <=? e_val e) with false by (specialize (V e (or_introl eq_refl)); lia).
  rewrite land_bit1_zero by (apply V; now left).
  rewrite IH; [| |intros; apply H; auto; now right]; [|intros; apply V; now right].
  destruct ot as [k|].
  - destruct (okind_eqb (e_type e) (Some k)) eqn:E; [|reflexivity]. apply okind_eqb_eq in E.
    rewrite H; auto. now left.
  - rewrite H; auto. now left.
Qed.
Lemma assert_agree_ok l bits ot :
  (forall e, In e l -> e_val e < 64) ->
  (forall e, In e l -> (match ot with None => True | Some _ => e_type e = ot end) -> N.testbit bits (e_val e) = true) ->
  (l = [] -> bits = 0) -> assert_agree l bits ot = Ok tt.
Proof.
  intros V H Z. unfold assert_agree, agree_opinfo. destruct l as [|e l].
  - rewrite Z by auto. reflexivity.
  - rewrite agree_loop_ok; auto.
Qed.
Lemma assert_all_ok l mask T :
  (forall e, In e l -> e_val e < 64) -> lists_agree l mask T -> assert_agree_all l mask T = Ok tt.
Proof.
  intros V (A & B & C). unfold assert_agree_all.
  rewrite assert_agree_ok; auto; [|intros E; now apply C]. cbn [rbind].
  assert (K : forall ks, assert_agree_kinds l T ks = Ok tt).
  { induction ks as [|k ks IH]; [reflexivity|]. cbn [assert_agree_kinds].
    rewrite assert_agree_ok; auto. intros E. now apply C. }
  apply K.
Qed.

(** ** Slot lists *)
Lemma live_in ffm ss s : In s (live ffm ss) <-> In s ss /\ loc_fixed (sl_loc s) ffm = false.
Proof. unfold live. rewrite filter_In, negb_true_iff. tauto. Qed.
Definition locs_ok (ss : list slot) : bool :=
  forallb (fun s => match sl_loc s with LConst n => n <? 32 | _ => true end) ss.
Lemma loc_val_lt ss s ic : locs_ok ss = true -> In s ss -> loc_val (sl_loc s) ic < 32.
Proof.
  intros L I. unfold locs_ok in L. rewrite forallb_forall in L. specialize (L s I).
  destruct (sl_loc s); cbn.
  - apply slice5. - apply slice5. - pose proof (slice3 lo ic). lia. - lia.
Qed.
Lemma src_locs c : locs_ok (src_slots c) = true. Proof. destruct c; reflexivity. Qed.
Lemma dst_locs c : locs_ok (dst_slots c) = true. Proof. destruct c; reflexivity. Qed.

Lemma nodup_fids_consistent m ss ffm ic :
  NoDup (map sl_fid ss) -> consistent (slot_elems m ss ffm ic).
Proof.
  intros ND e1 e2 f I1 I2 F1 F2. unfold slot_elems in *.
  apply in_map_iff in I1 as (s1 & <- & I1). apply in_map_iff in I2 as (s2 & <- & I2).
  cbn in F1, F2. injection F1 as F1. injection F2 as F2.
  apply live_in in I1 as [I1 _]. apply live_in in I2 as [I2 _].
  f_equal. clear - ND I1 I2 F1 F2.
  induction ss as [|s ss IH]; [destruct I1|]. cbn in ND. apply NoDup_cons_iff in ND as [N ND].
  destruct I1 as [->|I1], I2 as [->|I2]; auto.
  - exfalso. apply N. rewrite F1, <- F2. now apply in_map.
  - exfalso. apply N. rewrite F2, <- F1. now apply in_map.
Qed.
Lemma src_fids c : NoDup (map sl_fid (src_slots c)).
Proof. destruct c; repeat constructor; cbn; intuition congruence. Qed.
Lemma dst_fids c : NoDup (map sl_fid (dst_slots c)).
Proof. destruct c; repeat constructor; cbn; intuition congruence. Qed.
Lemma slots_built m ss ffm ic : NoDup (map sl_fid ss) ->
  exists o, add_elems oi_empty (slot_elems m ss ffm ic) = Ok o /\ oi_elems o = slot_elems m ss ffm ic /\ oi_wf o.
Proof.
  intros ND. apply (nodup_fids_consistent m _ ffm ic) in ND. apply C40_built in ND as [o E].
  exists o. destruct (add_elems_wf _ _ _ oi_wf_empty E). auto.
Qed.
Lemma mask_of_map {A} (f : A -> N) l i : N.testbit (mask_of (map f l)) i = existsb (fun x => f x =? i) l.
Proof.
  induction l as [|a l IH]; cbn [map mask_of fold_right existsb]; [apply N.bits_0|].
  rewrite N.lor_spec, N.pow2_bits_eqb. f_equal. exact IH.
Qed.
Lemma slot_elem_val m ic s : e_val (slot_elem m ic s) = loc_val (sl_loc s) ic. Proof. reflexivity. Qed.
Lemma mask_of_nil : mask_of [] = 0. Proof. reflexivity. Qed.

(** A typed-mask function that includes what the slots say and is empty for an empty list. *)
Definition covers (m : meta) (ss : list slot) (ffm ic : N) (T : kind -> N) : Prop :=
  (forall s k, In s (live ffm ss) -> slot_otype m s = Some k -> N.testbit (T k) (loc_val (sl_loc s) ic) = true) /\
  (live ffm ss = [] -> forall k, T k = 0).
Lemma slots_agree m ss ffm ic T : covers m ss ffm ic T ->
  lists_agree (slot_elems m ss ffm ic) (slot_mask ss ffm ic) T.
Proof.
  intros [C1 C2]. unfold slot_elems, slot_mask. split; [|split].
  - intros e I. apply in_map_iff in I as (s & <- & I). rewrite mask_of_map. apply existsb_exists.
    exists s. split; auto. apply N.eqb_refl.
  - intros e k I E. apply in_map_iff in I as (s & <- & I). now apply C1.
  - intros E. apply map_eq_nil in E. rewrite E. split; [reflexivity|]. now apply C2.
Qed.
Lemma typed_covers m ss ffm ic : typing_ok m -> covers m ss ffm ic (fun k => slot_typed m k ss ffm ic).
Proof.
  intros TO. split.
  - intros s k I E. unfold slot_typed. rewrite mask_of_map. apply existsb_exists. exists s.
    split; [|apply N.eqb_refl]. apply filter_In. split; auto. unfold slot_otype in E. unfold slot_is.
    destruct (sl_ty s) as [f|k']; [now apply TO|]. injection E as ->. apply kind_eqb_refl.
  - intros E k. unfold slot_typed. rewrite E. reflexivity.
Qed.

(** ** All methods return a value *)
Lemma addr_ok c ffm ic : exists v, x_addr (ext c ffm) ic = Ok v.
Proof. destruct c; xunf; eexists; reflexivity. Qed.
Lemma hint_ok c ffm ic : ic < 2 ^ 64 -> exists v, x_hint (ext c ffm) ic = Ok v.
Proof.
  intros H. destruct c; unfold ext, tie, xcls_body; xunf; lazy [dst_has_x0]; xunf; try (eexists; reflexivity).
  match goal with |- context [if ?b then _ else _] => destruct b end; eexists; reflexivity.
Qed.

Definition val0 (r : res N) : N := match r with Ok v => v | _ => 0 end.
Lemma six_ok f T : (forall k, f k = Ok (T k)) -> exists h, six f = Ok h /\ forall k, h k = T k.
Proof.
  intros H. unfold six. rewrite !H. cbn [rbind]. eexists. split; [reflexivity|]. intros []; reflexivity.
Qed.

(** ** Classes with irregular typed masks *)
Ltac irr m k := xunf; lazy [is_none_ot is_all_ot]; rewrite ?is_ot_testbit; fslice; change (0 =? 0) with true;
    cbn [negb fid_idx]; otcase m k.
Lemma srcT_ok_irr c ffm ic m k : irr_srcT c = true -> pair_store c = false -> exists v, x_srcT (ext c ffm) ic m k = Ok v.
Proof.
  intros I P. destruct c; try discriminate I; try discriminate P; clear I P; irr m k; xunf;
  repeat match goal with |- context [if ?b then _ else _] => destruct b end;
  try destruct k; eexists; reflexivity.
Qed.
Lemma dstT_ok_irr c ffm ic m k : irr_dstT c = true -> pair_load c = false -> exists v, x_dstT (ext c ffm) ic m k = Ok v.
Proof.
  intros I P. destruct c; try discriminate I; try discriminate P; clear I P; irr m k; xunf;
  repeat match goal with |- context [if ?b then _ else _] => destruct b end;
  try destruct k; eexists; reflexivity.
Qed.

Lemma testbit_false_true x i (P : Prop) : x = 0 -> N.testbit x i = true -> P.
Proof. intros -> H. now rewrite N.bits_0 in H. Qed.
Ltac tbs := unfold clear_x0; consts; rewrite ?andnot64_testbit', ?N.lor_spec, ?N.pow2_bits_eqb, ?N.eqb_refl, ?orb_true_r;
  cbn; rewrite ?orb_true_r; try reflexivity.
Ltac irr2 m k := xunf; lazy [is_none_ot is_all_ot]; rewrite ?is_ot_testbit; fslice; change (0 =? 0) with true;
    cbn [negb fid_idx]; destruct (mt_fset m k =? 0) eqn:?N0;
    [ apply N.eqb_eq in N0 | destruct (mt_fset m k =? N.ones 32) eqn:?NA; [apply N.eqb_eq in NA|] ]; xunf.
Lemma clear_x0_testbit x i : i < 64 -> i <> 0 -> N.testbit (clear_x0 x) i = N.testbit x i.
Proof.
  intros A B. unfold clear_x0. rewrite andnot64_testbit'. replace (i <? 64) with true by lia.
  change 1 with (2 ^ 0). rewrite N.pow2_bits_eqb. replace (0 =? i) with false by lia. apply andb_true_r.
Qed.
Lemma srcT_covers c ffm m ic : typing_ok m -> agree_cond c ffm m ic = true -> pair_store c = false ->
  covers m (src_slots c) ffm ic (fun k => val0 (x_srcT (ext c ffm) ic m k)).
Proof.
  intros TO AC P. destruct (irr_srcT c) eqn:IR.
  2:{ destruct (typed_covers m (src_slots c) ffm ic TO) as [A B]. split.
      - intros s k I E. rewrite srcT_conforms by auto. now apply A.
      - intros E k. rewrite srcT_conforms by auto. now apply B. }
  destruct c; try discriminate IR; try discriminate P; clear IR P;
    (split; [|intros L k; try discriminate L]).
  all: try (intros s k I E; apply live_in in I as [I F]; cbn [src_slots In] in I;
    repeat (destruct I as [I|I]; [subst s; cbn [slot_otype s_const s_reg sl_ty sl_loc loc_val loc_fixed] in E, F |- *|]);
    try contradiction I; pose proof (TO _ _ E) as TB; cbn [fid_idx] in TB).
  all: try (irr2 m k; [now apply (testbit_false_true _ _ _ N0 TB)| |]; rewrite ?TB; cbn [val0]; try (tbs; fail)).
  - cbn in AC. unfold int_or_all in AC. rewrite E in AC. destruct k; try reflexivity; congruence.
  - destruct (slice 7 5 ffm =? 0); [|discriminate F]. tbs.
  - cbn in AC. rewrite E in AC. rewrite AC. destruct (slice 7 5 ffm =? 0); [|discriminate F].
    destruct (N.testbit (mt_fset m k) 1); tbs.
  - destruct (slice 2 5 ffm =? 0); [|discriminate F]. tbs.
  - destruct (slice 2 5 ffm =? 0); [|discriminate F]. tbs.
  - unfold live in L. cbn in L. revert L. irr2 m k; cbn [val0]; auto.
    + destruct (slice 7 5 ffm =? 0), (slice 2 5 ffm =? 0); cbn; discriminate || reflexivity.
    + destruct (slice 7 5 ffm =? 0), (slice 2 5 ffm =? 0); cbn; try discriminate.
      intros _. destruct (N.testbit (mt_fset m k) 1), (N.testbit (mt_fset m k) 10); reflexivity.
  - destruct (slice 2 5 ffm =? 0); [|discriminate F]. cbn in AC. pose proof (slice5 2 ic).
    rewrite !clear_x0_testbit by lia. rewrite !N.lor_spec, clear_x0_testbit, !N.lor_spec, N.pow2_bits_true by lia. reflexivity.
  - destruct (slice 2 5 ffm =? 0); [|discriminate F]. cbn in AC. pose proof (slice5 2 ic).
    destruct (N.testbit (mt_fset m k) 0); rewrite ?clear_x0_testbit by lia; rewrite !N.lor_spec, N.pow2_bits_true; reflexivity.
Qed.

Lemma all_if_spec m f k : all_if m f = true -> N.testbit (mt_fset m k) (fid_idx f) = false \/ mt_fset m k = N.ones 32.
Proof.
  unfold all_if. rewrite forallb_forall. intros H. specialize (H k (in_all_kinds k)).
  apply orb_true_iff in H as [H|H]; [left; now apply negb_true_iff|right; now apply N.eqb_eq].
Qed.
Lemma C0_store_dstT c ffm ic m k :
  In c [X_C0_store; X_C0_store_byte; X_C0_store_half; X_C0_store_word; X_C0_store_double; X_C0_store_word_pair] ->
  all_if m RD = true -> val0 (x_dstT (ext c ffm) ic m k) = 0.
Proof.
  intros I A. apply (all_if_spec _ _ k) in A. cbn [fid_idx] in A. cbn [In] in I.
  repeat (destruct I as [<-|I]; [irr2 m k; cbn [val0]; try reflexivity;
    destruct A as [A|A]; first [rewrite A; reflexivity | rewrite A in NA; discriminate]|]). contradiction I.
Qed.
Lemma dstT_covers c ffm m ic : typing_ok m -> agree_cond c ffm m ic = true -> pair_load c = false -> c <> X_C0_store_word_pair ->
  covers m (dst_slots c) ffm ic (fun k => val0 (x_dstT (ext c ffm) ic m k)).
Proof.
  intros TO AC P Q. destruct (irr_dstT c) eqn:IR.
  2:{ destruct (typed_covers m (dst_slots c) ffm ic TO) as [A B]. split.
      - intros s k I E. rewrite dstT_conforms by auto. now apply A.
      - intros E k. rewrite dstT_conforms by auto. now apply B. }
  destruct c; try discriminate IR; try discriminate P; try congruence; clear IR P Q;
    (split; [|intros L k; try discriminate L]).
  all: try (intros s k I E; apply live_in in I as [I F]; cbn [dst_slots In] in I;
    repeat (destruct I as [I|I]; [subst s; cbn [slot_otype s_const s_long s_reg sl_ty sl_loc loc_val loc_fixed] in E, F |- *|]);
    try contradiction I).
  - injection E as <-. cbn [agree_cond] in AC. irr2 m KLong; try reflexivity. discriminate AC.
  - injection E as <-. cbn [agree_cond] in AC. irr2 m KLong; try reflexivity. discriminate AC.
  - cbn in AC. apply N.eqb_eq in AC. rewrite U_dstT_conforms by auto.
    destruct (typed_covers m (dst_slots X_U) ffm ic TO) as [A _]. cbn [val0].
    apply (A (s_reg RD 7) k); auto. apply live_in. split; [now left|]. exact F.
  - cbn in AC. apply N.eqb_eq in AC. rewrite U_dstT_conforms by auto.
    destruct (typed_covers m (dst_slots X_U) ffm ic TO) as [_ A]. now apply A.
  - apply C0_store_dstT; [cbn; tauto|exact AC].
  - apply C0_store_dstT; [cbn; tauto|exact AC].
  - apply C0_store_dstT; [cbn; tauto|exact AC].
  - apply C0_store_dstT; [cbn; tauto|exact AC].
  - apply C0_store_dstT; [cbn; tauto|exact AC].
  - pose proof (TO _ _ E) as TB. cbn [fid_idx] in TB.
    irr2 m k; [now apply (testbit_false_true _ _ _ N0 TB)|reflexivity|].
    cbn in AC. unfold int_or_all in AC. rewrite E in AC. destruct k; try reflexivity; congruence.
  - pose proof (TO _ _ E) as TB. cbn [fid_idx] in TB.
    irr2 m k; [now apply (testbit_false_true _ _ _ N0 TB)|reflexivity|].
    rewrite TB. destruct k; reflexivity.
Qed.

(** ** Pair classes *)
Lemma pair_dstT c ffm ic m k : is_pair_load c = true -> pair_free c ffm = true -> all_if m RD = true ->
  x_dstT (ext c ffm) ic m k =
  Ok (if N.testbit (mt_fset m k) 10 then mask_of (pair_regs (pair_first c ic)) else 0).
Proof.
  intros P F A. apply (all_if_spec _ _ k) in A. cbn [fid_idx] in A.
  pose proof (pair_dst c ffm ic P F) as D. revert D.
  destruct c; try discriminate P; clear P F; irr2 m k; intros D.
  all: try (rewrite N0, N.bits_0; reflexivity).
  all: try (rewrite NA; exact D).
  all: destruct A as [A|A]; [rewrite A; reflexivity|rewrite A in NA; discriminate].
Qed.
Lemma pair_srcT c ffm ic m k : is_pair_store c = true -> pair_free c ffm = true -> all_if m RS2 = true ->
  exists v, x_srcT (ext c ffm) ic m k = Ok v /\
    (N.testbit (mt_fset m k) 0 = true -> N.testbit v (pair_base c ic) = true) /\
    (N.testbit (mt_fset m k) 1 = true -> x_src (ext c ffm) ic = Ok v).
Proof.
  intros P F A. apply (all_if_spec _ _ k) in A. cbn [fid_idx] in A.
  pose proof (pair_data_addr c ffm ic P F) as (_ & _ & D). rewrite D. revert D.
  generalize (mask_of (pair_regs (pair_first c ic))). intros M.
  destruct c; try discriminate P; clear P; cbn [pair_free] in F;
    try (apply andb_true_iff in F as [F F']); irr2 m k; intros D.
  all: try (exists 0; split; [reflexivity|]; rewrite N0, !N.bits_0; split; discriminate).
  all: try (eexists; split; [exact D|]; split; [intros _|reflexivity]; rewrite !N.lor_spec, N.pow2_bits_true; reflexivity).
  all: destruct A as [A|A]; [|rewrite A in NA; discriminate].
  all: rewrite A; eexists; split; [reflexivity|]; split; [|discriminate]; intros ->.
  - rewrite F'. cbn [pair_base]. now rewrite N.lor_0_l, N.pow2_bits_true.
  - rewrite F'. cbn [pair_base]. now rewrite N.lor_0_l, N.pow2_bits_true.
  - reflexivity.
Qed.
Lemma pair_dsts_agree m r T : typing_ok m -> (forall k, T k = if N.testbit (mt_fset m k) 10 then mask_of (pair_regs r) else 0) ->
  lists_agree (pair_dests m r) (mask_of (pair_regs r)) T.
Proof.
  intros TO HT. unfold pair_dests, pair_regs in *. destruct (r =? 0).
  - split; [|split]; cbn; try tauto. intros _. split; auto. intros k. rewrite HT. now destruct (N.testbit _ _).
  - assert (M : forall e, In e [mkE (Some RD) (mt_otype m RD) r false false; mkE (Some RD2) (mt_otype m RD) (r + 1) false false] ->
        N.testbit (mask_of [r; r + 1]) (e_val e) = true /\ e_type e = mt_otype m RD).
    { intros e [<-|[<-|[]]]; cbn [e_val e_type mask_of fold_right];
      rewrite !N.lor_spec, !N.pow2_bits_eqb, ?N.eqb_refl, ?orb_true_r; auto. }
    split; [|split].
    + intros e I. now apply M.
    + intros e k I E. destruct (M e I) as [A B]. rewrite HT. rewrite B in E. apply TO in E. cbn [fid_idx] in E.
      rewrite E. exact A.
    + discriminate.
Qed.
Lemma pair_srcs_agree c m ic S T : typing_ok m -> is_pair_store c = true ->
  (c = X_C2_sp_store_word_pair -> pair_first c ic <> 0) ->
  S = N.lor (N.lor (2 ^ pair_base c ic) (2 ^ pair_first c ic)) (mask_of (pair_regs (pair_first c ic))) ->
  (forall k, (N.testbit (mt_fset m k) 0 = true -> N.testbit (T k) (pair_base c ic) = true) /\
             (N.testbit (mt_fset m k) 1 = true -> T k = S)) ->
  lists_agree (pair_srcs c m ic) S T.
Proof.
  intros TO P NZ HS HT.
  set (b := mkE (Some RS1) (mt_otype m RS1) (pair_base c ic) false false).
  assert (X : exists sd, pair_srcs c m ic = b :: pair_data m sd (pair_first c ic)).
  { destruct c; try discriminate P; cbn [pair_srcs]; unfold pair_srcs; try (eexists; reflexivity).
    specialize (NZ eq_refl). apply N.eqb_neq in NZ. rewrite NZ. eexists. reflexivity. }
  destruct X as [sd ->].
  assert (SB : N.testbit S (pair_base c ic) = true).
  { rewrite HS, !N.lor_spec, N.pow2_bits_true. reflexivity. }
  assert (SD : forall e, In e (pair_data m sd (pair_first c ic)) -> N.testbit S (e_val e) = true /\ e_type e = mt_otype m RS2).
  { intros e. rewrite HS. unfold pair_data, pair_regs. destruct (pair_first c ic =? 0); [intros []|].
    cbn [mask_of fold_right]. intros [<-|[<-|[]]]; cbn [e_val e_type]; rewrite !N.lor_spec, !N.pow2_bits_eqb, ?N.eqb_refl, ?orb_true_r;
    split; auto. }
  split; [|split].
  - intros e [<-|I]; [exact SB|]. now apply SD.
  - intros e k [<-|I] E.
    + cbn in E. apply TO in E. now apply HT.
    + destruct (SD e I) as [A B]. rewrite B in E. apply TO in E. destruct (HT k) as [_ H2]. now rewrite H2.
  - discriminate.
Qed.

(** ** Both sides of every class *)
Definition side_ok (xi : res opinfo) (xm : res N) (xt : kind -> res N) : Prop :=
  exists o S T, xi = Ok o /\ oi_wf o /\ xm = Ok S /\ (forall k, xt k = Ok (T k)) /\
    (forall e, In e (oi_elems o) -> e_val e < 64) /\ lists_agree (oi_elems o) S T.
Lemma C2_sp_src ffm ic : slice 2 5 ic <> 0 ->
  x_src (ext X_C2_sp ffm) ic = Ok (slot_mask (src_slots X_C2_sp) ffm ic).
Proof.
  intros H. pose proof (slice5 2 ic). xunf; fslice. dcase; xunf; consts; f_equal.
  - rewrite N.lor_0_l, N.lor_comm, N.lor_0_r, clear_x0_2 by lia. f_equal. unfold clear_x0.
    apply N.bits_inj. intros i. rewrite andnot64_testbit', N.pow2_bits_eqb.
    destruct (slice 2 5 ic =? i) eqn:E; [|reflexivity]. apply N.eqb_eq in E. subst i.
    replace (slice 2 5 ic <? 64) with true by lia. change 1 with (2 ^ 0). rewrite N.pow2_bits_eqb.
    now replace (0 =? slice 2 5 ic) with false by lia.
Qed.
Lemma xcls_dec (a b : xcls) : {a = b} + {a <> b}. Proof. decide equality. Qed.
Lemma src_side c ffm m ic : typing_ok m -> agree_cond c ffm m ic = true ->
  side_ok (x_srcI (ext c ffm) ic m false) (x_src (ext c ffm) ic) (x_srcT (ext c ffm) ic m).
Proof.
  intros TO AC. destruct (pair_store c) eqn:P.
  - assert (P' : is_pair_store c = true) by (destruct c; exact P || discriminate P).
    assert (F : pair_free c ffm = true /\ all_if m RS2 = true /\ (c = X_C2_sp_store_word_pair -> pair_first c ic <> 0)).
    { destruct c; try discriminate P; cbn [agree_cond pair_free pair_first] in *;
      rewrite ?andb_true_iff, ?negb_true_iff, ?N.eqb_neq in AC; rewrite ?andb_true_iff; intuition; discriminate. }
    destruct F as (F & A & NZ).
    destruct (pair_srcI c ffm ic m P' F) as (o & Eo & El & W).
    destruct (pair_data_addr c ffm ic P' F) as (_ & _ & ES).
    exists o. eexists. exists (fun k => val0 (x_srcT (ext c ffm) ic m k)).
    split; [exact Eo|]. split; [exact W|]. split; [exact ES|]. split; [|split].
    + intros k. destruct (pair_srcT c ffm ic m k P' F A) as (v & -> & _). reflexivity.
    + intros e I. rewrite El in I. pfacts ic. pose proof (slice5 15 ic). pose proof (slice3 7 ic). revert I.
      unfold pair_srcs, pair_data.
      destruct c; try discriminate P; cbn [pair_base pair_first]; try destruct (_ =? 0); cbn [In];
      intuition; subst; cbn [e_val]; lia.
    + rewrite El. apply pair_srcs_agree; auto. intros k.
      destruct (pair_srcT c ffm ic m k P' F A) as (v & E & H1 & H2). rewrite E. cbn [val0]. split; auto.
      intros H. specialize (H2 H). rewrite ES in H2. now injection H2.
  - destruct (slots_built m (src_slots c) ffm ic (src_fids c)) as (o & Eo & El & W).
    exists o, (slot_mask (src_slots c) ffm ic), (fun k => val0 (x_srcT (ext c ffm) ic m k)).
    split; [now rewrite srcI_conforms|]. split; [exact W|]. split; [|split; [|split]].
    + destruct (xcls_dec c X_C2_sp) as [Q|Q].
      * subst c. apply C2_sp_src. intros Z. cbn in AC. now rewrite Z in AC.
      * now apply src_conforms.
    + intros k. destruct (irr_srcT c) eqn:IR.
      * destruct (srcT_ok_irr c ffm ic m k IR P) as [v ->]. reflexivity.
      * now rewrite srcT_conforms.
    + intros e I. rewrite El in I. unfold slot_elems in I. apply in_map_iff in I as (s & <- & I).
      apply live_in in I as [I _]. apply (loc_val_lt _ s ic (src_locs c)) in I. cbn [slot_elem e_val]. lia.
    + rewrite El. apply slots_agree. now apply srcT_covers.
Qed.
Lemma dst_side c ffm m ic : typing_ok m -> agree_cond c ffm m ic = true ->
  side_ok (x_dstI (ext c ffm) ic m false) (x_dst (ext c ffm) ic) (x_dstT (ext c ffm) ic m).
Proof.
  intros TO AC. destruct (pair_load c) eqn:P.
  - assert (P' : is_pair_load c = true) by (destruct c; exact P || discriminate P).
    assert (F : pair_free c ffm = true /\ all_if m RD = true).
    { destruct c; try discriminate P; cbn [agree_cond pair_free] in *; now apply andb_true_iff in AC. }
    destruct F as (F & A).
    destruct (pair_dstI c ffm ic m P' F) as (o & Eo & El & W).
    pose proof (pair_dst c ffm ic P' F) as ES.
    exists o. eexists. eexists.
    split; [exact Eo|]. split; [exact W|]. split; [exact ES|]. split; [|split].
    + intros k. rewrite (pair_dstT c ffm ic m k P' F A). cbn beta. 
      instantiate (1 := fun k => if N.testbit (mt_fset m k) 10 then mask_of (pair_regs (pair_first c ic)) else 0). reflexivity.
    + intros e I. rewrite El in I. pfacts ic. revert I. unfold pair_dests.
      destruct c; try discriminate P; cbn [pair_first]; try destruct (_ =? 0); cbn [In];
      intuition; subst; cbn [e_val]; lia.
    + rewrite El. apply pair_dsts_agree; auto.
  - destruct (slots_built m (dst_slots c) ffm ic (dst_fids c)) as (o & Eo & El & W).
    exists o, (slot_mask (dst_slots c) ffm ic), (fun k => val0 (x_dstT (ext c ffm) ic m k)).
    split; [now rewrite dstI_conforms|]. split; [exact W|]. split; [|split; [|split]].
    + apply dst_conforms; auto. intros ->. now apply N.eqb_eq in AC.
    + intros k. destruct (irr_dstT c) eqn:IR.
      * destruct (dstT_ok_irr c ffm ic m k IR P) as [v ->]. reflexivity.
      * now rewrite dstT_conforms.
    + intros e I. rewrite El in I. unfold slot_elems in I. apply in_map_iff in I as (s & <- & I).
      apply live_in in I as [I _]. apply (loc_val_lt _ s ic (dst_locs c)) in I. cbn [slot_elem e_val]. lia.
    + rewrite El. apply slots_agree. destruct (xcls_dec c X_C0_store_word_pair) as [Q|Q].
      * subst c. split; [intros s k []|]. intros _ k. apply C0_store_dstT; [cbn; tauto|].
        cbn in AC. now apply andb_true_iff in AC.
      * now apply dstT_covers.
Qed.

Lemma data_ok c ffm ic m : agree_cond c ffm m ic = true -> exists v, x_data (ext c ffm) ic = Ok v.
Proof.
  intros AC. destruct (pair_store c) eqn:P.
  - assert (P' : is_pair_store c = true) by (destruct c; exact P || discriminate P).
    assert (F : pair_free c ffm = true).
    { destruct c; try discriminate P; cbn [agree_cond pair_free] in *;
      rewrite ?andb_true_iff in AC; rewrite ?andb_true_iff; intuition. }
    eexists. apply (pair_data_addr c ffm ic P' F).
  - destruct c; try discriminate P; clear; xunf; eexists; reflexivity.
Qed.

(** ** The constructor succeeds and its lists agree. *)
Lemma decode_total c ffm m ic n u : ic < 2 ^ 64 -> typing_ok m -> agree_cond c ffm m ic = true ->
  exists d, decode_info n u (ext c ffm) m ic = Ok d /\
    lists_agree (oi_elems (d_src_oi d)) (d_sources d) (d_srcT d) /\
    lists_agree (oi_elems (d_dst_oi d)) (d_dests d) (d_dstT d).
Proof.
  intros B TO AC.
  destruct (src_side c ffm m ic TO AC) as (so & S & T & E1 & _ & E2 & E3 & V1 & A1).
  destruct (dst_side c ffm m ic TO AC) as (do & S' & T' & F1 & _ & F2 & F3 & V2 & A2).
  destruct (addr_ok c ffm ic) as [ad Ea]. destruct (data_ok c ffm ic m AC) as [da Ed].
  destruct (hint_ok c ffm ic B) as [h Eh]. pose proof (imm_lemma c ffm ic B) as Ei.
  assert (Es : exists z, x_soff (ext c ffm) ic = Ok z).
  { destruct (xcls_dec c X_PF_hint) as [->|N].
    - destruct (PF_soff ffm ic B) as (v & _ & _ & E). eauto.
    - destruct (offset_lemma c ffm ic N B) as (z & -> & _). eauto. }
  destruct Es as [z Es].
  destruct (six_ok _ _ E3) as (hs & Hs & Hs'). destruct (six_ok _ _ F3) as (hd & Hd & Hd').
  assert (A1' : lists_agree (oi_elems so) S hs).
  { destruct A1 as (P & Q & R). split; [exact P|]. split; [intros; rewrite Hs'; now apply Q|].
    intros X. destruct (R X). split; auto. intros k. now rewrite Hs'. }
  assert (A2' : lists_agree (oi_elems do) S' hd).
  { destruct A2 as (P & Q & R). split; [exact P|]. split; [intros; rewrite Hd'; now apply Q|].
    intros X. destruct (R X). split; auto. intros k. now rewrite Hd'. }
  unfold decode_info. rewrite E1, F1, E2, F2, Hs, Hd, Ea, Ed, Eh, Ei, Es. cbn [rbind].
  rewrite !assert_all_ok by auto. 
  destruct (ic =? 0); cbn [rbind]; eexists; (split; [reflexivity|]); cbn; auto.
Qed.
Lemma regular_total c ffm m ic n u : ~ In c agree_exceptions -> ic < 2 ^ 64 -> typing_ok m ->
  exists d, decode_info n u (ext c ffm) m ic = Ok d /\
    lists_agree (oi_elems (d_src_oi d)) (d_sources d) (d_srcT d) /\
    lists_agree (oi_elems (d_dst_oi d)) (d_dests d) (d_dstT d).
Proof.
  intros N B T. apply decode_total; auto. destruct c; try reflexivity; exfalso; apply N; cbn; tauto.
Qed.
