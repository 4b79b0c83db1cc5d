(** Lemmas: instructions made from trace records. *)
From Coq Require Import NArith ZArith Arith List Bool String Lia ZifyBool ZifyN ZifyNat.
From Verif Require Import M_Base M_Field M_Forms M_Meta M_OperandInfo M_Extract M_Decoded M_Cache M_Registry M_Trie M_Builder M_DTable M_Direct.
From Verif Require Import S_Bits S_Maps S_Uids S_Trie S_Table S_History S_TraceRecord.
From Verif Require Import L_Bits L_Count L_OperandInfo L_Cache L_Registry L_Uids L_Table L_Ids L_CtxUids L_History L_Objects L_Direct L_AnnoDecode S_Shipped L_HistRefuted.
Import ListNotations.
Local Open Scope N_scope.

(** ** The record's extractor *)
Lemma agree_loop_all l bits : (forall r, In r l -> r < 64 /\ N.testbit bits r = true) -> agree_loop (map (bare None false) l) bits None = Ok true.
Proof.
  induction l as [|r l IH]; intros H; cbn [map agree_loop]; [reflexivity|]. cbn [bare e_val e_type]. destruct (H r) as [L T]; [now left|].
  replace (64 <=? r) with false by lia. rewrite land_bit1_zero, T by exact L. cbn [negb andb]. apply IH. intros q Q. apply H. now right.
Qed.
Lemma agree_loop_kind l bits k : (forall r, In r l -> r < 64) -> agree_loop (map (bare None false) l) bits (Some k) = Ok true.
Proof.
  induction l as [|r l IH]; intros H; cbn [map agree_loop]; [reflexivity|]. cbn [bare e_val e_type]. 
  replace (64 <=? r) with false by (specialize (H r (or_introl eq_refl)); lia). cbn [okind_eqb andb]. apply IH. intros q Q. apply H. now right.
Qed.

Lemma ones_below w r : In r (ones_of w) -> r < 64 /\ N.testbit w r = true.
Proof. unfold ones_of. rewrite ones_from_in. intros [H1 H2]. split; [lia|exact H2]. Qed.
Lemma agree_bare w : w < 2 ^ 64 -> assert_agree_all (map (bare None false) (ones_of w)) w (fun _ => 0) = Ok tt.
Proof.
  intros L. assert (A1 : forall bits ot, (ones_of w = [] -> bits = 0) -> agree_loop (map (bare None false) (ones_of w)) bits ot = Ok true ->
    assert_agree (map (bare None false) (ones_of w)) bits ot = Ok tt).
  { intros bits ot Z E. unfold assert_agree, agree_opinfo. destruct (ones_of w) as [|r l]; cbn [map] in *; [rewrite Z by reflexivity|]; [|rewrite E]; reflexivity. }
  unfold assert_agree_all. rewrite A1.
  - cbn [rbind assert_agree_kinds all_kinds]. rewrite !A1; auto; apply agree_loop_kind; intros r R; now apply ones_below in R.
  - intros E. rewrite <- (mask_of_ones w L), E. reflexivity.
  - apply agree_loop_all. intros r R. now apply ones_below.
Qed.
Lemma trace_elems_ok w : w < 2 ^ 64 -> exists o, trace_elems w false = Ok o /\ oi_elems o = map (bare None false) (ones_of w) /\ forall k, oi_ntypes o k = 0.
Proof.
  intros L. unfold trace_elems. rewrite mask_elems_ok by exact L. cbn [rbind].
  destruct (bare_built _ (bare_none None false (ones_of w))) as (o & E & V). exists o. split; [exact E|]. split; [exact V|].
  assert (G : forall l o1 o2, add_elems o1 (map (bare None false) l) = Ok o2 -> forall k, oi_ntypes o2 k = oi_ntypes o1 k).
  { clear. induction l as [|r l IH]; intros o1 o2; cbn [map add_elems]; [intros H; assert (o2 = o1) as -> by congruence; reflexivity|].
    cbn [add_elem bare e_fid rbind]. intros H k. now rewrite (IH _ _ H). }
  intros k. exact (G _ _ _ E k).
Qed.
Lemma trace_decoded mn uid srcs dsts imm m ic : srcs < 2 ^ 64 -> dsts < 2 ^ 64 -> exists so do,
  decode_info mn uid (trace_ext srcs dsts imm) m ic =
    Ok (mkDI mn uid so do srcs dsts (fun k => match k with KWord | KLong | KSingle | KDouble | KQuad | KVector => 0 end)
          (fun k => match k with KWord | KLong | KSingle | KDouble | KQuad | KVector => 0 end) 0 0 false ImmNone imm (to_i64 imm) (mt_data m) (ext_itype_of m srcs dsts)) /\
  oi_elems so = map (bare None false) (ones_of srcs) /\ oi_elems do = map (bare None false) (ones_of dsts) /\
  forall k, oi_ntypes so k = 0 /\ oi_ntypes do k = 0.
Proof.
  intros LS LD. destruct (trace_elems_ok _ LS) as (so & E1 & V1 & T1). destruct (trace_elems_ok _ LD) as (dd & E2 & V2 & T2).
  exists so, dd. split; [|auto]. unfold decode_info. cbn [trace_ext x_srcI x_dstI x_src x_dst x_srcT x_dstT x_addr x_data x_hint x_imm x_soff x_immT].
  rewrite E1, E2. cbn [rbind six]. rewrite V1, V2. destruct (ic =? 0); [reflexivity|].
  pose proof (agree_bare _ LS) as Q1. pose proof (agree_bare _ LD) as Q2. unfold assert_agree_all, assert_agree_kinds, all_kinds in *.
  rewrite Q1. cbn [rbind]. rewrite Q2. reflexivity.
Qed.

(** ** The builder *)
Definition up_ok (_ : list irec) (b : builder) : Prop := da_up (ir_arr (b_inst b)) = DEFAULT_UP_SIZE.
Lemma add_up {T} (a : dynarray T) k v a' : da_add a k v = Ok a' -> da_up a' = da_up a.
Proof.
  unfold da_add. destruct (da_size a <=? k); cbn [da_resize da_size da_up]; destruct (k <? _); try discriminate;
    intros H; apply (f_equal (fun r => match r with Ok q => q | _ => a' end)) in H; cbv beta iota in H; rewrite <- H; reflexivity.
Qed.
Lemma register_up r m nu nu' r' uid : ir_register r m nu = Ok (nu', r', uid) -> da_up (ir_arr r') = da_up (ir_arr r).
Proof.
  unfold ir_register. destruct (mfind (ir_map r) m); [intros H; assert (r' = r) as -> by congruence; reflexivity|]. cbn [advance_uid].
  destruct (da_add _ _ _) as [a| | |] eqn:E; cbn [rbind]; try discriminate. intros H.
  assert (r' = mkIR (madd (ir_map r) m nu) a) as -> by congruence. exact (add_up _ _ _ _ E).
Qed.
Lemma alias_up r m uid nu r' : ir_alias r m uid nu = Ok r' -> da_up (ir_arr r') = da_up (ir_arr r).
Proof.
  unfold ir_alias. destruct (rassert _); cbn [rbind]; try discriminate. destruct (mfind _ m); [intros H; assert (r' = r) as -> by congruence; reflexivity|].
  destruct (rassert _); cbn [rbind]; try discriminate. intros H. assert (r' = mkIR (madd (ir_map r) m uid) (ir_arr r)) as -> by congruence. reflexivity.
Qed.
Lemma load_up l : forall used nu r nu' r', ir_load l used nu r = Ok (nu', r') -> da_up (ir_arr r') = da_up (ir_arr r).
Proof.
  induction l as [|[m uid] l IH]; intros used nu r nu' r'; cbn [ir_load]; [intros H; assert (r' = r) as -> by congruence; reflexivity|].
  destruct (uid =? INVALID_UID); [discriminate|]. destruct (existsb _ _); [discriminate|]. destruct (mfind _ m); [discriminate|].
  destruct (da_add _ _ _) as [a| | |] eqn:E; cbn [rbind]; try discriminate. intros H. apply IH in H. rewrite H. exact (add_up _ _ _ _ E).
Qed.
Lemma up_bld P b r mn st m b' i : is_inst r mn -> up_ok P b -> bld b mn (fname_of r mn) (r_expand r) st m = Ok (b', i) -> up_ok (P ++ [r])%list b'.
Proof.
  intros _ H E. unfold up_ok in *. apply bld_inst in E as [(_ & uid & E)|(_ & _ & uid & E)]; [apply register_up in E|apply alias_up in E]; congruence.
Qed.
Lemma up_overlay P b r mn o x b' : r_mn r = Some mn -> r_overlay r = Some o -> up_ok P b -> build_overlay b mn o r x = Ok b' -> up_ok (P ++ [r])%list b'.
Proof. intros _ _ H E. unfold up_ok in *. apply overlay_inst in E as (uid & E). apply register_up in E. congruence. Qed.
Record sound (annos : list (string * anno)) (al : string -> Prop) (b : builder) : Prop := mkSound {
  so_annos : b_annos b = annos;
  so_up : da_up (ir_arr (b_inst b)) = DEFAULT_UP_SIZE;
  so_nu : 0 < b_nu b < w32;
  so_reg : reg_ok al (b_nu b) (b_inst b) }.
Lemma decoder_sound uids annos nu incl excl recs s : 0 < nu < w32 -> make_decoder uids annos nu incl excl recs = Ok s -> sound annos (expands recs) (fst s).
Proof.
  intros N H. pose proof (decoder_fresh _ _ _ _ _ _ _ N H) as (L1 & L2 & R & _). unfold make_decoder in H.
  destruct (builder_new uids annos nu) as [b0| | |] eqn:E; cbn [rbind] in H; try discriminate.
  pose proof (ainv_new annos _ _ _ E) as AI.
  destruct (configure_keep (ainv annos) (fun P b mn m => ainv_metas annos P b _) (ainv_bld annos) (ainv_overlay annos) incl excl recs [] (b0, tree_new) s AI H) as (P & Q & _).
  assert (U0 : up_ok [] b0).
  { unfold builder_new in E. destruct (ir_new uids nu) as [[nu1 r1]| | |] eqn:EN; cbn [rbind] in E; try discriminate. apply load_up in EN.
    set (bb := mkB _ _ _ _ _ _ _) in E. destruct (add_custom bb "nop" _) as [b1| | |] eqn:E1; cbn [rbind] in E; try discriminate.
    apply custom_inst in E1 as (u1 & E1), E as (u2 & E). apply register_up in E1, E. unfold up_ok. rewrite E, E1. unfold bb. cbn [b_inst]. rewrite EN. reflexivity. }
  destruct (configure_keep up_ok (fun P b mn m H => H) up_bld up_overlay incl excl recs [] (b0, tree_new) s U0 H) as (P' & Q' & _).
  split; [exact (ai_annos _ _ _ Q)|exact Q'|lia|exact R].
Qed.

Section Calls.
Context {A U : Type} (u0 : U) (annos : list (string * anno)) (al : string -> Prop).
Notation dt := (dt A U).
Notation op := (op A U).
(** Factories that do not exist have decoded nothing. *)
Record clean (d : dt) : Prop := mkClean {
  cl_b : sound annos al (dt_b d);
  cl_st : forall i, nth_error (b_facts (dt_b d)) i = None -> dt_stash d i = stash_new }.
Lemma clean_same d d' : dt_b d' = dt_b d -> dt_stash d' = dt_stash d -> clean d -> clean d'.
Proof. intros E1 E2 [H1 H2]. split; rewrite E1, ?E2; auto. Qed.
Lemma leaf_clean d i mn ic x : clean d -> clean (fst (leaf_get d i mn ic x)).
Proof.
  intros [H1 H2]. unfold leaf_get. destruct (stash_lookup _ _ _ _ ic); [split; auto|]. unfold get_fact.
  destruct (nth_error (b_facts (dt_b d)) i) as [f|] eqn:E; cbn [rbind]; [|split; auto]. destruct (leaf_info f mn ic x); try (split; assumption).
  split; cbn; auto. intros j J. destruct (Nat.eqb_spec j i) as [->|]; [congruence|auto].
Qed.
Lemma get_clean d ic : clean d -> clean (fst (get_info d ic)).
Proof.
  intros C. unfold get_info. destruct (cache_lookup _ _ ic); [exact C|]. unfold tree_get.
  destruct (tree_sel (dt_tree d) ic) as [[mn p]| | |]; try exact C. destruct (x_illop _ ic) as [[]| | |]; try exact C.
  match goal with |- context [leaf_get ?a ?b ?c ?e ?f] => pose proof (leaf_clean a b c e f C) as Q; destruct (leaf_get a b c e f) as [d' [v| | |]] end; try exact Q.
  apply (clean_same d'); auto.
Qed.
Lemma make_clean d ic a : clean d -> clean (fst (make_inst u0 d ic a)).
Proof.
  assert (CO : forall d i, clean d -> clean (fst (copy_out d i))).
  { intros d0 i C. unfold copy_out. destruct (dt_heap d0 i); [|exact C]. cbn [alloc fst]. apply (clean_same d0); auto. }
  intros C. unfold make_inst. destruct (cache_lookup _ _ ic); [now apply CO|].
  pose proof (get_clean d ic C) as Q. destruct (get_info d ic) as [d' [v| | |]]; try exact Q. cbn [alloc]. apply CO. apply (clean_same d'); auto.
Qed.
Lemma sound_register b b' mn uid : ir_register (b_inst b) mn (b_nu b) = Ok (b_nu b', b_inst b', uid) -> b_annos b' = b_annos b -> sound annos al b -> sound annos al b'.
Proof.
  intros E EA [H1 H2 H3 H4]. split; [congruence|apply register_up in E; congruence|..]; apply (register_ok al) in E as (Q1 & Q2 & Q3 & _); auto; try lia; exact Q3.
Qed.
Lemma le_none b b' i : b_le b b' -> nth_error (b_facts b') i = None -> nth_error (b_facts b) i = None.
Proof. intros L H. destruct (nth_error (b_facts b) i) as [f|] eqn:E; [|reflexivity]. apply (bl_facts _ _ L) in E as (f' & E & _). congruence. Qed.
Lemma trace_clean d ic tmn x a : clean d -> clean (fst (make_inst_from_trace u0 d ic tmn x a)).
Proof.
  intros C. unfold make_inst_from_trace. pose proof (make_clean d ic a C) as Q. destruct (make_inst u0 d ic a) as [d1 [j| | |]]; try exact Q. cbn [fst] in Q.
  destruct (dt_heap d1 j) as [o|]; [|exact Q]. destruct (String.eqb _ tmn); [exact Q|].
  destruct (bld (dt_b d1) tmn tmn "" 0 meta_rv32i) as [[b i]| | |] eqn:E; try exact Q.
  assert (C1 : clean (set_b d1 b)).
  { pose proof (bld_normal_inv _ _ _ _ _ _ _ E) as BN. pose proof (bn_le _ _ _ _ _ _ _ BN) as LE. destruct Q as [Q1 Q2].
    apply bld_inst in E as [(_ & uid & E)|(NE & _)]; [|contradiction NE; reflexivity]. split; cbn [set_b dt_b dt_stash].
    - exact (sound_register _ _ _ _ E (bl_annos _ _ LE) Q1).
    - intros k K. apply Q2. exact (le_none _ _ _ LE K). }
  pose proof (leaf_clean _ i tmn ic x C1) as C2. destruct (leaf_get (set_b d1 b) i tmn ic x) as [d2 [v| | |]]; try exact C2.
  cbn [alloc fst]. apply (clean_same d2); auto.
Qed.
Lemma uid_clean d b uid o : clean d -> find_ifact_uid (dt_b d) uid = Ok (b, o) -> clean (set_b d b).
Proof.
  intros [H1 H2]. unfold find_ifact_uid. destruct (dk_contains_n _ _).
  - destruct (dk_lookup_n _ _); cbn [rbind]; try discriminate. intros H. assert (b = dt_b d) as -> by congruence. split; auto.
  - destruct (ir_mnemonic _ _); cbn [rbind]; try discriminate. destruct (find_ifact _ _); [|intros H; assert (b = dt_b d) as -> by congruence; split; auto].
    destruct (dk_add _ _ _ _) as [st| | |]; cbn [rbind]; try discriminate. intros H. assert (b = set_stash (dt_b d) st) as -> by congruence. split; [destruct H1; split; auto|auto].
Qed.
Lemma lift_clean (p : dt * res nat) : clean (fst p) -> clean (fst (lift_obj p)).
Proof. destruct p as [d [k| | |]]; try (intros C; exact C). cbn [fst lift_obj]. intros C. destruct (dt_heap d k); [|exact C]. apply (clean_same d); auto. Qed.
Lemma lift_unit_clean (p : dt * res unit) : clean (fst p) -> clean (fst (lift_unit p)).
Proof. destruct p as [d [k| | |]]; intros C; exact C. Qed.
Lemma step_clean d (o : op) : clean d -> clean (fst (step u0 d o)).
Proof.
  intros C. destruct o as [ic|ic a|ic mn x a|mn uid x a|k mn x| |k u|k]; cbn [step].
  - pose proof (get_clean d ic C) as Q. destruct (get_info d ic) as [d1 [v| | |]]; exact Q.
  - apply lift_clean. now apply make_clean.
  - apply lift_clean. now apply trace_clean.
  - apply lift_clean. unfold make_inst_directly. match goal with |- context [let (_, _) := ?p in _] => set (q := p) end.
    assert (Q : clean (fst q)).
    { unfold q. destruct (uid =? INVALID_UID); [exact C|]. destruct (ir_mnemonic _ uid); try exact C.
      destruct (find_ifact_uid (dt_b d) uid) as [[b o]| | |] eqn:E; try exact C. exact (uid_clean _ _ _ _ C E). }
    destruct q as [d1 r]. cbn [fst] in Q. destruct r as [[mn' [i|]]| | |]; try exact Q. destruct (let* f := _ in _); try exact Q.
    cbn [alloc fst]. apply (clean_same d1); auto.
  - destruct (held d k) as [i|]; [|exact C]. apply lift_unit_clean. unfold morph_inst. destruct (find_ifact _ mn); [|exact C].
    destruct (let* f := _ in _); try exact C. destruct (dt_heap d i); [|exact C]. apply (clean_same d); auto.
  - apply lift_unit_clean. unfold flush_caches. cbn [dt_tree set_oc set_ic]. destruct (flush_tree _) as [fs| | |]; try (apply (clean_same d); auto; fail).
    destruct C as [C1 C2]. split; cbn; [exact C1|]. intros i I. specialize (C2 i I). rewrite C2. destruct (existsb _ _); reflexivity.
  - destruct (held d k) as [i|]; [|exact C]. destruct (dt_heap d i); [|exact C]. apply (clean_same d); auto.
  - destruct (held d k) as [i|]; [|exact C]. destruct (dt_heap d i); exact C.
Qed.
Lemma run_clean (ops : list op) : forall d, clean d -> clean (fst (run u0 d ops)).
Proof.
  induction ops as [|o ops IH]; intros d C; cbn [run]; [exact C|]. pose proof (step_clean d o C) as Q. destruct (step u0 d o) as [d' a]. cbn [fst] in Q.
  destruct a; try exact Q; pose proof (IH d' Q) as R; destruct (run u0 d' ops); exact R.
Qed.

(** ** A name that is not that of an instruction *)
Lemma register_total b mn : sound annos al b -> b_nu b + 100 < 2 ^ 32 -> exists nu' r' uid, ir_register (b_inst b) mn (b_nu b) = Ok (nu', r', uid).
Proof.
  intros [H1 H2 H3 H4] L. unfold ir_register. destruct (mfind _ mn); [eauto|]. cbn [advance_uid].
  destruct (da_add_ok (ir_arr (b_inst b)) (b_nu b) mn (ro_arr _ _ _ H4)) as (a & ->); [rewrite H2; exact L|rewrite H2; reflexivity|]. cbn [rbind]. eauto.
Qed.
Lemma bld_new b mn : sound annos al b -> b_nu b + 100 < 2 ^ 32 -> find_ifact b mn = None -> exists b' uid,
  bld b mn mn "" 0 meta_rv32i = Ok (b', List.length (b_facts b)) /\ 0 < uid /\ mfind (ir_map (b_inst b')) mn = Some uid /\
  nth_error (b_facts b') (List.length (b_facts b)) = Some (mkFact mn 0 meta_rv32i [(mn, uid)] [(mn, mfind annos mn)] [] []).
Proof.
  intros S L F. assert (X : exists b' i, bld b mn mn "" 0 meta_rv32i = Ok (b', i)).
  { unfold bld. change (String.eqb "" "") with true. cbv zeta iota. rewrite String.eqb_refl, F. cbn [new_fact].
    unfold upd_fact at 1, get_fact at 1. cbn [b_facts set_reg set_facts]. rewrite nth_app_last. cbn [rbind].
    unfold register_inst. cbn [set_facts set_reg b_inst b_nu]. destruct (register_total b mn S L) as (nu' & r' & uid & ->). cbn [rbind fst snd].
    unfold upd_fact, get_fact. cbn [b_facts set_inst set_facts]. rewrite set_nth_last, nth_app_last. cbn [rbind]. eauto. }
  destruct X as (b' & i & X). exists b'. pose proof (bld_normal_inv _ _ _ _ _ _ _ X) as [(f0 & u & D & N & M) _ _ _ _].
  destruct D as [(D & _)|(_ & -> & ->)]; [congruence|]. exists u. split; [exact X|]. split.
  - apply bld_inst in X as [(_ & uid & X)|(NE & _)]; [|contradiction NE; reflexivity]. destruct S as [S1 S2 S3 S4].
    apply (register_ok al) in X as (_ & _ & R & _); try lia; [|exact S4]. apply (ro_bound _ _ _ R) in M. lia.
  - split; [exact M|]. rewrite N. unfold panno_of, find_anno. rewrite (so_annos _ _ _ S). cbn. destruct (mfind annos mn); reflexivity.
Qed.
Lemma record_step (d : dt) ic mn srcs dsts imm a k o : srcs < 2 ^ 64 -> dsts < 2 ^ 64 -> clean d ->
  snd (step u0 d (OMake ic a)) = Ok (AObj k o) -> ob_mnemonic o <> mn -> find_ifact (dt_b d) mn = None -> b_nu (dt_b d) + 100 < 2 ^ 32 ->
  let p := step u0 d (OTrace ic mn (trace_ext srcs dsts imm) a) in
  exists k' v, snd p = Ok (AObj k' (mkObj v a u0)) /\ traced mn ic srcs dsts imm v /\ i_anno v = mfind annos mn /\
    d_uid (i_di v) = uid_now (fst p) mn /\ d_uid (i_di v) <> 0.
Proof.
  intros LS LD C E NE F L. cbn [step] in *. unfold make_inst_from_trace. pose proof (make_inst_b u0 d ic a) as B. pose proof (make_clean d ic a C) as C1.
  destruct (make_inst u0 d ic a) as [d1 [j| | |]]; cbn [lift_obj snd fst] in *; try discriminate.
  destruct (dt_heap d1 j) as [o'|]; [|discriminate]. assert (o' = o) as -> by (cbn in E; congruence). clear E.
  destruct (String.eqb_spec (ob_mnemonic o) mn) as [Q|_]; [contradiction|]. rewrite B. destruct (bld_new (dt_b d) mn (cl_b _ C) L F) as (b' & uid & -> & UP & UM & N).
  unfold leaf_get. cbn [set_b dt_stash dt_b]. rewrite (cl_st _ C1); [|rewrite B; apply nth_error_None; lia].
  replace (stash_lookup XS_HASH XS_MAP (fun k0 => k0) stash_new ic) with (@None info) by reflexivity.
  unfold get_fact. rewrite N. cbn [rbind]. unfold leaf_info, fact_uid, fact_anno, fact_meta. cbn [fc_uids fc_annos fc_metas fc_olays mfind fc_meta rassert rbind ov_find find].
  rewrite !String.eqb_refl. cbn [rbind]. replace (uid =? INVALID_UID) with false by (unfold INVALID_UID; lia). cbn [negb rassert rbind].
  destruct (trace_decoded mn uid srcs dsts imm meta_rv32i ic LS LD) as (so & dd & -> & V1 & V2 & T). cbn [rbind].
  cbn [alloc set_st dt_next set_ic]. cbn [lift_obj dt_heap set_ic]. rewrite Nat.eqb_refl. cbn [snd fst].
  eexists _, _. split; [reflexivity|]. split; [|split; [reflexivity|split; [|cbn; lia]]].
  2:{ cbn [i_di d_uid]. unfold uid_now, lookup_uid, ir_uid. cbn [fst hand_out dt_b set_ic set_st set_b]. now rewrite UM. }
  constructor; cbn [i_di i_icode d_mnemonic d_sources d_dests d_src_oi d_dst_oi d_imm d_soff d_hint d_ext d_dsize d_addr d_data d_srcT d_dstT]; auto.
  - intros LI. now apply to_i64_twos.
  - intros kd. destruct (T kd) as [T1 T2]. unfold d_n_srcT, d_n_dstT. cbn [d_src_oi d_dst_oi]. destruct kd; auto.
Qed.
(** ** The decoder comes first *)
Lemma decoder_first_step (d : dt) ic mn x a : match snd (step u0 d (OMake ic a)) with
  | Ok (AObj _ o) => ob_mnemonic o = mn -> step u0 d (OTrace ic mn x a) = step u0 d (OMake ic a)
  | _ => step u0 d (OTrace ic mn x a) = step u0 d (OMake ic a) end.
Proof.
  cbn [step]. unfold make_inst_from_trace. destruct (make_inst u0 d ic a) as [d1 [j| | |]]; cbn [lift_obj snd]; try reflexivity.
  destruct (dt_heap d1 j) as [o|] eqn:H; cbn [snd]; [|reflexivity]. intros <-. rewrite String.eqb_refl. cbn [lift_obj]. rewrite H. reflexivity.
Qed.
End Calls.

(** ** Claims *)
Section Claims.
Context {A U : Type} (u0 : U).
Lemma decoder_first_lemma (d : dt A U) ic mn x a :
  (forall k o, snd (step u0 d (OMake ic a)) = Ok (AObj k o) -> ob_mnemonic o = mn) ->
  snd (step u0 d (OTrace ic mn x a)) = snd (step u0 d (OMake ic a)).
Proof.
  intros H. pose proof (decoder_first_step u0 d ic mn x a) as Q. destruct (snd (step u0 d (OMake ic a))) as [[v|k o|]| | |] eqn:E; try (rewrite Q, E; reflexivity).
  rewrite Q, E by (eapply H; reflexivity). reflexivity.
Qed.
Lemma record_lemma uids annos nu incl excl recs s : 0 < nu < w32 -> make_decoder uids annos nu incl excl recs = Ok s ->
  forall (h : list (op A U)) ic mn srcs dsts imm a k o, srcs < 2 ^ 64 -> dsts < 2 ^ 64 ->
  let d := fst (run u0 (dt_new s) h) in numbers_left d ->
  snd (step u0 d (OMake ic a)) = Ok (AObj k o) -> ob_mnemonic o <> mn -> opcode_now d mn = Throw EUnknownMnemonic ->
  let p := step u0 d (OTrace ic mn (trace_ext srcs dsts imm) a) in
  exists k' v, snd p = Ok (AObj k' (mkObj v a u0)) /\ traced mn ic srcs dsts imm v /\ i_anno v = mfind annos mn /\
    d_uid (i_di v) = uid_now (fst p) mn /\ d_uid (i_di v) <> 0.
Proof.
  intros N H h ic mn srcs dsts imm a k o LS LD d NL E NE F. apply (record_step u0 annos (expands recs) d ic mn srcs dsts imm a k o); auto.
  - apply run_clean. split; [exact (decoder_sound _ _ _ _ _ _ _ N H)|reflexivity].
  - unfold opcode_now, get_opcode in F. cbn [fst] in F. destruct (find_ifact (dt_b d) mn) as [i|]; [|reflexivity]. exfalso.
    unfold get_fact in F. destruct (nth_error _ i); discriminate.
Qed.
End Claims.

(** ** Cases *)
Definition sight (a : res (ans N N)) : res (option (string * N * N * N)) :=
  let* a := a in
  Ok (match a with AObj _ o => let v := i_di (ob_info o) in Some (d_mnemonic v, d_sources v, d_dests v, d_imm v) | _ => None end).
Definition sights (recs : list irec) (ops : list (op N N)) :=
  match make_decoder [] [] 1 [] [] recs with
  | Ok s => Some (map sight (snd (run 0 (dt_new s) ops)))
  | _ => None
  end.
Lemma sights_ok recs ops l : sights recs ops = Some l -> exists s, make_decoder [] [] 1 [] [] recs = Ok s /\ map sight (snd (run 0 (dt_new s) ops)) = l.
Proof.
  unfold sights. destruct (make_decoder _ _ _ _ _ _) as [s| | |] eqn:E; try discriminate. intros H. exists s. split; [reflexivity|congruence].
Qed.
Lemma obj_of_sight a n x y z : sight a = Ok (Some (n, x, y, z)) ->
  exists k o, a = Ok (AObj k o) /\ ob_mnemonic o = n /\ d_sources (i_di (ob_info o)) = x /\ d_dests (i_di (ob_info o)) = y /\ d_imm (i_di (ob_info o)) = z.
Proof. destruct a as [[v|k o|]| | |]; cbn; try discriminate. intros [= <- <- <- <-]. exists k, o. auto. Qed.
Definition again : list (op N N) := [OTrace 0x108093 "foo" (trace_ext 2 4 0) 1; OTrace 0x108093 "foo" (trace_ext 0x60 0x80 9) 1].
Definition by_expansion : list (op N N) := [OMake 0x85 1; OTrace 0x85 "addi" (trace_ext 0x60 0x80 9) 1].
(** The second record of a name and an opcode. *)
Lemma repeat_lemma : exists recs (s : builder * tree) ic mn k o k' o', make_decoder [] [] 1 [] [] recs = Ok s /\ ic < 2 ^ 32 /\
  snd (run (A := N) (U := N) 0 (dt_new s) [OTrace ic mn (trace_ext 2 4 0) 1; OTrace ic mn (trace_ext 0x60 0x80 9) 1]) = [Ok (AObj k o); Ok (AObj k' o')] /\
  ob_mnemonic o' = mn /\ d_sources (i_di (ob_info o')) = 2 /\ d_dests (i_di (ob_info o')) = 4 /\ d_imm (i_di (ob_info o')) = 0.
Proof.
  destruct (sights_ok small again _ ltac:(vm_compute; reflexivity)) as (s & E & Q).
  exists small, s, 0x108093, "foo"%string. fold again. revert Q. generalize (snd (run 0 (dt_new s) again)). intros l Q. answers Q.
  apply obj_of_sight in H as (k & o & -> & _), H0 as (k' & o' & -> & M & S & D & V). exists k, o, k', o'. repeat split; auto.
Qed.
(** A record that calls a compressed instruction by the name of its expansion. *)
Lemma expansion_lemma : exists recs (s : builder * tree) ic mn k o k' o', make_decoder [] [] 1 [] [] recs = Ok s /\ ic < 2 ^ 32 /\
  snd (run (A := N) (U := N) 0 (dt_new s) [OMake ic 1; OTrace ic mn (trace_ext 0x60 0x80 9) 1]) = [Ok (AObj k o); Ok (AObj k' o')] /\
  ob_mnemonic o <> mn /\ ob_mnemonic o' <> mn /\ d_sources (i_di (ob_info o')) <> 0x60 /\ d_dests (i_di (ob_info o')) <> 0x80.
Proof.
  destruct (sights_ok small by_expansion _ ltac:(vm_compute; reflexivity)) as (s & E & Q).
  exists small, s, 0x85, "addi"%string. fold by_expansion. revert Q. generalize (snd (run 0 (dt_new s) by_expansion)). intros l Q. answers Q.
  apply obj_of_sight in H as (k & o & -> & M0 & _), H0 as (k' & o' & -> & M & S & D & V). exists k, o, k', o'.
  rewrite M0, M, S, D. repeat split; auto; discriminate.
Qed.
(** A case where the claim on new names applies. *)
Definition before_foo : list (op N N) := [OMake 0x85 1; OTrace 0x85 "bar" (trace_ext 2 4 0) 1; OGetInfo 0x108093].
Definition fits : option (bool * res (option (string * N * N * N)) * bool) :=
  match make_decoder [] [] 1 [] [] small with
  | Ok s => let d := fst (run 0 (dt_new s) before_foo) in
      Some ((b_nu (dt_b d) + 100 <? 2 ^ 32)%N, sight (snd (step 0 d (OMake 0x108093 2))),
            match opcode_now d "foo" with Throw EUnknownMnemonic => true | _ => false end)
  | _ => None
  end.
Lemma fits_ok x b : fits = Some (true, Ok (Some (x, b)), true) -> exists s, make_decoder [] [] 1 [] [] small = Ok s /\
  let d := fst (run 0 (dt_new s) before_foo) in numbers_left d /\
  (exists k o, snd (step 0 d (OMake 0x108093 2)) = Ok (AObj k o) /\ ob_mnemonic o = fst (fst x)) /\ opcode_now d "foo" = Throw EUnknownMnemonic.
Proof.
  unfold fits. destruct (make_decoder _ _ _ _ _ _) as [s| | |]; try discriminate. intros H. exists s. split; [reflexivity|]. cbv zeta in H |- *.
  generalize dependent (fst (run 0 (dt_new s) before_foo)). intros d. destruct x as [[x1 x2] x3]. intros H.
  assert (H1 := f_equal (fun q => match q with Some (b, _, _) => b | _ => false end) H).
  assert (H2 := f_equal (fun q => match q with Some (_, b, _) => b | _ => Ok None end) H).
  assert (H3 := f_equal (fun q => match q with Some (_, _, b) => b | _ => false end) H). cbv beta iota in H1, H2, H3. clear H.
  split; [|split].
  - unfold numbers_left. now apply N.ltb_lt.
  - apply obj_of_sight in H2 as (k & o & E & M & _). exists k, o. auto.
  - destruct (opcode_now d "foo") as [|[]| |]; try discriminate. reflexivity.
Qed.
Lemma fits_here : fits = Some (true, Ok (Some (("addi"%string, 2, 2), 1)), true).
Proof. vm_compute. reflexivity. Qed.
Lemma new_name_case : exists s k o, make_decoder [] [] 1 [] [] small = Ok s /\
  let d := fst (run 0 (dt_new s) [OMake 0x85 1; OTrace 0x85 "bar" (trace_ext 2 4 0) 1; OGetInfo 0x108093]) in
  numbers_left d /\ snd (step 0 d (OMake 0x108093 2)) = Ok (AObj k o) /\ ob_mnemonic o <> "foo"%string /\
  opcode_now d "foo" = Throw EUnknownMnemonic.
Proof.
  destruct (fits_ok _ _ fits_here) as (s & E & NL & (k & o & Q & M) & F). exists s, k, o. split; [exact E|]. cbv zeta. fold before_foo.
  split; [exact NL|]. split; [exact Q|]. split; [|exact F]. rewrite M. discriminate.
Qed.
Lemma first_case : exists (s : builder * tree) k o, make_decoder [] [] 1 [] [] small = Ok s /\
  snd (run (A := N) (U := N) 0 (dt_new s) [OMake 0x108093 1]) = [Ok (AObj k o)] /\ ob_mnemonic o = "addi"%string.
Proof.
  destruct (sights_ok small [OMake 0x108093 1] _ ltac:(vm_compute; reflexivity)) as (s & E & Q).
  exists s. revert Q. generalize (snd (run 0 (dt_new s) [OMake 0x108093 1])). intros l Q. answers Q. apply obj_of_sight in H as (k & o & -> & M & _). exists k, o. split; [exact E|]. split; [reflexivity|exact M].
Qed.
