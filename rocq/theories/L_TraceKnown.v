(** Lemmas: trace records that use the name of another instruction. *)
From Coq Require Import NArith ZArith Arith List Bool String Lia ZifyBool ZifyN ZifyNat.
From Verif Require Import M_Base M_Field M_Forms M_Meta M_OperandInfo M_Extract M_Decoded M_Cache M_Registry M_Trie M_Builder M_DTable M_Direct M_Raw.
From Verif Require Import S_Bits S_Maps S_Uids S_Trie S_Table S_Anno S_History S_TraceRecord.
From Verif Require Import L_Check L_Claims.
From Verif Require Import L_Bits L_Count L_OperandInfo L_Cache L_Registry L_Uids L_CtxUids L_Ids L_Trie L_Table L_Decode L_History L_Objects L_Direct L_AnnoDecode S_Shipped L_HistRefuted L_TraceRecord.
Import ListNotations.
Local Open Scope N_scope.

Section Table.
Context (uids : list (string * N)) (annos : list (string * anno)) (nu : N)
  (incl excl : list pattern) (recs : list irec) (s : builder * tree).
Context (HN : 0 < nu < w32) (HD : make_decoder uids annos nu incl excl recs = Ok s).
Let K := kept incl excl recs.
Context (W : well_formed K).
Lemma payload_reg : exists P, binv P (fst s) /\ (forall r, In r P <-> In r K /\ r_mn r <> None) /\
  forall ic mn0 p, tree_sel (snd s) ic = Ok (mn0, p) -> exists r e, listed K r e /\ selected (encodings K) e ic /\ reg_of P (fst s) r (en_mn e) (pay_fact p).
Proof.
  pose proof (wf_cells _ W) as HS. unfold make_decoder in HD. destruct s as [b t]. cbn [fst snd].
  destruct (builder_new uids annos nu) as [b0| | |] eqn:EB; cbn [rbind] in HD; try discriminate.
  destruct (configured _ _ _ _ _ _ _ _ _ EB HD HS) as (X & P & T & M & I & F & R).
  exists P. split; [exact I|]. split; [exact R|]. intros ic mn0 p ET. pose proof (tree_sel_ok t X ic T) as TS. rewrite ET in TS.
  destruct TS as (x & Hx & -> & FP & MT & BEST). rewrite Forall_forall in F. destruct (F x Hx) as (r & Hr & Hi & He & Hc & Hf & RG).
  assert (EE : forall e, In e (encodings K) <-> exists x, In x X /\ fst x = e).
  { intros e. unfold K. rewrite <- M, in_map_iff. split; intros (y & Q1 & Q2); exists y; auto. }
  exists r, (fst x). split; [split; [apply R; auto|auto]|]. split.
  { split; [apply EE; eauto|]. split; [auto|]. intros e' He' Hm'. apply EE in He' as (y & Hy & <-). auto. }
  assert (pay_fact p = pay_fact (snd x)) as ->; [|exact RG].
  unfold final_pay in FP. destruct (has_fixed x); [destruct FP as (m' & _ & ->)|subst p]; reflexivity.
Qed.

Context (mn : string) (NC0 : ~ custom mn) (r0 : irec) (I0 : In r0 K) (HI0 : is_inst r0 mn) (X0 : r_expand r0 = ""%string) (ic : N).
Lemma own_fact : exists i f u, find_ifact (fst s) mn = Some i /\ nth_error (b_facts (fst s)) i = Some f /\ mfind (fc_uids f) mn = Some u /\
  mfind (ir_map (b_inst (fst s))) mn = Some u /\ u <> 0 /\ mfind (fc_annos f) mn = Some (either annos (fname_of r0 mn) mn) /\ own_meta r0 = Ok (fact_meta f mn) /\
  (forall o, In o (fc_olays f) -> ov_base o = mn -> ov_match ic o = true -> exists n mask, overlay_hit K n mn mask ic) /\
  (forall m0 p, tree_sel (snd s) ic = Ok (m0, p) -> pay_fact p = i ->
     exists r e, listed K r e /\ selected (encodings K) e ic /\ (r_expand r = ""%string /\ fname_of r (en_mn e) = fname_of r0 mn \/ r_expand r = fname_of r0 mn)).
Proof.
  destruct payload_reg as (P & I & HP & PR). pose proof (decoder_sound _ _ _ _ _ _ _ HN HD) as [SA _ SN SR].
  destruct (wf_meta _ W _ _ I0 HI0 X0) as (AL0 & UNI).
  assert (ALP0 : alone P (fname_of r0 mn)) by (destruct AL0 as (C & S1); split; [auto|]; intros q Hq; apply S1; now apply HP).
  assert (IP : In r0 P) by (apply HP; split; [exact I0|destruct HI0; congruence]).
  destruct (bi_insts _ _ _ I _ _ IP HI0) as (i & f & m & Hf & OM & _ & _ & _ & RN & _).
  destruct (RN X0) as (FI & (u & U1 & U2 & AN) & _ & AL1). specialize (AL1 ALP0). specialize (AN NC0).
  assert (FM : own_meta r0 = Ok (fc_meta f)).
  { destruct (bi_orig _ _ _ I _ _ Hf) as [Q|(_ & rq & mq & Q1 & Q2 & Q3 & Q4 & Q5)]; [apply built_in_custom in Q; rewrite AL1 in Q; contradiction (proj1 AL0)|].
    rewrite <- (UNI rq mq (proj1 (proj1 (HP rq) Q1)) Q2 Q3 (eq_trans Q4 AL1)). exact (proj1 Q5). }
  exists i, f, u. split; [exact FI|]. split; [exact Hf|]. split; [exact U1|]. split; [exact U2|].
  split; [apply (ro_bound _ _ _ SR) in U2; lia|]. split; [|split; [|split]].
  - rewrite AN. f_equal. unfold panno_of, find_anno, either. now rewrite SA.
  - unfold fact_meta. destruct (mfind (fc_metas f) mn) as [m1|] eqn:E; [|exact FM]. exfalso.
    destruct (bi_fmetas _ _ _ I _ _ _ _ Hf E) as (r & R1 & R2 & R3). apply R3. rewrite <- X0. f_equal. apply (bi_uniq _ _ _ I r r0 mn); auto.
  - intros o O1 O2 O3. destruct (bi_ols _ _ _ I _ _ _ Hf O1) as (_ & ro & Hro & OV). exists (ov_mn o), (ov_mask o), ro. rewrite <- O2.
    exact (overlay_of_hit _ _ _ P (fst s) ro o ic HP Hro OV O3).
  - intros m0 p TS PF. destruct (PR _ _ _ TS) as (r & e & L & S & RG). rewrite PF in RG. exists r, e. split; [exact L|]. split; [exact S|].
    destruct (listed_mn _ _ (proj2 L)) as (HI & _). assert (HR : In r P) by (apply HP; split; [apply L|destruct HI; congruence]).
    destruct RG as (f' & m' & Hf' & _ & _ & _ & _ & RN' & RX & _). assert (f' = f) as -> by congruence.
    destruct (string_dec (r_expand r) "") as [EX|EX].
    + left. split; [exact EX|]. destruct (RN' EX) as (_ & _ & _ & AL). destruct (wf_meta _ W _ _ (proj1 L) HI EX) as (AN' & _).
      assert (ALP : alone P (fname_of r (en_mn e))) by (destruct AN' as (C & S1); split; [auto|]; intros q Hq; apply S1; now apply HP).
      specialize (AL ALP). congruence.
    + right. destruct (wf_expand _ W _ _ (proj1 L) HI EX) as (NC & SU). destruct (RX EX NC) as (_ & R2).
      destruct (configured_annos _ _ _ _ _ _ _ HD) as (P' & AI & HP').
      destruct (ai_exp _ _ _ AI _ _ _ _ Hf R2) as (r1 & Q1 & Q2 & Q3 & Q4).
      assert (r1 = r) as -> by (apply (bi_uniq _ _ _ I r1 r (en_mn e)); auto; apply HP; now apply HP').
      assert (SUP : sole P' (r_expand r) \/ untouched P' (r_expand r)).
      { destruct SU as [SU|SU]; [left|right].
        - destruct SU as (C & S1 & S2). split; [auto|]. split; intros q Hr; [apply S1|apply S2]; apply HP'; auto.
        - destruct SU as (C & S1). split; [auto|]. intros q Hr. apply S1. apply HP'; auto. }
      specialize (Q4 SUP). destruct (ai_names _ _ _ AI _ _ _ Q4 Hf) as [Q|(q & F & G1 & G2 & G3 & G4)]; [congruence|]. exfalso.
      apply HP' in G1 as [G1 _]. destruct SU as [(_ & _ & S2)|(_ & S1)]; [destruct (S2 _ G1 G2); congruence|destruct (S1 _ G1 G2); congruence].
Qed.
End Table.

Section Calls.
Context {A U : Type} (u0 : U) (tr : tree) (ic : N) (mn : string) (i : nat) (ol : list overlay) (u : N) (an : option anno) (m : meta).
Notation dt := (dt A U).
Notation op := (op A U).
Definition like (f : factory) : Prop :=
  fc_olays f = ol /\ mfind (fc_uids f) mn = Some u /\ mfind (fc_annos f) mn = Some an /\ fact_meta f mn = m.
Record kept_b (b : builder) : Prop := mkKB {
  kb_reg : find_ifact b mn = Some i;
  kb_fact : exists f, nth_error (b_facts b) i = Some f /\ like f;
  kb_ids : mfind (ir_map (b_inst b)) mn = Some u }.
Definition here (j : nat) : Prop := exists m0 p, tree_sel tr ic = Ok (m0, p) /\ j = pay_fact p.
Record kinv (d : dt) : Prop := mkKI {
  ki_tree : dt_tree d = tr;
  ki_b : kept_b (dt_b d);
  ki_st : forall j, stash_all (fun k _ => k = ic -> here j) (dt_stash d j) }.
Lemma kinv_same d d' : dt_tree d' = dt_tree d -> dt_b d' = dt_b d -> dt_stash d' = dt_stash d -> kinv d -> kinv d'.
Proof. intros E1 E2 E3 [H1 H2 H3]. split; rewrite ?E1, ?E2, ?E3; auto. Qed.
Lemma like_add k w a f : like f -> like (fact_add_uid k w (fact_add_anno k a f)).
Proof.
  intros (L1 & L2 & L3 & L4).
  assert (G1 : like (fact_add_anno k a f)).
  { unfold fact_add_anno. destruct (mfind (fc_annos f) k) eqn:E; [repeat split; auto|]. unfold like, fact_meta. cbn [fc_olays fc_uids fc_annos fc_metas fc_meta].
    repeat split; auto. rewrite mfind_madd. destruct (String.eqb k mn) eqn:Q; [apply String.eqb_eq in Q; congruence|auto]. }
  destruct G1 as (M1 & M2 & M3 & M4). unfold fact_add_uid. destruct (mfind (fc_uids _) k) eqn:E; [repeat split; auto|].
  unfold like, fact_meta. cbn [fc_olays fc_uids fc_annos fc_metas fc_meta]. repeat split; auto.
  rewrite mfind_madd. destruct (String.eqb k mn) eqn:Q; [apply String.eqb_eq in Q; congruence|auto].
Qed.
Lemma bld_kept b k st mm b' j : kept_b b -> bld b k k "" st mm = Ok (b', j) -> kept_b b' /\ (k = mn -> j = i).
Proof.
  intros [K1 (f & K2 & K3) K4] E. apply bld_normal_inv in E as [(f0 & w & D & N & M) O R _ L].
  assert (J : k = mn -> j = i) by (intros ->; destruct D as [(D & _)|(D & _)]; congruence).
  split; [|exact J]. split.
  - rewrite R, orb_diag. destruct (String.eqb_spec k mn) as [->|]; [rewrite J; reflexivity|exact K1].
  - destruct (Nat.eq_dec i j) as [<-|NE]; [|exists f; rewrite O by exact NE; auto].
    assert (f0 = f) as -> by (destruct D as [(_ & D)|(_ & _ & D)]; [congruence|exfalso; assert (X : (i < List.length (b_facts b))%nat) by (apply nth_error_Some; rewrite K2; discriminate); lia]).
    eexists. split; [exact N|]. now apply like_add.
  - exact (bl_ids _ _ L _ _ K4).
Qed.
Lemma leaf_kinv d j n k x : kinv d -> (k = ic -> here j) -> kinv (fst (leaf_get d j n k x)).
Proof.
  intros [H1 H2 H3] H. unfold leaf_get. destruct (stash_lookup _ _ _ _ k); [split; auto|]. destruct (let* f := _ in _); try (split; assumption).
  split; cbn; auto. intros l. destruct (Nat.eqb_spec l j) as [->|]; [|auto]. apply stash_all_set; auto.
Qed.
Lemma get_kinv d k : kinv d -> kinv (fst (get_info d k)).
Proof.
  intros C. unfold get_info. destruct (cache_lookup _ _ k); [exact C|]. unfold tree_get.
  destruct (tree_sel (dt_tree d) k) as [[n p]| | |] eqn:TS; try exact C. destruct (x_illop _ k) as [[]| | |]; try exact C.
  assert (H : k = ic -> here (pay_fact p)) by (intros ->; rewrite (ki_tree _ C) in TS; exists n, p; auto).
  match goal with |- context [leaf_get ?a ?b ?c ?e ?f] => pose proof (leaf_kinv a b c e f C H) as Q; destruct (leaf_get a b c e f) as [d' [v| | |]] end; try exact Q.
  apply (kinv_same d'); auto.
Qed.
Lemma make_kinv d k a : kinv d -> kinv (fst (make_inst u0 d k a)).
Proof.
  assert (CO : forall d j, kinv d -> kinv (fst (copy_out d j))).
  { intros d0 j C. unfold copy_out. destruct (dt_heap d0 j); [|exact C]. cbn [alloc fst]. apply (kinv_same d0); auto. }
  intros C. unfold make_inst. destruct (cache_lookup _ _ k); [now apply CO|].
  pose proof (get_kinv d k C) as Q. destruct (get_info d k) as [d' [v| | |]]; try exact Q. cbn [alloc]. apply CO. apply (kinv_same d'); auto.
Qed.
Lemma trace_kinv d k tmn x a : k <> ic -> kinv d -> kinv (fst (make_inst_from_trace u0 d k tmn x a)).
Proof.
  intros NE C. unfold make_inst_from_trace. pose proof (make_kinv d k a C) as Q. destruct (make_inst u0 d k a) as [d1 [j| | |]]; try exact Q. cbn [fst] in Q.
  destruct (dt_heap d1 j) as [o|]; [|exact Q]. destruct (String.eqb _ tmn); [exact Q|].
  destruct (bld (dt_b d1) tmn tmn "" 0 meta_rv32i) as [[b l]| | |] eqn:E; try exact Q.
  assert (C1 : kinv (set_b d1 b)).
  { destruct Q as [Q1 Q2 Q3]. split; cbn [set_b dt_b dt_stash dt_tree]; auto. exact (proj1 (bld_kept _ _ _ _ _ _ Q2 E)). }
  assert (H : k = ic -> here l) by (intros Z; contradiction).
  pose proof (leaf_kinv _ l tmn k x C1 H) as C2. destruct (leaf_get (set_b d1 b) l tmn k x) as [d2 [v| | |]]; try exact C2.
  cbn [alloc fst]. apply (kinv_same d2); auto.
Qed.
Lemma uid_kinv d b w o : kinv d -> find_ifact_uid (dt_b d) w = Ok (b, o) -> kinv (set_b d b).
Proof.
  intros [H1 H2 H3]. unfold find_ifact_uid. destruct (dk_contains_n _ _).
  - destruct (dk_lookup_n _ _); cbn [rbind]; try discriminate. intros H. assert (b = dt_b d) as -> by congruence. split; auto.
  - destruct (ir_mnemonic _ _); cbn [rbind]; try discriminate. destruct (find_ifact _ _); [|intros H; assert (b = dt_b d) as -> by congruence; split; auto].
    destruct (dk_add _ _ _ _) as [st| | |]; cbn [rbind]; try discriminate. intros H. assert (b = set_stash (dt_b d) st) as -> by congruence. split; [auto|destruct H2; split; auto|auto].
Qed.
Lemma lift_kinv (p : dt * res nat) : kinv (fst p) -> kinv (fst (lift_obj p)).
Proof. destruct p as [d [k| | |]]; try (intros C; exact C). cbn [fst lift_obj]. intros C. destruct (dt_heap d k); [|exact C]. apply (kinv_same d); auto. Qed.
Lemma lift_unit_kinv (p : dt * res unit) : kinv (fst p) -> kinv (fst (lift_unit p)).
Proof. destruct p as [d [k| | |]]; intros C; exact C. Qed.
Lemma step_kinv d (o : op) : (forall n x a, o <> OTrace ic n x a) -> kinv d -> kinv (fst (step u0 d o)).
Proof.
  intros NT C. destruct o as [k|k a|k n x a|n w x a|k n x| |k w|k]; cbn [step].
  - pose proof (get_kinv d k C) as Q. destruct (get_info d k) as [d1 [v| | |]]; exact Q.
  - apply lift_kinv. now apply make_kinv.
  - apply lift_kinv. apply trace_kinv; [intros ->; exact (NT _ _ _ eq_refl)|exact C].
  - apply lift_kinv. unfold make_inst_directly. match goal with |- context [let (_, _) := ?p in _] => set (q := p) end.
    assert (Q : kinv (fst q)).
    { unfold q. destruct (w =? INVALID_UID); [exact C|]. destruct (ir_mnemonic _ w); try exact C.
      destruct (find_ifact_uid (dt_b d) w) as [[b o]| | |] eqn:E; try exact C. exact (uid_kinv _ _ _ _ C E). }
    destruct q as [d1 r]. cbn [fst] in Q. destruct r as [[mn' [j|]]| | |]; try exact Q. destruct (let* f := _ in _); try exact Q.
    cbn [alloc fst]. apply (kinv_same d1); auto.
  - destruct (held d k) as [j|]; [|exact C]. apply lift_unit_kinv. unfold morph_inst. destruct (find_ifact _ n); [|exact C].
    destruct (let* f := _ in _); try exact C. destruct (dt_heap d j); [|exact C]. apply (kinv_same d); auto.
  - apply lift_unit_kinv. unfold flush_caches. cbn [dt_tree set_oc set_ic]. destruct (flush_tree _) as [fs| | |]; try (apply (kinv_same d); auto; fail).
    destruct C as [C1 C2 C3]. split; cbn; [exact C1|exact C2|]. intros j. destruct (existsb _ _); [apply stash_all_new|apply C3].
  - destruct (held d k) as [j|]; [|exact C]. destruct (dt_heap d j); [|exact C]. apply (kinv_same d); auto.
  - destruct (held d k) as [j|]; [|exact C]. destruct (dt_heap d j); exact C.
Qed.
Lemma run_kinv (ops : list op) : ~ recorded ops ic -> forall d, kinv d -> kinv (fst (run u0 d ops)).
Proof.
  induction ops as [|o ops IH]; intros NR d C; cbn [run]; [exact C|].
  assert (N1 : forall n x a, o <> OTrace ic n x a) by (intros n x a ->; apply NR; exists n, x, a; now left).
  assert (N2 : ~ recorded ops ic) by (intros (n & x & a & I); apply NR; exists n, x, a; now right).
  pose proof (step_kinv d o N1 C) as Q. destruct (step u0 d o) as [d' a]. cbn [fst] in Q.
  destruct a; try exact Q; pose proof (IH N2 d' Q) as R; destruct (run u0 d' ops); exact R.
Qed.
Lemma bld_total b st mm : kept_b b -> exists b', bld b mn mn "" st mm = Ok (b', i).
Proof.
  intros [K1 (f & K2 & (L1 & L2 & L3 & L4)) K4]. unfold bld. change (String.eqb "" "") with true. cbv zeta iota. rewrite K1, String.eqb_refl.
  unfold upd_fact at 1, get_fact at 1. rewrite K2. cbn [rbind]. unfold register_inst, ir_register. cbn [set_facts b_inst b_nu]. rewrite K4. cbn [rbind fst snd].
  unfold upd_fact, get_fact. cbn [set_inst set_facts b_facts]. rewrite (nth_set_nth_eq _ _ _ _ K2). cbn [rbind]. eauto.
Qed.
Lemma known_step (d : dt) srcs dsts imm a k o : srcs < 2 ^ 64 -> dsts < 2 ^ 64 -> kinv d -> u <> 0 ->
  ~ here i -> (forall o, In o ol -> ov_base o = mn -> ov_match ic o = false) ->
  snd (step u0 d (OMake ic a)) = Ok (AObj k o) -> ob_mnemonic o <> mn ->
  let p := step u0 d (OTrace ic mn (trace_ext srcs dsts imm) a) in
  exists k' v, snd p = Ok (AObj k' (mkObj v a u0)) /\ repeats mn ic srcs dsts imm v /\ i_anno v = an /\ i_meta v = m /\
    d_uid (i_di v) = u /\ uid_now (fst p) mn = u.
Proof.
  intros LS LD C NZ NH NO E NE. cbn [step] in *. unfold make_inst_from_trace. pose proof (make_kinv d ic a C) as C1.
  destruct (make_inst u0 d ic a) as [d1 [j| | |]]; cbn [lift_obj snd fst] in *; try discriminate.
  destruct (dt_heap d1 j) as [o'|]; [|discriminate]. assert (o' = o) as -> by (cbn in E; congruence). clear E.
  destruct (String.eqb_spec (ob_mnemonic o) mn) as [Q|_]; [contradiction|]. destruct C1 as [T1 B1 S1].
  destruct (bld_total _ 0 meta_rv32i B1) as (b' & EB). rewrite EB. destruct (bld_kept _ _ _ _ _ _ B1 EB) as ([R1 (f & N & L1 & L2 & L3 & L4) M1] & _).
  unfold leaf_get. cbn [set_b dt_stash dt_b].
  destruct (stash_lookup XS_HASH XS_MAP (fun k0 => k0) (dt_stash d1 i) ic) as [v|] eqn:SL; [contradiction NH; exact (stash_all_hit _ _ _ _ _ _ _ (S1 i) SL eq_refl)|].
  unfold get_fact. rewrite N. cbn [rbind]. unfold leaf_info, fact_uid, fact_anno. rewrite L2, L3, L4.
  replace (u =? INVALID_UID) with false by (unfold INVALID_UID; lia). cbn [negb rassert rbind].
  assert (FA : match fc_annos f with [] => false | _ => true end = true) by (destruct (fc_annos f); [discriminate|reflexivity]). rewrite FA. cbn [rassert rbind].
  assert (OV : match ov_find (fc_olays f) ic with
    | Some o0 => if String.eqb (ov_base o0) mn then (ov_mn o0, match ov_x o0 with Some c => ext c 0 | None => trace_ext srcs dsts imm end, ov_meta o0, ov_uid o0, ov_anno o0)
                 else (mn, trace_ext srcs dsts imm, m, u, an)
    | None => (mn, trace_ext srcs dsts imm, m, u, an) end = (mn, trace_ext srcs dsts imm, m, u, an)).
  { destruct (ov_find (fc_olays f) ic) as [o0|] eqn:EO; [|reflexivity]. rewrite L1 in EO. apply find_some in EO as [O1 O2].
    destruct (String.eqb_spec (ov_base o0) mn) as [Q|]; [|reflexivity]. rewrite (NO _ O1 Q) in O2. discriminate. }
  rewrite OV. destruct (trace_decoded mn u srcs dsts imm m ic LS LD) as (so & dd & -> & V1 & V2 & T). cbn [rbind].
  cbn [alloc set_st dt_next set_ic]. cbn [lift_obj dt_heap set_ic]. rewrite Nat.eqb_refl. cbn [snd fst].
  eexists _, _. split; [reflexivity|]. split; [|split; [reflexivity|split; [reflexivity|split; [reflexivity|]]]].
  2:{ unfold uid_now, lookup_uid, ir_uid. cbn [fst hand_out dt_b set_ic set_st set_b]. now rewrite M1. }
  constructor; cbn [i_di i_icode d_mnemonic d_sources d_dests d_src_oi d_dst_oi d_imm]; auto.
Qed.
End Calls.

Section Claims.
Context {A U : Type} (u0 : U).
Lemma known_lemma uids annos nu incl excl recs s : 0 < nu < w32 -> make_decoder uids annos nu incl excl recs = Ok s ->
  let K := kept incl excl recs in well_formed K ->
  forall (h : list (op A U)) r ic mn srcs dsts imm a k o, srcs < 2 ^ 64 -> dsts < 2 ^ 64 ->
  let d := fst (run u0 (dt_new s) h) in
  ~ recorded h ic -> snd (step u0 d (OMake ic a)) = Ok (AObj k o) -> ob_mnemonic o <> mn ->
  In r K -> is_inst r mn -> r_expand r = ""%string -> ~ custom mn ->
  (forall r' e, listed K r' e -> selected (encodings K) e ic -> fname_of r' (en_mn e) <> fname_of r mn /\ r_expand r' <> fname_of r mn) ->
  (forall n mask, ~ overlay_hit K n mn mask ic) ->
  let p := step u0 d (OTrace ic mn (trace_ext srcs dsts imm) a) in
  exists k' v, snd p = Ok (AObj k' (mkObj v a u0)) /\ repeats mn ic srcs dsts imm v /\ i_anno v = either annos (fname_of r mn) mn /\
    own_meta r = Ok (i_meta v) /\ d_uid (i_di v) = uid_now (fst p) mn /\ d_uid (i_di v) <> 0.
Proof.
  intros HN HD K W h r ic mn srcs dsts imm a k o LS LD d NR E NE IR HI X NC NF NO.
  destruct (own_fact uids annos nu incl excl recs s HN HD W mn NC r IR HI X ic) as (i & f & u & F1 & F2 & F3 & F4 & F5 & F6 & F7 & F8 & F9).
  assert (KI : kinv (snd s) ic mn i (fc_olays f) u (either annos (fname_of r mn) mn) (fact_meta f mn) d).
  { apply run_kinv; [exact NR|]. split; [reflexivity| |intros j; apply stash_all_new]. split; auto. exists f. split; [exact F2|]. repeat split; auto. }
  assert (NH : ~ here (snd s) ic i).
  { intros (m0 & p & TS & PF). destruct (F9 m0 p TS (eq_sym PF)) as (r' & e & L & S & [[_ Q]|Q]); destruct (NF _ _ L S); contradiction. }
  assert (NV : forall o, In o (fc_olays f) -> ov_base o = mn -> ov_match ic o = false).
  { intros v V1 V2. destruct (ov_match ic v) eqn:Q; [|reflexivity]. destruct (F8 v V1 V2 Q) as (n & mask & OH). destruct (NO _ _ OH). }
  destruct (known_step u0 (snd s) ic mn i (fc_olays f) u (either annos (fname_of r mn) mn) (fact_meta f mn) d srcs dsts imm a k o LS LD KI F5 NH NV E NE) as (k' & v & P1 & P2 & P3 & P4 & P5 & P6).
  cbv zeta. exists k', v. split; [exact P1|]. split; [exact P2|]. split; [exact P3|]. split; [rewrite P4; exact F7|]. split; congruence.
Qed.
End Claims.

(** ** Cases *)
Definition strangerb (K : list irec) (F : string) (ic : N) : bool :=
  forallb (fun r => if (if oseqb (option_map (fname_of r) (r_mn r)) F then true else String.eqb (r_expand r) F)
    then forallb (fun e => match all_mask e with Some m => if enc_okb e then negb (N.land ic m =? N.land (en_stencil e) m) else false | None => false end) (rec_encs r)
    else true) K.
Lemma strangerb_ok K F ic : strangerb K F ic = true -> forall r e, listed K r e -> selected (encodings K) e ic -> fname_of r (en_mn e) <> F /\ r_expand r <> F.
Proof.
  unfold strangerb. rewrite forallb_forall. intros H r e (I & J) (_ & M & _). specialize (H _ I). destruct (listed_mn _ _ J) as ([HM _] & _).
  assert (X : (if oseqb (option_map (fname_of r) (r_mn r)) F then true else String.eqb (r_expand r) F) = true -> False).
  { intros Q. rewrite Q in H. rewrite forallb_forall in H. specialize (H _ J). destruct (all_mask e) as [m|] eqn:EM; [|discriminate].
    destruct (enc_okb e) eqn:EO; [|discriminate]. apply enc_okb_ok in EO. apply (all_mask_matches e m ic EO EM) in M.
    destruct M as [_ M]. rewrite M, N.eqb_refl in H. discriminate. }
  rewrite HM in X. cbn [option_map] in X. split; intros Q; apply X; [rewrite Q; assert (Z : oseqb (Some F) F = true) by (now apply oseqb_ok); rewrite Z; reflexivity|].
  rewrite Q, String.eqb_refl. clear. destruct (oseqb (Some (fname_of r (en_mn e))) F); reflexivity.
Qed.
Definition bareb (K : list irec) (mn : string) (ic : N) : bool :=
  forallb (fun r => match ovb r with Some (b, m, v) => if String.eqb b mn then negb (N.land ic m =? v) else true | None => true end) K.
Lemma bareb_ok K mn ic : bareb K mn ic = true -> forall n mask, ~ overlay_hit K n mn mask ic.
Proof.
  unfold bareb. rewrite forallb_forall. intros H n mask (r & I & O). specialize (H _ I). apply ovb_ok in O. rewrite O, String.eqb_refl, N.eqb_refl in H. discriminate.
Qed.
(** sub and xor share the factory "alu". *)
Definition same_factory (F : string) (w : raw) : raw :=
  mkRaw (w_mn w) (w_pseudo w) (w_form w) (w_xform w) (w_stencil w) (w_fixed w) (w_ignore w) (w_alias w) (Some F) (w_expand w)
    (w_overlay w) (w_tags w) (w_type w) (w_data w) (w_oper w) (w_isa w).
Definition raw_family : list raw := (raw_small ++ map (same_factory "alu") (pick ["sub"; "xor"]%string raw_rv64))%list.
Definition family : list irec := map rec_of raw_family.
Definition by_other : list (op N N) := [OMake 0x108093 1; OTrace 0x85 "sub" (trace_ext 2 4 0) 1; OMake 0x00B50533 2].
Lemma known_case : exists s k o r, make_decoder [] [] 1 [] [] family = Ok s /\ well_formed family /\
  ~ recorded by_other 0x00B50533 /\
  snd (step 0 (fst (run 0 (dt_new s) by_other)) (OMake 0x00B50533 2)) = Ok (AObj k o) /\ ob_mnemonic o = "add"%string /\
  In r family /\ is_inst r "sub" /\ r_expand r = ""%string /\ ~ custom "sub" /\ fname_of r "sub" = "alu"%string /\
  (forall r' e, listed family r' e -> selected (encodings family) e 0x00B50533 -> fname_of r' (en_mn e) <> "alu"%string /\ r_expand r' <> "alu"%string) /\
  (forall n mask, ~ overlay_hit family n "sub" mask 0x00B50533).
Proof.
  assert (G : forall x, match make_decoder [] [] 1 [] [] family with Ok s => sight (snd (step 0 (fst (run 0 (dt_new s) by_other)) (OMake 0x00B50533 2))) | _ => UB end = Ok (Some x) ->
    exists s, make_decoder [] [] 1 [] [] family = Ok s /\ sight (snd (step 0 (fst (run 0 (dt_new s) by_other)) (OMake 0x00B50533 2))) = Ok (Some x)).
  { generalize family. intros T x. destruct (make_decoder _ _ _ _ _ T) as [s| | |]; try discriminate. intros H. exists s. auto. }
  destruct (G ("add"%string, 3072, 1024, 0)) as (s & E & Q); [vm_compute; reflexivity|]. clear G.
  apply obj_of_sight in Q as (k & o & Q & M & _).
  assert (R : existsb (fun r => if oseqb (instb r) "sub" then String.eqb (r_expand r) "" && String.eqb (fname_of r "sub") "alu" else false) family = true) by (vm_compute; reflexivity).
  apply existsb_exists in R as (r & R1 & R2). destruct (oseqb (instb r) "sub") eqn:R3; [|discriminate]. apply oseqb_ok, instb_ok in R3.
  apply andb_true_iff in R2 as [R2 R4]. apply String.eqb_eq in R2, R4.
  exists s, k, o, r. split; [exact E|]. split; [apply well_formedb_ok; vm_compute; reflexivity|]. split.
  { intros (n & x & a & I). destruct I as [I|[I|[I|[]]]]; discriminate. }
  split; [exact Q|]. split; [exact M|]. split; [exact R1|]. split; [exact R3|]. split; [exact R2|].
  split; [intros [C|C]; discriminate C|]. split; [exact R4|]. split; [apply strangerb_ok|apply bareb_ok]; vm_compute; reflexivity.
Qed.
(** A record that calls "add a0, a1, x0" addi: an overlay of addi fits. *)
Definition by_base : list (op N N) := [OMake 0x58533 1; OTrace 0x58533 "addi" (trace_ext 0x60 0x80 9) 1].
Lemma overlaid_lemma : exists recs (s : builder * tree) ic mn k o k' o', make_decoder [] [] 1 [] [] recs = Ok s /\ ic < 2 ^ 32 /\
  snd (run (A := N) (U := N) 0 (dt_new s) [OMake ic 1; OTrace ic mn (trace_ext 0x60 0x80 9) 1]) = [Ok (AObj k o); Ok (AObj k' o')] /\
  ob_mnemonic o <> mn /\ ob_mnemonic o' <> mn /\ ob_mnemonic o' <> ob_mnemonic o /\ d_sources (i_di (ob_info o')) <> 0x60 /\ d_dests (i_di (ob_info o')) <> 0x80.
Proof.
  destruct (sights_ok small by_base _ ltac:(vm_compute; reflexivity)) as (s & E & Q).
  exists small, s, 0x58533, "addi"%string. fold by_base. revert Q. generalize (snd (run 0 (dt_new s) by_base)). intros l Q. answers Q.
  apply obj_of_sight in H as (k & o & -> & M0 & _), H0 as (k' & o' & -> & M & S & D & V). exists k, o, k', o'.
  rewrite M0, M, S, D. repeat split; auto; discriminate.
Qed.
