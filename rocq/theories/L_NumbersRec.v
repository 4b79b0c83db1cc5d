(** Lemmas: the numbers of names in trace records. *)
From Coq Require Import NArith ZArith Arith List Bool String Lia.
From Verif Require Import M_Base M_Meta M_Extract M_Decoded M_Registry M_Trie M_Builder M_DTable M_Pseudo M_Context M_Left.
From Verif Require Import S_Maps S_Uids S_Context S_Numbers L_Registry L_Uids L_Context L_CtxUids L_Numbers.
Import ListNotations.
Local Open Scope N_scope.

Section Records.
Context {A U : Type} (u0 : U).
Lemma trace_name (d : dt A U) ic tmn x a : let b' := dt_b (fst (make_inst_from_trace u0 d ic tmn x a)) in
  same_reg (dt_b d) b' \/ exists uid, ir_register (b_inst (dt_b d)) tmn (b_nu (dt_b d)) = Ok (b_nu b', b_inst b', uid).
Proof.
  cbv zeta. unfold make_inst_from_trace. pose proof (make_inst_b u0 d ic a) as Q. destruct (make_inst u0 d ic a) as [d1 [j| | |]]; cbn [fst] in Q; try (left; split; cbn [fst]; rewrite Q; reflexivity).
  destruct (dt_heap d1 j) as [o|]; [|left; split; cbn [fst]; rewrite Q; reflexivity].
  destruct (String.eqb _ tmn); [left; split; cbn [fst]; rewrite Q; reflexivity|].
  destruct (bld (dt_b d1) tmn tmn "" 0 meta_rv32i) as [[b i]| | |] eqn:E; try (left; split; cbn [fst]; rewrite Q; reflexivity).
  apply bld_inst in E as [(_ & uid & E)|(NE & _)]; [|contradiction NE; reflexivity]. right. exists uid. rewrite Q in E.
  pose proof (leaf_get_b (set_b d1 b) i tmn ic x) as L. destruct (leaf_get (set_b d1 b) i tmn ic x) as [d2 [v| | |]]; cbn [fst] in L; cbn [fst alloc set_ic dt_b];
    rewrite L; exact E.
Qed.
(** The record leaves the number of its name and the counter alone, or gives the name the next number. *)
Lemma trace_number (d : dt A U) ic tmn x a : let b' := dt_b (fst (step u0 d (OTrace ic tmn x a))) in b_nu (dt_b d) + 1 < w32 ->
  (ir_uid (b_inst b') tmn = ir_uid (b_inst (dt_b d)) tmn /\ b_nu b' = b_nu (dt_b d)) \/
  (ir_uid (b_inst (dt_b d)) tmn = INVALID_UID /\ ir_uid (b_inst b') tmn = b_nu (dt_b d) /\ b_nu b' = b_nu (dt_b d) + 1).
Proof.
  cbv zeta. intros L. cbn [step]. rewrite lift_obj_b. destruct (trace_name d ic tmn x a) as [[S1 S2]|(uid & H)]; [left; rewrite S2 || rewrite S1; split; congruence|].
  unfold ir_register in H. destruct (mfind (ir_map (b_inst (dt_b d))) tmn) as [u|] eqn:F.
  - left. split; congruence.
  - right. cbn [advance_uid] in H. destruct (da_add _ _ _) as [arr| | |]; cbn [rbind] in H; try discriminate.
    assert (E1 : b_nu (dt_b (fst (make_inst_from_trace u0 d ic tmn x a))) = u32 (b_nu (dt_b d) + 1)) by congruence.
    assert (E2 : b_inst (dt_b (fst (make_inst_from_trace u0 d ic tmn x a))) = mkIR (madd (ir_map (b_inst (dt_b d))) tmn (b_nu (dt_b d))) arr) by congruence.
    rewrite E1, E2. unfold ir_uid. cbn [ir_map]. rewrite F, mfind_madd, String.eqb_refl. repeat split. unfold u32. apply N.mod_small. exact L.
Qed.
Lemma goes_dec {T} (a : res T) : goes_on a \/ ~ goes_on a.
Proof. destruct a; cbn; auto. Qed.
Lemma mrun_on (g : mavis A U) o r g' a : mstep u0 g o = (g', a) -> goes_on a -> snd (mrun u0 g (o :: r)) = a :: snd (mrun u0 g' r).
Proof. intros E GO. cbn [mrun]. rewrite E. destruct a; try contradiction GO; destruct (mrun u0 g' r); reflexivity. Qed.
Lemma mrun_off (g : mavis A U) o r g' a : mstep u0 g o = (g', a) -> ~ goes_on a -> snd (mrun u0 g (o :: r)) = [a].
Proof. intros E GO. cbn [mrun]. rewrite E. destruct a; try (contradiction GO; exact Logic.I); reflexivity. Qed.
(** A question about a number changes nothing but the copy of the counter. *)
Lemma ask_step (g : mavis A U) mn : 
  (mstep u0 g (GCall (CUid mn)) = (g, AssertFail)) \/
  exists x, mfind (mv_reg g) (mv_cur g) = Some x /\ let x' := ctxt_at x (mv_nu g) in
    mstep u0 g (GCall (CUid mn)) = (mkMV (mv_nu g) (madd (mv_reg g) (mv_cur g) x') (mv_cur g), Ok (GAns (CNum (ir_uid (b_inst (dt_b (cx_dt x))) mn)))).
Proof. unfold mstep. cbn [gstep]. destruct (mfind (mv_reg g) (mv_cur g)) as [x|]; [right; exists x; split; reflexivity|left; reflexivity]. Qed.
Lemma feed_lemma (rs : list (record A)) : forall g : mavis A U, 0 < mv_nu g -> mv_nu g + N.of_nat (List.length rs) < w32 ->
  forall k u, nth_error (new_numbers (snd (mrun u0 g (flat_map feed rs)))) k = Some u -> u = mv_nu g + N.of_nat k.
Proof.
  induction rs as [|r rs IH]; intros g P L k u H; [destruct k; discriminate H|].
  cbn [flat_map feed app] in H. set (tail := flat_map feed rs) in *.
  assert (S : exists g1 a1, mstep u0 g (GSwitch (rc_ctx r)) = (g1, a1) /\ goes_on a1 /\ mv_nu g1 = mv_nu g).
  { unfold mstep. cbn [gstep]. destruct (mfind (mv_reg g) (rc_ctx r)); do 2 eexists; (split; [reflexivity|]); split; exact Logic.I || reflexivity. }
  destruct S as (g1 & a1 & E1 & GO & N1). rewrite (mrun_on _ _ _ _ _ E1 GO) in H. rewrite <- N1 in *. clear E1 GO N1 g.
  destruct (ask_step g1 (rc_name r)) as [E2|(x & F & E2)].
  { rewrite (mrun_off _ _ _ _ _ E2 (fun K => K)) in H. destruct k; discriminate H. }
  rewrite (mrun_on _ _ _ _ _ E2 Logic.I) in H. clear E2 F. set (x1 := ctxt_at x (mv_nu g1)) in *. set (g2 := mkMV _ _ _) in *.
  assert (LS : N.of_nat (List.length (r :: rs)) = N.of_nat (List.length rs) + 1) by (cbn [List.length]; lia).
  assert (E3 : exists g3 a3, mstep u0 g2 (GCall (COp (OTrace (rc_opcode r) (rc_name r) (rc_ext r) (rc_args r)))) = (g3, a3) /\ exists x3, mfind (mv_reg g3) (mv_cur g3) = Some x3 /\
    ((ir_uid (b_inst (dt_b (cx_dt x3))) (rc_name r) = ir_uid (b_inst (dt_b (cx_dt x))) (rc_name r) /\ mv_nu g3 = mv_nu g1) \/
     (ir_uid (b_inst (dt_b (cx_dt x))) (rc_name r) = INVALID_UID /\ ir_uid (b_inst (dt_b (cx_dt x3))) (rc_name r) = mv_nu g1 /\ mv_nu g3 = mv_nu g1 + 1))).
  { unfold mstep, g2. cbn [gstep mv_reg mv_cur mv_nu]. rewrite mfind_madd, String.eqb_refl. cbn [cstep].
    pose proof (trace_number (cx_dt (ctxt_at x1 (mv_nu g1))) (rc_opcode r) (rc_name r) (rc_ext r) (rc_args r)) as T. cbv zeta in T.
    change (b_nu (dt_b (cx_dt (ctxt_at x1 (mv_nu g1))))) with (mv_nu g1) in T. change (b_inst (dt_b (cx_dt (ctxt_at x1 (mv_nu g1))))) with (b_inst (dt_b (cx_dt x))) in T.
    assert (LL : mv_nu g1 + 1 < w32) by lia. specialize (T LL). destruct (step u0 (cx_dt (ctxt_at x1 (mv_nu g1))) _) as [d a]. cbn [fst] in T.
    do 2 eexists. split; [reflexivity|]. exists (mkCx d (cx_pb (ctxt_at x1 (mv_nu g1)))). cbn [mv_reg mv_cur mv_nu]. rewrite mfind_madd, String.eqb_refl. split; [reflexivity|].
    unfold ctxt_nu. cbn [cx_dt]. exact T. }
  destruct E3 as (g3 & a3 & E3 & x3 & F3 & T). destruct (goes_dec a3) as [GO|GO].
  2:{ rewrite (mrun_off _ _ _ _ _ E3 GO) in H. destruct k; discriminate H. }
  rewrite (mrun_on _ _ _ _ _ E3 GO) in H. clear E3 GO g2.
  destruct (ask_step g3 (rc_name r)) as [E4|(x4 & F4 & E4)].
  { rewrite (mrun_off _ _ _ _ _ E4 (fun K => K)) in H. destruct k; discriminate H. }
  rewrite (mrun_on _ _ _ _ _ E4 Logic.I) in H. clear E4. assert (x4 = x3) as -> by congruence. clear F4.
  set (g4 := mkMV _ _ _) in *. specialize (IH g4). change (mv_nu g4) with (mv_nu g3) in IH. clearbody g4. cbn [new_numbers] in H.
  destruct T as [[T1 T2]|(T1 & T2 & T3)].
  - rewrite T1 in H. destruct (ir_uid _ _ =? INVALID_UID); cbn [andb negb] in H; (apply IH in H; [|lia|lia]); rewrite H; lia.
  - rewrite T1, T2 in H. rewrite N.eqb_refl in H. destruct (N.eqb_spec (mv_nu g1) INVALID_UID) as [Z|_]; [unfold INVALID_UID in Z; lia|]. cbn [andb negb] in H.
    destruct k as [|k]; cbn [nth_error] in H; [assert (u = mv_nu g1) as -> by congruence; lia|]. apply IH in H; [|lia|lia]. rewrite H. lia.
Qed.
Lemma records_lemma c0 nu0 (g0 : mavis A U) (ops : list (gop A U)) (rs : list (record A)) : 0 < nu0 < 2 ^ 32 -> mavis_new c0 nu0 = Ok g0 ->
  let run := mrun u0 g0 ops in Forall no_record ops -> only_taken ["BASE"%string] ops (snd run) ->
  let next := used_by (c0 :: map snd (made ops (snd run))) nu0 in next + N.of_nat (List.length rs) < 2 ^ 32 ->
  forall k u, nth_error (new_numbers (snd (mrun u0 (fst run) (flat_map feed rs)))) k = Some u -> u = next + N.of_nat k.
Proof.
  intros N H run NR OT next L.
  assert (I0 : minv nu0 [("BASE"%string, c0)] g0).
  { unfold mavis_new in H. destruct (make_context c0 nu0) as [[x nu]| | |] eqn:EM; cbn [rbind] in H; try discriminate.
    assert (g0 = mkMV nu [("BASE"%string, x)] "BASE") as -> by congruence.
    apply (minv_make nu0 [] (mkMV nu0 [] "BASE") "BASE" c0 x nu); [|reflexivity|exact EM].
    constructor; cbn [mv_nu mv_reg]; [reflexivity|exact N|]. intros b1 ? ? ? EE. destruct b1; discriminate EE. }
  pose proof (minv_run u0 nu0 ops _ ["BASE"%string] g0 I0 (fun n J => J) NR OT) as [K1 K2 _].
  rewrite map_app in K1. cbn [map snd app] in K1. fold run in K1, K2. fold next in K1. rewrite <- K1 in *. apply feed_lemma; [lia|exact L].
Qed.
End Records.
