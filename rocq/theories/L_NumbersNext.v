(** Lemmas: the numbers of a context made after trace records. *)
From Coq Require Import NArith ZArith Arith List Bool String Lia.
From Verif Require Import M_Base M_Meta M_Extract M_Decoded M_Registry M_Trie M_Builder M_DTable M_Pseudo M_Context M_Left.
From Verif Require Import S_Maps S_Uids S_Context S_Numbers L_Registry L_Uids L_Context L_CtxUids L_Numbers L_NumbersRec.
From Verif Require Import L_PseudoCases L_ContextCases L_CtxUidCases L_LeftCases L_NumbersCases.
Import ListNotations.
Local Open Scope N_scope.

Section Next.
Context {A U : Type} (u0 : U).
Lemma mrun_to (g : mavis A U) o r g' a : mstep u0 g o = (g', a) -> goes_on a -> mrun u0 g (o :: r) = (fst (mrun u0 g' r), a :: snd (mrun u0 g' r)).
Proof. intros E GO. cbn [mrun]. rewrite E. destruct a; try contradiction GO; destruct (mrun u0 g' r); reflexivity. Qed.
(** The counter after trace records none of which ended the program. *)
Lemma feed_count (rs : list (record A)) : forall g : mavis A U, 0 < mv_nu g -> mv_nu g + N.of_nat (List.length rs) < w32 ->
  let run := mrun u0 g (flat_map feed rs) in List.length (snd run) = (4 * List.length rs)%nat ->
  mv_nu (fst run) = mv_nu g + N.of_nat (List.length (new_numbers (snd run))) /\ (List.length (new_numbers (snd run)) <= List.length rs)%nat.
Proof.
  induction rs as [|r rs IH]; intros g P L; cbv zeta; intros H; [cbn; lia|].
  cbn [flat_map feed app] in *. set (tail := flat_map feed rs) in *.
  assert (S : exists g1 a1, mstep u0 g (GSwitch (rc_ctx r)) = (g1, a1) /\ goes_on a1 /\ mv_nu g1 = mv_nu g).
  { unfold mstep. cbn [gstep]. destruct (mfind (mv_reg g) (rc_ctx r)); do 2 eexists; (split; [reflexivity|]); split; exact Logic.I || reflexivity. }
  destruct S as (g1 & a1 & E1 & GO & N1). rewrite (mrun_to _ _ _ _ _ E1 GO) in *. cbn [fst snd] in *. rewrite <- N1 in *. clear E1 GO N1 g.
  destruct (ask_step u0 g1 (rc_name r)) as [E2|(x & F & E2)].
  { rewrite (mrun_off u0 _ _ _ _ _ E2 (fun K => K)) in H. cbn [List.length] in H. lia. }
  rewrite (mrun_to _ _ _ _ _ E2 Logic.I) in *. cbn [fst snd] in *. clear E2 F. set (x1 := ctxt_at x (mv_nu g1)) in *. set (g2 := mkMV _ _ _) in *.
  assert (LS : N.of_nat (List.length (r :: rs)) = N.of_nat (List.length rs) + 1) by (cbn [List.length]; lia).
  assert (E3 : exists g3 a3, mstep u0 g2 (GCall (COp (OTrace (rc_opcode r) (rc_name r) (rc_ext r) (rc_args r)))) = (g3, a3) /\ exists x3, mfind (mv_reg g3) (mv_cur g3) = Some x3 /\
    ((ir_uid (b_inst (dt_b (cx_dt x3))) (rc_name r) = ir_uid (b_inst (dt_b (cx_dt x))) (rc_name r) /\ mv_nu g3 = mv_nu g1) \/
     (ir_uid (b_inst (dt_b (cx_dt x))) (rc_name r) = INVALID_UID /\ ir_uid (b_inst (dt_b (cx_dt x3))) (rc_name r) = mv_nu g1 /\ mv_nu g3 = mv_nu g1 + 1))).
  { unfold mstep, g2. cbn [gstep mv_reg mv_cur mv_nu]. rewrite mfind_madd, String.eqb_refl. cbn [cstep].
    pose proof (trace_number u0 (cx_dt (ctxt_at x1 (mv_nu g1))) (rc_opcode r) (rc_name r) (rc_ext r) (rc_args r)) as T. cbv zeta in T.
    change (b_nu (dt_b (cx_dt (ctxt_at x1 (mv_nu g1))))) with (mv_nu g1) in T. change (b_inst (dt_b (cx_dt (ctxt_at x1 (mv_nu g1))))) with (b_inst (dt_b (cx_dt x))) in T.
    assert (LL : mv_nu g1 + 1 < w32) by lia. specialize (T LL). destruct (step u0 (cx_dt (ctxt_at x1 (mv_nu g1))) _) as [d a]. cbn [fst] in T.
    do 2 eexists. split; [reflexivity|]. exists (mkCx d (cx_pb (ctxt_at x1 (mv_nu g1)))). cbn [mv_reg mv_cur mv_nu]. rewrite mfind_madd, String.eqb_refl. split; [reflexivity|].
    unfold ctxt_nu. cbn [cx_dt]. exact T. }
  destruct E3 as (g3 & a3 & E3 & x3 & F3 & T). destruct (goes_dec a3) as [GO|GO].
  2:{ rewrite (mrun_off u0 _ _ _ _ _ E3 GO) in H. cbn [List.length] in H. lia. }
  rewrite (mrun_to _ _ _ _ _ E3 GO) in *. cbn [fst snd] in *. clear E3 GO g2.
  assert (E4 : exists g4, mstep u0 g3 (GCall (CUid (rc_name r))) = (g4, Ok (GAns (CNum (ir_uid (b_inst (dt_b (cx_dt x3))) (rc_name r))))) /\ mv_nu g4 = mv_nu g3).
  { eexists. unfold mstep. cbn [gstep]. rewrite F3. split; reflexivity. }
  destruct E4 as (g4 & E4 & N4). rewrite (mrun_to _ _ _ _ _ E4 Logic.I) in *. cbn [fst snd] in *. clear E4.
  specialize (IH g4). rewrite N4 in IH. cbv zeta in IH. fold tail in IH. cbn [List.length] in H. cbn [new_numbers List.length].
  assert (IH' : mv_nu (fst (mrun u0 g4 tail)) = mv_nu g3 + N.of_nat (List.length (new_numbers (snd (mrun u0 g4 tail)))) /\ (List.length (new_numbers (snd (mrun u0 g4 tail))) <= List.length rs)%nat)
    by (apply IH; destruct T as [[_ T]|(_ & _ & T)]; rewrite ?T; lia). clear IH. destruct IH' as [K1 K2].
  destruct T as [[T1 T2]|(T1 & T2 & T3)].
  - rewrite T1. destruct (ir_uid _ _ =? INVALID_UID); cbn [andb negb]; rewrite K1; lia.
  - rewrite T1, T2, N.eqb_refl. destruct (N.eqb_spec (mv_nu g1) INVALID_UID) as [Z|_]; [unfold INVALID_UID in Z; lia|]. cbn [andb negb List.length]. rewrite K1. lia.
Qed.
Lemma next_lemma c0 nu0 (g0 : mavis A U) (ops : list (gop A U)) (rs : list (record A)) : 0 < nu0 < 2 ^ 32 -> mavis_new c0 nu0 = Ok g0 ->
  let run := mrun u0 g0 ops in Forall no_record ops -> only_taken ["BASE"%string] ops (snd run) ->
  let next := used_by (c0 :: map snd (made ops (snd run))) nu0 in next + N.of_nat (List.length rs) < 2 ^ 32 ->
  let run' := mrun u0 (fst run) (flat_map feed rs) in List.length (snd run') = (4 * List.length rs)%nat ->
  forall X c b g a, mstep u0 (fst run') (GMake X c b) = (g, Ok a) ->
  forall w k m, nth_error (names_of w c) k = Some m -> says u0 g X w m (number c (next + N.of_nat (List.length (new_numbers (snd run')))) w k).
Proof.
  intros N H run NR OT next L run' LN X c b g a E w k m Q.
  assert (I0 : minv nu0 [("BASE"%string, c0)] g0).
  { unfold mavis_new in H. destruct (make_context c0 nu0) as [[x nu]| | |] eqn:EM; cbn [rbind] in H; try discriminate.
    assert (g0 = mkMV nu [("BASE"%string, x)] "BASE") as -> by congruence.
    apply (minv_make nu0 [] (mkMV nu0 [] "BASE") "BASE" c0 x nu); [|reflexivity|exact EM].
    constructor; cbn [mv_nu mv_reg]; [reflexivity|exact N|]. intros b1 ? ? ? EE. destruct b1; discriminate EE. }
  pose proof (minv_run u0 nu0 ops _ ["BASE"%string] g0 I0 (fun n J => J) NR OT) as [K1 K2 _].
  rewrite map_app in K1. cbn [map snd app] in K1. fold run in K1, K2. fold next in K1. rewrite <- K1 in *.
  destruct (feed_count rs (fst run) (proj1 K2) L LN) as [M1 M2]. fold run' in M1, M2. rewrite <- M1.
  unfold mstep in E. cbn [gstep] in E. destruct (mfind (mv_reg (fst run')) X); [discriminate|]. destruct (make_context c (mv_nu (fst run'))) as [[x nu]| | |] eqn:EM; try discriminate.
  assert (g = mkMV nu (madd (mv_reg (fst run')) X x) (mv_cur (fst run'))) as -> by congruence.
  apply context_counts in EM as (C & _ & _); [|change w32 with (2 ^ 32); lia].
  apply (find_says u0 _ X w m x); [cbn [mv_reg]; now rewrite mfind_madd, String.eqb_refl|]. now apply C.
Qed.
End Next.

(** ** Case *)
Definition oks {T} (a : res T) : bool := match a with Ok _ => true | _ => false end.
Lemma next_case : exists g0 : mavis N N, mavis_new mixed_config 1 = Ok g0 /\
  let run := mrun 0 g0 two_contexts in Forall no_record two_contexts /\ only_taken ["BASE"%string] two_contexts (snd run) /\
  used_by (mixed_config :: map snd (made two_contexts (snd run))) 1 = 52 /\
  let run' := mrun 0 (fst run) (flat_map feed four_records) in
  List.length (snd run') = (4 * List.length four_records)%nat /\ List.length (new_numbers (snd run')) = 3%nat /\
  exists g a, mstep 0 (fst run') (GMake "Y" mixed_config 0) = (g, Ok a) /\ 
    nth_error (names_of Instructions mixed_config) 2 = Some "addi"%string /\ number mixed_config (52 + 3) Instructions 2 = 57 /\ says 0 g "Y" Instructions "addi" 57.
Proof.
  assert (V : match mavis_new mixed_config 1 with Ok g => nums (outline (snd (mrun 0 g two_contexts))) [2; 1; 3; 1; 2; 2] &&
      (let run' := mrun 0 (fst (mrun 0 g two_contexts)) (flat_map feed four_records) in let p := mstep 0 (fst run') (GMake "Y" mixed_config 0) in
       Nat.eqb (List.length (snd run')) 16 && (Nat.eqb (List.length (new_numbers (snd run'))) 3 && (oks (snd p) && (uid_said (fst p) "Y" Instructions "addi" =? 57)))) | _ => false end = true) by (vm_compute; reflexivity).
  apply view_ok in V as (g & E & V). exists g. split; [exact E|]. clear E. cbv zeta in *.
  generalize dependent (mrun 0 g two_contexts). intros r V.
  apply andb_true_iff in V as [V1 V]. apply nums_ok, two_outline in V1 as [V1 V4].
  split. { unfold two_contexts. repeat (apply Forall_cons; [exact Logic.I|]). apply Forall_nil. }
  split; [exact V1|]. split; [rewrite V4; vm_compute; reflexivity|]. clear V1 V4.
  revert V. generalize (mrun 0 (fst r) (flat_map feed four_records)). intros r' V.
  apply andb_true_iff in V as [V1 V]. apply andb_true_iff in V as [V2 V]. apply andb_true_iff in V as [V3 V]. apply Nat.eqb_eq in V1, V2. apply N.eqb_eq in V.
  split; [exact V1|]. split; [exact V2|]. clear V1 V2. revert V V3. destruct (mstep 0 (fst r') (GMake "Y" mixed_config 0)) as [g' a]. cbn [fst snd]. intros V V3.
  destruct a as [a| | |]; try discriminate V3. exists g', a. split; [reflexivity|].
  split; [vm_compute; reflexivity|]. split; [vm_compute; reflexivity|]. exact (uid_said_ok _ _ _ _ _ V (fun K => N.neq_succ_0 56 K)).
Qed.
