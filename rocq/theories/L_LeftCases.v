(** A concrete program with a construction that fails. *)
From Coq Require Import NArith ZArith List Bool String Lia.
From Verif Require Import M_Base M_Field M_OperandInfo M_Extract M_Decoded M_Registry M_Builder M_DTable M_Direct M_Pseudo M_Context M_Left.
From Verif Require Import S_History S_Shipped S_Context L_PseudoCases L_ContextCases L_CtxUidCases.
Import ListNotations.
Local Open Scope string_scope.
Local Open Scope N_scope.

Definition nums (a b : list N) : bool := if list_eq_dec N.eq_dec a b then true else false.
Lemma nums_ok a b : nums a b = true -> a = b.
Proof. unfold nums. destruct (list_eq_dec N.eq_dec a b); [auto|discriminate]. Qed.
(** Every record comes twice. *)
Definition broken_config : config := mkCfg (map (fun r => (r, mkPC [] [] [])) (small ++ small))%list [] [] [] [] [].
Definition left_program : list (gop N N) :=
  [GMake "X" broken_config 0; GMake "Y" named_config 0; GMake "Y" named_config 0;
   GCall (COp (OTrace 0x108093 "vendor" (ext X_I 0) 1)); GSwitch "Y"; GMake "X" mixed_config 0; GCall (COp (OMake 0x108093 2))].
Definition outline (l : list (res (gans N N))) : list N := map (fun a => match a with Ok GDone => 1 | Ok _ => 2 | Throw _ => 3 | _ => 4 end) l.
Lemma outline_on l : forallb (fun n => n <? 4) (outline l) = true -> Forall goes_on l.
Proof.
  intros H. apply Forall_forall. intros a I. rewrite forallb_forall in H. specialize (H _ (in_map _ _ _ I)). cbv beta in H.
  destruct a; try exact Logic.I; discriminate H.
Qed.
Lemma outline_at l : forall i, nth_error (outline l) i = Some 1 -> nth_error l i = Some (Ok GDone).
Proof. induction l as [|a l IH]; intros [|i] H; cbn in *; try discriminate; auto. destruct a as [[| |]| | |]; try discriminate. reflexivity. Qed.
Lemma combine_at {S T} (l : list S) (l' : list T) : forall i a b, nth_error l i = Some a -> nth_error l' i = Some b -> In (a, b) (combine l l').
Proof.
  revert l'. induction l as [|x l IH]; intros [|y l'] [|i] a b; cbn; try discriminate; [intros [= <-] [= <-]; auto|eauto].
Qed.
Definition left_view (g : mavis N N) : list N :=
  let r := mrun 0 g left_program in
  outline (snd r) ++ [uid_said (fst r) "BASE" Instructions "vendor"; uid_said (fst r) "Y" PseudoInstructions "P0"; uid_said (fst r) "X" PseudoInstructions "P0";
    uid_said (fst r) "X" Instructions "addi"].
Lemma left_program_case : exists g0 : mavis N N, mavis_new mixed_config 1 = Ok g0 /\
  let g := fst (mrun 0 g0 left_program) in let answers := snd (mrun 0 g0 left_program) in
  Forall goes_on answers /\ (exists e, nth_error answers 0 = Some (Throw e)) /\
  made_with mixed_config (combine left_program answers) "Y" named_config /\ made_with mixed_config (combine left_program answers) "X" mixed_config /\
  library_chose mixed_config Instructions "vendor" /\ library_chose named_config PseudoInstructions "P0" /\ library_chose mixed_config PseudoInstructions "P0" /\
  says 0 g "BASE" Instructions "vendor" 52 /\ says 0 g "Y" PseudoInstructions "P0" 49 /\ says 0 g "X" PseudoInstructions "P0" 62.
Proof.
  assert (V : match mavis_new mixed_config 1 with Ok g => nums (left_view g) [3; 1; 3; 2; 1; 1; 2; 52; 49; 62; 55] | _ => false end = true) by (vm_compute; reflexivity).
  apply view_ok in V as (g & E & V). exists g. split; [exact E|]. cbv zeta. clear E.
  apply nums_ok in V. unfold left_view in V. cbv zeta in V.
  generalize dependent (mrun 0 g left_program). intros r V.
  assert (L : List.length (outline (snd r)) = 7%nat) by (apply (f_equal (@List.length N)) in V; rewrite app_length in V; cbn in V; lia).
  assert (P : outline (snd r) = [3; 1; 3; 2; 1; 1; 2] /\ [uid_said (fst r) "BASE" Instructions "vendor"; uid_said (fst r) "Y" PseudoInstructions "P0"; uid_said (fst r) "X" PseudoInstructions "P0";
    uid_said (fst r) "X" Instructions "addi"] = [52; 49; 62; 55]).
  { destruct (outline (snd r)) as [|a0 [|a1 [|a2 [|a3 [|a4 [|a5 [|a6 [|? ?]]]]]]]]; try discriminate L. cbn [app] in V. split; congruence. }
  destruct P as [O Q]. clear V L.
  assert (Q1 : uid_said (fst r) "BASE" Instructions "vendor" = 52) by congruence.
  assert (Q2 : uid_said (fst r) "Y" PseudoInstructions "P0" = 49) by congruence.
  assert (Q3 : uid_said (fst r) "X" PseudoInstructions "P0" = 62) by congruence.
  split; [apply outline_on; rewrite O; reflexivity|].
  split; [destruct (snd r) as [|a l]; [discriminate O|]; destruct a as [[| |]|e| |]; try discriminate O; exists e; reflexivity|].
  split; [right; exists 0; apply (combine_at _ _ 1); [reflexivity|apply outline_at; rewrite O; reflexivity]|].
  split; [right; exists 0; apply (combine_at _ _ 5); [reflexivity|apply outline_at; rewrite O; reflexivity]|].
  split; [split; [intros []|]; intros _ r0 p I K; exfalso; revert I K; apply no_vendor|].
  split; [split; [intros [K|[]]; discriminate K|discriminate]|]. split; [split; [intros []|discriminate]|].
  split; [exact (uid_said_ok _ _ _ _ _ Q1 (fun K => N.neq_succ_0 51 K))|]. split; [exact (uid_said_ok _ _ _ _ _ Q2 (fun K => N.neq_succ_0 48 K))|].
  exact (uid_said_ok _ _ _ _ _ Q3 (fun K => N.neq_succ_0 61 K)).
Qed.

(** A construction that failed is noticed later. *)
Definition plain_make : list (gop N N) := [GMake "X" small_config 0].
Definition failed_make : list (gop N N) := [GMake "Y" broken_config 0; GMake "X" small_config 0].
Lemma failed_make_case : exists g0 : mavis N N, mavis_new small_config 1 = Ok g0 /\
  (exists e, snd (mrun 0 g0 failed_make) = [Throw e; Ok GDone]) /\ snd (mrun 0 g0 plain_make) = [Ok GDone] /\
  says 0 (fst (mrun 0 g0 plain_make)) "X" Instructions "addi" 12 /\ says 0 (fst (mrun 0 g0 failed_make)) "X" Instructions "addi" 21.
Proof.
  assert (V : match mavis_new small_config 1 with Ok g => nums (outline (snd (mrun 0 g failed_make))) [3; 1] &&
      (nums (outline (snd (mrun 0 g plain_make))) [1] &&
      ((uid_said (fst (mrun 0 g plain_make)) "X" Instructions "addi" =? 12) && (uid_said (fst (mrun 0 g failed_make)) "X" Instructions "addi" =? 21))) | _ => false end = true) by (vm_compute; reflexivity).
  apply view_ok in V as (g & E & V). exists g. split; [exact E|]. clear E.
  generalize dependent (mrun 0 g plain_make). generalize dependent (mrun 0 g failed_make). intros r r' V.
  apply andb_true_iff in V as [V1 V]. apply andb_true_iff in V as [V2 V]. apply andb_true_iff in V as [V3 V4]. apply N.eqb_eq in V3, V4.
  apply nums_ok in V1, V2.
  split; [|split; [|split]].
  - destruct (snd r) as [|a [|b [|? ?]]]; try discriminate V1. destruct a as [[| |]|e| |]; try discriminate V1. destruct b as [[| |]| | |]; try discriminate V1. eauto.
  - destruct (snd r') as [|a [|? ?]]; try discriminate V2. destruct a as [[| |]|e| |]; try discriminate V2. reflexivity.
  - exact (uid_said_ok _ _ _ _ _ V3 (fun K => N.neq_succ_0 11 K)).
  - exact (uid_said_ok _ _ _ _ _ V4 (fun K => N.neq_succ_0 20 K)).
Qed.
