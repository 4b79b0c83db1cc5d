(** A concrete program with instruction and pseudo-instruction numbers in two contexts. *)
From Coq Require Import NArith ZArith List Bool String Lia.
From Verif Require Import M_Base M_Field M_OperandInfo M_Extract M_Decoded M_Registry M_Builder M_DTable M_Direct M_Pseudo M_Context.
From Verif Require Import S_History S_Shipped S_Context L_PseudoCases L_ContextCases.
Import ListNotations.
Local Open Scope string_scope.
Local Open Scope N_scope.

Definition mixed_config : config := mkCfg (map (fun r => (r, mkPC [] [] [])) small ++ test_pseudos)%list [] [] [] [] [].
Definition named_config : config := mkCfg (map (fun r => (r, mkPC [] [] [])) small ++ test_pseudos)%list [] [("addi", 40)] [] [] [].
Definition uid_program : list (gop N N) :=
  [GMake "X" named_config 5000; GMake "X" named_config 5000; GCall (COp (OTrace 0x108093 "vendor" (ext X_I 0) 1)); GSwitch "X"; GCall (COp (OMake 0x108093 2))].
Fixpoint kept_upto (n : N) (g : mavis N N) (ops : list (gop N N)) : bool :=
  match ops with
  | [] => true
  | o :: r => (match o with GMake _ _ nu' => (mv_nu g <=? nu') && (nu' <? 2 ^ 32) | _ => true end) && kept_upto n (fst (gstep 0 g o)) r
  end.
Lemma kept_upto_ok n ops : forall g, kept_upto n g ops = true -> counter_kept 0 g ops.
Proof.
  induction ops as [|o ops IH]; intros g H; cbn in *; [exact I|]. apply andb_true_iff in H as [H1 H2]. split; [|now apply IH].
  destruct o; auto. apply andb_true_iff in H1 as [H1 H3]. apply N.leb_le in H1. apply N.ltb_lt in H3. auto.
Qed.
Definition on {T} (a : res T) : bool := match a with Ok _ | Throw _ => true | _ => false end.
Lemma on_ok {T} (l : list (res T)) : forallb on l = true -> Forall goes_on l.
Proof. intros H. apply Forall_forall. intros a I. rewrite forallb_forall in H. apply H in I. destruct a; try discriminate; exact Logic.I. Qed.
Definition uid_said (g : mavis N N) X w m : N :=
  match snd (grun 0 g [GSwitch X; GCall (question w m)]) with
  | [Ok GDone; Ok (GAns (CNum u))] => u
  | _ => 0
  end.
Lemma uid_said_ok g X w m u : uid_said g X w m = u -> u <> 0 -> says 0 g X w m u.
Proof.
  unfold uid_said, says. intros <-. destruct (snd (grun 0 g [GSwitch X; GCall (question w m)])) as [|a1 [|a2 [|a3 l]]]; try congruence;
    destruct a1 as [[| |]| | |]; try congruence; destruct a2 as [[[]| |]| | |]; congruence.
Qed.
Definition uid_view (g : mavis N N) : bool :=
  kept_upto 0 g uid_program && (forallb on (snd (grun 0 g uid_program)) &&
  (match snd (grun 0 g uid_program) with Ok GDone :: _ => true | _ => false end &&
  ((uid_said (fst (grun 0 g uid_program)) "BASE" Instructions "vendor" =? 52) &&
  ((uid_said (fst (grun 0 g uid_program)) "X" PseudoInstructions "P0" =? 49) &&
   (uid_said (fst (grun 0 g uid_program)) "X" Instructions "addi" =? 40))))).
Lemma view_ok {T} (r : res T) f : match r with Ok g => f g | _ => false end = true -> exists g, r = Ok g /\ f g = true.
Proof. destruct r; try discriminate. eauto. Qed.
Lemma first_done {T} (a : T) (r : list T) (l : list (res (gans N N))) : match l with Ok GDone :: _ => true | _ => false end = true -> In (a, Ok GDone) (combine (a :: r) l).
Proof. destruct l as [|[[| |]| | |] l]; try discriminate. intros _. now left. Qed.
Lemma no_vendor : forall r p, In (r, p) (c_recs mixed_config) -> r_mn r = Some "vendor" -> False.
Proof.
  assert (B : forallb (fun q => match r_mn (fst q) with Some m => negb (String.eqb m "vendor") | None => true end) (c_recs mixed_config) = true) by (vm_compute; reflexivity).
  intros r p I Q. rewrite forallb_forall in B. apply B in I. cbn [fst] in I. rewrite Q in I. discriminate I.
Qed.
Lemma uid_program_case : exists g0 : mavis N N, mavis_new mixed_config 1 = Ok g0 /\ counter_kept 0 g0 uid_program /\
  Forall goes_on (snd (grun 0 g0 uid_program)) /\
  made_with mixed_config (combine uid_program (snd (grun 0 g0 uid_program))) "X" named_config /\
  library_chose mixed_config Instructions "vendor" /\ library_chose named_config PseudoInstructions "P0" /\
  says 0 (fst (grun 0 g0 uid_program)) "BASE" Instructions "vendor" 52 /\
  says 0 (fst (grun 0 g0 uid_program)) "X" PseudoInstructions "P0" 49 /\
  says 0 (fst (grun 0 g0 uid_program)) "X" Instructions "addi" 40 /\ ~ library_chose named_config Instructions "addi".
Proof.
  assert (V : match mavis_new mixed_config 1 with Ok g => uid_view g | _ => false end = true) by (vm_compute; reflexivity).
  apply view_ok in V as (g & E & V). exists g. split; [exact E|]. unfold uid_view in V.
  apply andb_true_iff in V as [V1 V]. apply andb_true_iff in V as [V2 V]. apply andb_true_iff in V as [V3 V].
  apply andb_true_iff in V as [V4 V]. apply andb_true_iff in V as [V5 V6]. apply N.eqb_eq in V4, V5, V6.
  split; [exact (kept_upto_ok 0 uid_program g V1)|]. split; [now apply on_ok|].
  split; [right; exists 5000; apply first_done; exact V3|].
  split; [split; [intros []|]; intros _ r p I Q; exfalso; revert I Q; apply no_vendor|].
  split; [split; [intros [Q|[]]; discriminate Q|discriminate]|].
  split; [exact (uid_said_ok _ _ _ _ _ V4 (fun Q => N.neq_succ_0 51 Q))|]. split; [exact (uid_said_ok _ _ _ _ _ V5 (fun Q => N.neq_succ_0 48 Q))|].
  split; [exact (uid_said_ok _ _ _ _ _ V6 (fun Q => N.neq_succ_0 39 Q))|]. intros [Q _]. apply Q. left. reflexivity.
Qed.
