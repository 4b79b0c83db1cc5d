(** Cases for the disassemblers of pseudo-instructions (C59). *)
From Coq Require Import NArith List Bool String.
From Verif Require Import M_Base M_Meta M_OperandInfo M_Extract M_Decoded M_Registry M_Builder M_DTable M_Direct M_Pseudo M_PseudoDasm.
From Verif Require Import S_Direct S_Pseudo L_PseudoCases S_PseudoDasm.
From Verif Require S_Dasm.
Import ListNotations.
Local Open Scope N_scope.
Local Open Scope string_scope.

(** A disassembler that shows the name and the annotation. *)
Definition terse (tail : string) : disassembler := fun mn _ _ _ note => Ok (mn ++ " " ++ note ++ tail).
Definition p0 : given := annotate (mkGiven (ask "P0") "") "hot".
Definition later : list pcall := [Install 2 (Some (terse "?")); Install 7 (Some (terse "7")); Install 1 None; Make p0].
Definition calls : list pcall := Make p0 :: Install 1 (Some (terse "!")) :: later.
Lemma calls_after : untouched 1 later.
Proof. intros f [H|[H|[H|[H|[]]]]]; discriminate H. Qed.
Definition shown_after (uids : list (string * N)) (h : list pcall) (g : given) : option (N * res string) :=
  match make_pseudos uids [] 1 test_pseudos with
  | Ok b => match snd (make_shown (pcalls b h) g) with Ok v => Some (pseudo_uid b "P0", text_of v) | _ => None end
  | _ => None
  end.
Lemma shown_ok uids h g u r : shown_after uids h g = Some (u, r) ->
  exists b v, make_pseudos uids [] 1 test_pseudos = Ok b /\ pseudo_uid b "P0" = u /\ snd (make_shown (pcalls b h) g) = Ok v /\ text_of v = r.
Proof.
  unfold shown_after. destruct (make_pseudos uids [] 1 test_pseudos) as [b| | |]; try discriminate.
  destruct (snd (make_shown (pcalls b h) g)) as [v| | |] eqn:E; try discriminate. intros [= <- <-]. exists b, v. auto.
Qed.
Lemma case_installed : shown_after [] calls p0 = Some (1, Ok "P0 hot!").
Proof. vm_compute. reflexivity. Qed.
Lemma case_default : exists t, shown_after [] [Install 2 (Some (terse "?"))] p0 = Some (1, Ok t) /\ ~ In "hot" (S_Dasm.words t).
Proof.
  eexists. split; [vm_compute; reflexivity|]. vm_compute. intros H. repeat destruct H as [H|H]; discriminate || destruct H.
Qed.
Definition refusal (u : N) : option (res unit * bool) :=
  match make_pseudos [("bystander", 5)] [] 1 test_pseudos with
  | Ok b => Some (snd (set_dasm (pcalls b calls) u (Some (terse "")) ), forallb (fun p => match r_pseudo (fst p) with Some mn => negb (N.eqb u (pseudo_uid b mn)) | None => true end) test_pseudos)
  | _ => None
  end.
Lemma refusal_ok u r c : refusal u = Some (r, c) -> exists b, make_pseudos [("bystander", 5)] [] 1 test_pseudos = Ok b /\
  snd (set_dasm (pcalls b calls) u (Some (terse ""))) = r /\ (c = true -> ~ pseudo_id b test_pseudos u).
Proof.
  unfold refusal. destruct (make_pseudos _ [] 1 test_pseudos) as [b| | |]; try discriminate. intros E.
  pose proof (f_equal (fun o => match o with Some (a, _) => a | None => UB end) E) as E1. pose proof (f_equal (fun o => match o with Some (_, a) => a | None => c end) E) as E2.
  cbv beta iota in E1, E2. exists b. split; [reflexivity|]. split; [exact E1|].
  clear E E1. intros ->. rewrite forallb_forall in E2. intros (p & mn & H1 & H2 & ->). specialize (E2 p H1). rewrite H2, N.eqb_refl in E2. discriminate.
Qed.
Lemma calls_fit : Forall call_fits calls.
Proof. repeat constructor; vm_compute; reflexivity. Qed.
