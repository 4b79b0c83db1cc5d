(** Specification: which disassembler shows a pseudo-instruction (C59). *)
From Coq Require Import NArith List Bool String.
From Verif Require Import M_Base M_Builder M_Direct M_Pseudo M_PseudoDasm S_Pseudo.
Import ListNotations.
Local Open Scope N_scope.

(** Calls: setPseudoInstDisassembler(uid, f), where a null pointer is [None], and
    makePseudoInst. *)
Inductive pcall :=
| Install (uid : N) (f : option disassembler)
| Make (g : given).
Definition pdo (s : pdasm) (c : pcall) : pdasm :=
  match c with Install u f => fst (set_dasm s u f) | Make g => fst (make_shown s g) end.
Definition pcalls (b : pbuilder) (h : list pcall) : pdasm := fold_left pdo h (pdasm_new b).
(** UIDs within 100 of 2^32 are left out. *)
Definition call_fits (c : pcall) : Prop :=
  match c with Install u _ => u + 100 < 2 ^ 32 | Make g => dx_uid (gv_direct g) + 100 < 2 ^ 32 end.
(** After [h], nothing was installed for [uid]; or [f] was, and nothing after it. *)
Definition untouched (uid : N) (h : list pcall) : Prop := forall f, ~ In (Install uid (Some f)) h.
Definition newest (uid : N) (h : list pcall) (f : disassembler) : Prop :=
  exists h1 h2, h = (h1 ++ Install uid (Some f) :: h2)%list /\ untouched uid h2.
(** [uid] is the UID of one of the pseudo-instructions of [recs]. *)
Definition pseudo_id (b : pbuilder) (recs : list prec) (uid : N) : Prop :=
  exists p mn, In p recs /\ r_pseudo (fst p) = Some mn /\ uid = pseudo_uid b mn.
