(** Specification vocabulary for unique ids (C13, C14): which registry is the i-th one,
    which mnemonics it was given by the user, which were aliased. *)
From Coq Require Import NArith List Bool String.
From Verif Require Import M_Base M_Registry.
Import ListNotations.

(** The user's id lists, one per constructed registry, in order. *)
Fixpoint user_lists (l : list uop) : list (list (string * N)) :=
  match l with
  | [] => []
  | UNew u :: r => u :: user_lists r
  | _ :: r => user_lists r
  end.
(** [m] was requested as an expansion alias in registry [i]. *)
Definition aliased (l : list uop) (i : nat) (m : string) : Prop := exists x, In (UAlias i m x) l.
(** The user chose the id of [m] in registry [i]. *)
Definition user_given (l : list uop) (i : nat) (m : string) : Prop :=
  exists us u, nth_error (user_lists l) i = Some us /\ In (m, u) us.
(** Registry [i] of the process. *)
Definition registry (w : world) (i : nat) (r : instreg) : Prop := nth_error (wd_regs w) i = Some r.
(** [m] has an id. *)
Definition has_uid (r : instreg) (m : string) : Prop := ir_uid r m <> INVALID_UID.
