(** What is meant by: instructions are numbered in order (C74). *)
From Coq Require Import NArith List Bool String.
From Verif Require Import M_Base M_Meta M_Extract M_Registry M_Builder M_DTable M_Pseudo M_Context S_Table S_Context.
Import ListNotations.
Local Open Scope N_scope.

(** The names that get a number of their own, in order: of [l], each one when it is first
    mentioned, unless it is one of [known] or is first mentioned as that of a compressed
    instruction (the flag), which shares the number of its expansion. *)
Fixpoint numbered (known : list string) (l : list (string * bool)) : list string :=
  match l with
  | [] => []
  | (m, shares) :: r =>
      if in_dec string_dec m known then numbered known r
      else if shares then numbered (m :: known) r else m :: numbered (m :: known) r
  end.
(** The instructions of a context: two built-in ones, then those of the records that are not
    filtered out. *)
Definition mentions (r : irec) : list (string * bool) :=
  match r_mn r with
  | None => []
  | Some m => [(m, match r_overlay r with Some _ => false | None => negb (String.eqb (r_expand r) "") end)]
  end.
Definition instruction_names (c : config) : list string :=
  numbered (map fst (c_uids c)) (("nop"%string, false) :: ("cmov"%string, false) :: flat_map mentions (kept (c_incl c) (c_excl c) (map fst (c_recs c)))).
(** Its pseudo-instructions; filters do not apply to them. *)
Definition pseudo_names (c : config) : list string :=
  numbered (map fst (c_uids c)) (flat_map (fun r => match r_pseudo (fst r) with Some m => [(m, false)] | None => [] end) (c_recs c)).
Definition names_of (w : numbering) (c : config) : list string :=
  match w with Instructions => instruction_names c | PseudoInstructions => pseudo_names c end.
(** The first number from [next] on that is above all the user gives. *)
Definition above (uids : list (string * N)) (next : N) : N := fold_left (fun n p => N.max (snd p + 1) n) uids next.
(** The number of the [k]-th name of a context, [next] being the first number not used before. *)
Definition number (c : config) (next : N) (w : numbering) (k : nat) : N :=
  above (c_uids c) next + N.of_nat k + match w with Instructions => 0 | PseudoInstructions => N.of_nat (List.length (instruction_names c)) end.
(** The first number not used by a context. *)
Definition used_up (c : config) (next : N) : N :=
  above (c_uids c) next + N.of_nat (List.length (instruction_names c)) + N.of_nat (List.length (pseudo_names c)).
(** ... and by several contexts made one after the other. *)
Definition used_by (cs : list config) (next : N) : N := fold_left (fun n c => used_up c n) cs next.

(** The contexts a program makes, in order: the calls of makeContext that succeed. *)
Fixpoint made {A U} (ops : list (gop A U)) (l : list (res (gans A U))) : list (string * config) :=
  match ops, l with
  | GMake n c _ :: ops, Ok _ :: l => (n, c) :: made ops l
  | _ :: ops, _ :: l => made ops l
  | _, _ => []
  end.
(** Not a call with a trace record. *)
Definition no_record {A U} (o : gop A U) : Prop := match o with GCall (COp (OTrace _ _ _ _)) => False | _ => True end.
(** A call of makeContext fails only because the name is taken; [names]: the contexts there are. *)
Fixpoint only_taken {A U} (names : list string) (ops : list (gop A U)) (l : list (res (gans A U))) : Prop :=
  match ops, l with
  | GMake n _ _ :: ops, Ok _ :: l => only_taken (n :: names) ops l
  | GMake n _ _ :: ops, Throw _ :: l => In n names /\ only_taken names ops l
  | _ :: ops, _ :: l => only_taken names ops l
  | _, _ => True
  end.

(** A trace record for a context: the opcode, the name, the operands, the user's arguments. *)
Record record (A : Type) := mkRecord { rc_ctx : string; rc_opcode : N; rc_name : string; rc_ext : Ext; rc_args : A }.
Arguments mkRecord {A}. Arguments rc_ctx {A}. Arguments rc_opcode {A}. Arguments rc_name {A}. Arguments rc_ext {A}. Arguments rc_args {A}.
(** The record, and the number of its name before and after. *)
Definition feed {A U} (r : record A) : list (gop A U) :=
  [GSwitch (rc_ctx r); GCall (CUid (rc_name r)); GCall (COp (OTrace (rc_opcode r) (rc_name r) (rc_ext r) (rc_args r))); GCall (CUid (rc_name r))].
(** The numbers given to names that had none. *)
Fixpoint new_numbers {A U} (l : list (res (gans A U))) : list N :=
  match l with
  | _ :: Ok (GAns (CNum before)) :: _ :: Ok (GAns (CNum after)) :: l =>
      if (before =? INVALID_UID) && negb (after =? INVALID_UID) then after :: new_numbers l else new_numbers l
  | _ => []
  end.
