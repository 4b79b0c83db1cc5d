(** Specification of operand lists as plain lists of operands. *)
From Coq Require Import NArith List Bool.
From Verif Require Import M_Meta M_OperandInfo.
Import ListNotations.
Local Open Scope N_scope.

(** Some operand of the list has field [f] and type [k]. *)
Definition has_typed_field (es : list elem) (k : kind) (f : fid) : bool :=
  existsb (fun e => ofid_eqb (e_fid e) (Some f) && okind_eqb (e_type e) (Some k)) es.
(** Number of operands of type [k], an operand repeated under the same field counting once. *)
Definition n_typed (es : list elem) (k : kind) : N :=
  N.of_nat (length (filter (has_typed_field es k) all_fids)) +
  N.of_nat (length (filter (fun e => ofid_eqb (e_fid e) None && okind_eqb (e_type e) (Some k)) es)).
(** Operands with the same field are the same operand. *)
Definition consistent (es : list elem) : Prop :=
  forall e1 e2 f, In e1 es -> In e2 es -> e_fid e1 = Some f -> e_fid e2 = Some f -> e1 = e2.
