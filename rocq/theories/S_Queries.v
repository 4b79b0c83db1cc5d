(** Specification of register queries: counting operands of a list. *)
From Coq Require Import NArith List Bool.
From Verif Require Import M_Meta M_OperandInfo M_Decoded M_OpcodeInfo.
Import ListNotations.
Local Open Scope N_scope.

(** The operands reported on one side of the instruction. *)
Definition operands (d : dinfo) (s : side) : list elem :=
  match s with Src => oi_elems (d_src_oi d) | Dst => oi_elems (d_dst_oi d) end.
(** How many operands of the list have a type of the given class. *)
Definition how_many (p : kind -> bool) (l : list elem) : N :=
  N.of_nat (length (filter (fun e => match e_type e with Some k => p k | None => false end) l)).
Definition integer (k : kind) : bool := match k with KWord | KLong => true | _ => false end.
Definition floating (k : kind) : bool := match k with KSingle | KDouble => true | _ => false end.
Definition vector (k : kind) : bool := match k with KVector => true | _ => false end.
Definition only (k k' : kind) : bool := match k, k' with
  | KWord, KWord | KLong, KLong | KSingle, KSingle | KDouble, KDouble | KQuad, KQuad | KVector, KVector => true
  | _, _ => false end.
Definition any_kind (k : kind) : bool := true.
