(** Specification: the opcodes for which the shipped RV32 tables with Zclsd fail (C38, C49). *)
From Coq Require Import NArith.
From Verif Require Import S_Bits.
Local Open Scope N_scope.

(** "c.sdsp x0, ...": bits 6:0 are 00000 10 and bits 15:13 are 111. *)
Definition sdsp_x0 (ic : N) : Prop := slice 0 7 ic = 2 /\ slice 13 3 ic = 7.
