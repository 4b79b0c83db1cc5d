(** Specification: instructions that share a factory (C60). *)
From Coq Require Import NArith List Bool String.
From Verif Require Import M_Base M_Builder S_Table.
Import ListNotations.

(** Record [r] is an instruction (neither compressed nor an overlay) whose "factory" clause, or
    else whose name, is [F]. *)
Definition member (F : string) (r : irec) : Prop := exists mn, is_inst r mn /\ r_expand r = ""%string /\ fname_of r mn = F.
(** [r0] is the first of them. *)
Definition founder (recs : list irec) (F : string) (r0 : irec) : Prop :=
  exists l1 l2, recs = (l1 ++ r0 :: l2)%list /\ member F r0 /\ forall r, In r l1 -> ~ member F r.
