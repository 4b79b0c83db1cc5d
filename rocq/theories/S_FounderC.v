(** Specification: names of instructions (C60). *)
From Coq Require Import List String.
From Verif Require Import M_Base M_Builder S_Table.

(** No other instruction asks for a factory called [n], and [n] is not one of the names that exist
    before any record is read. *)
Definition own_name (recs : list irec) (n : string) : Prop :=
  ~ custom n /\ forall r, In r recs -> r_factory r = Some n -> r_mn r = Some n.
