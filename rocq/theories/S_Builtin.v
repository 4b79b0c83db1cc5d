(** Specification: instructions called nop or cmov (C72). *)
From Coq Require Import List String.
From Verif Require Import M_Base M_Builder S_Table.

(** No instruction called [F] asks for another factory. *)
Definition stays (recs : list irec) (F : string) : Prop :=
  forall r, In r recs -> is_inst r F -> r_expand r = ""%string -> fname_of r F = F.
