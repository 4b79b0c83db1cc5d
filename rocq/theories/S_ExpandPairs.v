(** Specification: the instructions that the compressed loads and stores of register pairs
    abbreviate (C69). *)
From Coq Require Import NArith ZArith List Bool String.
From Verif Require Import M_OperandInfo M_Decoded M_Builder M_DTable S_Manual S_Expand.
Import ListNotations.
Local Open Scope string_scope.

Definition zclsd_expansions : list (string * list piece) := [
  ("c.ld", c_load8 "011" LOAD); ("c.sd", c_store8 STORE); ("c.ldsp", sp_load8 LOAD); ("c.sdsp", sp_store8 STORE)].
Definition zclsd_loads : list string := ["c.ld"; "c.ldsp"].
(** Register file and number. *)
Definition where_ (e : elem) : option bank * N := let '(b, n, _, _) := shown e in (b, n).
(** As [alike], but for the marks of the registers that are stored. *)
Definition alike_but_marks (v w : info) : Prop :=
  map where_ (oi_elems (d_dst_oi (i_di w))) = map where_ (oi_elems (d_dst_oi (i_di v))) /\
  map where_ (oi_elems (d_src_oi (i_di w))) = map where_ (oi_elems (d_src_oi (i_di v))) /\
  d_soff (i_di w) = d_soff (i_di v).
