(** Specification: what flushCaches forgets (C75). *)
From Coq Require Import NArith List Bool String.
From Verif Require Import M_Base M_Trie M_Builder M_DTable S_Maps S_Table S_History.
Import ListNotations.
Local Open Scope N_scope.

(** The name is not only that of a factory: where a record asks for a factory of that name, the
    name is that of an instruction, or of one of the two that exist before any record is read. *)
Definition not_only_factory (recs : list irec) (mn : string) : Prop :=
  forall r k, In r recs -> is_inst r k -> r_expand r = ""%string -> r_factory r = Some mn ->
  custom mn \/ exists q, In q recs /\ is_inst q mn /\ r_expand q = ""%string.

Section Calls.
Context {A U : Type} (s : builder * tree).
Notation op := (op A U).
(** Every trace record of the calls uses such a name. *)
Definition names_instructions (recs : list irec) (h : list op) : Prop :=
  forall ic mn x a, In (OTrace ic mn x a) h -> not_only_factory recs mn.
(** Calls made after the flush: opcodes the caches tell apart, and trace records that agree
    with the decoder. *)
Definition agreeing (o : op) : Prop :=
  match o with
  | OGetInfo ic | OMake ic _ => ic < cache_bound
  | OTrace ic mn _ _ => ic < cache_bound /\ agreed (A := A) (U := U) s ic mn
  | _ => True
  end.
End Calls.
