(** Specification: two tables that define an instruction alike (C71). *)
From Coq Require Import NArith List Bool String.
From Verif Require Import M_Base M_Builder S_Table.
Import ListNotations.
Local Open Scope N_scope.

(** If both tables have a record called [n], it is the same. *)
Definition one_record (recs recs' : list irec) (n : string) : Prop :=
  forall r r', In r recs -> In r' recs' -> r_mn r = Some n -> r_mn r' = Some n -> r = r'.
(** If both have an instruction called [n], it is described by the same meta-data; and if [n] is
    one of the instructions that exist before any record is read, none has a record for it, or both. *)
Definition one_meta (recs recs' : list irec) (n : string) : Prop :=
  (forall r r', In r recs -> In r' recs' -> is_inst r n -> is_inst r' n -> own_meta r = own_meta r') /\
  (custom n -> (exists r, In r recs /\ is_inst r n) <-> exists r', In r' recs' /\ is_inst r' n).
(** The tables define [mn] alike: the same record for it and for the instruction that it is an
    overlay of, the same meta-data for the instruction it expands to. *)
Definition defined_alike (recs recs' : list irec) (mn : string) : Prop :=
  one_record recs recs' mn /\
  forall r, In r recs -> r_mn r = Some mn ->
    (r_expand r <> ""%string -> one_meta recs recs' (r_expand r)) /\
    (forall base mask value, overlays r mn base mask value -> one_record recs recs' base).

(** The instructions that the RV32 and RV64 tables of the library describe by different records:
    shifts and their kin, with the form ISHW or ISH, and the instructions that are about a pair of
    registers in RV32. *)
Definition shifts : list string :=
  ["slli"; "srli"; "srai"; "rori"; "gorci"; "grevi"; "bclri"; "bexti"; "binvi"; "bseti"; "clz"; "ctz"; "cpop"; "sext.b"; "sext.h"]%string.
Definition pairs : list string := ["ld"; "sd"; "c.ld"; "c.sd"; "c.ldsp"; "c.sdsp"]%string.
