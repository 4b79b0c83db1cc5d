(** Specification: the opcodes that RV32 and RV64 call by different names (C71). *)
From Coq Require Import List String.
Import ListNotations.
Local Open Scope string_scope.

(** The name of an opcode in the RV64 tables and in the RV32 tables of the library: the compressed
    instructions that the two define differently, and the hints for memory accesses, which the
    library ships for RV64 only. *)
Definition renamed : list (string * string) :=
  [("c.addiw", "c.jal"); ("c.ld", "c.flw"); ("c.sd", "c.fsw"); ("c.ldsp", "c.flwsp"); ("c.sdsp", "c.fswsp");
   ("ntl.p1", "add"); ("ntl.pall", "add"); ("ntl.s1", "add"); ("ntl.all", "add");
   ("c.ntl.p1", "c.add"); ("c.ntl.pall", "c.add"); ("c.ntl.s1", "c.add"); ("c.ntl.all", "c.add");
   ("prefetch.i", "ori"); ("prefetch.r", "ori"); ("prefetch.w", "ori")].
