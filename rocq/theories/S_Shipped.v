(** The instruction tables that ship with the library, as lists of records. *)
From Coq Require Import NArith List String.
Local Open Scope N_scope.
From Verif Require Import M_Base M_Builder M_Raw G_Tables.
Import ListNotations.

(** All 29 RV64 files. *)
Definition raw_rv64 : list raw := List.concat
  [isa_rv64i; isa_rv64f; isa_rv64m; isa_rv64a; isa_rv64d; isa_rv64zicsr; isa_rv64zifencei; isa_rv64c; isa_rv64cf; isa_rv64cd;
   isa_rv64q; isa_rv64h; isa_rv64v; isa_rv64vf; isa_rv64zvk; isa_rv64zfh; isa_rv64zfh_d; isa_rv64zba; isa_rv64zbb; isa_rv64zbc;
   isa_rv64zbs; isa_rv64zicbo; isa_rv64zcb; isa_rv64zihintntl; isa_rv64zihintpause; isa_rv64zicond; isa_rv64zawrs;
   isa_rv64zfbfmin; isa_rv64zvfbfwma].
(** The 20 RV32 files but one: isa_rv32cf.json and isa_rv32zclsd.json use the same opcodes
    (c.flw/c.ld, ...); see [rv32_both]. *)
Definition raw_rv32 (x : list raw) : list raw := List.concat
  [isa_rv32i; isa_rv32f; isa_rv32m; isa_rv32a; isa_rv32d; isa_rv32zicsr; isa_rv32zifencei; isa_rv32c; isa_rv32cd;
   isa_rv32zihintpause; isa_rv32zawrs; isa_rv32zilsd; isa_rv32zba; isa_rv32zbb; isa_rv32zbc; isa_rv32zbs; isa_rv32zcb;
   isa_rv32zicond; x].
Definition rv64 : list irec := map rec_of raw_rv64.
Definition rv32f : list irec := map rec_of (raw_rv32 isa_rv32cf).
Definition rv32p : list irec := map rec_of (raw_rv32 isa_rv32zclsd).
(** All 20 of them, one of the two before the other. *)
Definition rv32_both : list irec := map rec_of (raw_rv32 (isa_rv32cf ++ isa_rv32zclsd)).
Definition rv32_both_swapped : list irec := map rec_of (raw_rv32 (isa_rv32zclsd ++ isa_rv32cf)).

(** [l] is [l'] with some members left out. *)
Inductive subseq {A} : list A -> list A -> Prop :=
| sub_nil : subseq [] []
| sub_keep a l l' : subseq l l' -> subseq (a :: l) (a :: l')
| sub_drop a l l' : subseq l l' -> subseq l (a :: l').

(** The records of some mnemonics, in a given order. *)
Definition called (n : string) (w : raw) : bool := match w_mn w with Some m => String.eqb m n | None => false end.
Definition pick (names : list string) (ws : list raw) : list raw :=
  flat_map (fun n => filter (called n) ws) names.
(** Two small tables with the same shipped records in two orders. *)
Definition raw_small : list raw :=
  pick ["addi"; "add"; "jalr"; "ebreak"; "lw"; "li"; "nop"; "mv"; "c.addi"; "c.nop"; "c.jalr"; "c.add"; "c.ebreak"]%string raw_rv64.
Definition raw_small_swapped : list raw :=
  pick ["addi"; "add"; "jalr"; "ebreak"; "lw"; "li"; "nop"; "mv"; "c.addi"; "c.nop"; "c.ebreak"; "c.jalr"; "c.add"]%string raw_rv64.
Definition small : list irec := map rec_of raw_small.
Definition small_swapped : list irec := map rec_of raw_small_swapped.
(** A shipped record with another name, stencil and list of fixed fields. *)
Definition variant (w : raw) (mn : string) (st : N) (fixed : list string) : raw :=
  mkRaw (Some mn) (w_pseudo w) (w_form w) (w_xform w) (Some st) fixed (w_ignore w) (w_alias w) (w_factory w) (w_expand w)
    (w_overlay w) (w_tags w) (w_type w) (w_data w) (w_oper w) (w_isa w).
(** "a" fixes rs1 = x0, "b" fixes rs2 = x0, all else alike: both match 0x33. *)
Definition two_ways : list irec :=
  map rec_of (flat_map (fun w => [variant w "a" 0x00100033 ["rs1"]; variant w "b" 0x00008033 ["rs2"]]%string) (pick ["add"%string] raw_rv64)).
Definition two_ways_swapped : list irec := rev two_ways.
(** The same encoding under two names. *)
Definition twice : list irec :=
  map rec_of (flat_map (fun w => [variant w "a" 0x33 []; variant w "b" 0x33 []]%string) (pick ["add"%string] raw_rv64)).
Inductive shipped : list irec -> Prop := sh_rv64 : shipped rv64 | sh_rv32f : shipped rv32f | sh_rv32p : shipped rv32p.
Definition lwsp : list irec := map rec_of (pick ["lw"; "c.lwsp"]%string raw_rv64).
