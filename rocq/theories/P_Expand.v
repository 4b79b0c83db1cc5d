(** Claim C69: a compressed instruction is decoded like the instruction it abbreviates.  S_Expand
    lists, for each 16-bit instruction, the 32-bit opcode it stands for, as a decompressor would
    put it together from bits of the 16-bit opcode ([expanded]).  [expansions_of T l]: table [T] (all
    RV64 files, or the RV32 files with isa_rv32cf.json or isa_rv32zclsd.json) and the list for it. *)
From Coq Require Import NArith ZArith List Bool String.
From Verif Require Import M_Base M_OperandInfo M_Decoded M_Builder M_DTable.
From Verif Require Import S_Bits S_Table S_Shipped S_Manual S_Expand L_Expand L_ExpandCases.
Import ListNotations.
Local Open Scope N_scope.

(** C69.  The 32-bit opcode is decoded too, to the same destination and source registers in the
    same order and to the same signed offset.  Missing: the opcodes of [unlike], for which this is false; in
    RV32, shifts by 32 and more, for which it is false; for register pairs see
    C69_pairs_partial. *)
Theorem C69_expands_partial : forall T l uids annos nu s, expansions_of T l -> 0 < nu < w32 -> make_decoder uids annos nu [] [] T = Ok s ->
  forall A U ic v ps, ic < 2 ^ 64 -> decode (A := A) (U := U) s ic = Ok v -> In (d_mnemonic (i_di v), ps) l ->
  (T <> rv64 -> In (d_mnemonic (i_di v)) shifts -> N.testbit ic 12 = false) -> (forall p, In p unlike -> ~ fits p ic) ->
  exists w, decode (A := A) (U := U) s (expanded ps ic) = Ok w /\ alike v w.
Proof. exact C69_lemma. Qed.
Print Assumptions C69_expands_partial.
(** C69.  Every opcode that does not end in 11 and is decoded has an entry in the list (but for the
    register pairs). *)
Theorem C69_listed : forall T l uids annos nu s, expansions_of T l -> 0 < nu < w32 -> make_decoder uids annos nu [] [] T = Ok s ->
  forall A U ic v, decode (A := A) (U := U) s ic = Ok v -> slice 0 2 ic <> 3 ->
  (exists ps, In (d_mnemonic (i_di v), ps) l) \/ (T = rv32p /\ In (d_mnemonic (i_di v)) zclsd).
Proof. exact C69_listed_lemma. Qed.
Print Assumptions C69_listed.
(** Each of the excepted patterns has an opcode that is decoded with other operands or another
    offset than its expansion: c.nop has no operands but nop has x0 twice; c.li reads x0 but li does not; c.sext.b and
    c.sext.h have offset 0 but sext.b and sext.h 4 and 5; c.mv x0, x2 is no hint but its expansion is. *)
Theorem C69_unlike_refuted : exists s, make_decoder [] [] 1 [] [] rv64 = Ok s /\
  forall p, In p unlike -> exists ic v ps w, fits p ic /\ decode (A := unit) (U := unit) s ic = Ok v /\ In (d_mnemonic (i_di v), ps) (both ++ only64) /\
    decode (A := unit) (U := unit) s (expanded ps ic) = Ok w /\ ~ alike v w.
Proof. exact C69_unlike_lemma. Qed.
Print Assumptions C69_unlike_refuted.
(** RV32: c.slli by 32 is decoded, its expansion is unknown. *)
Theorem C69_shift_refuted : exists s ic v ps, make_decoder [] [] 1 [] [] rv32f = Ok s /\ decode (A := unit) (U := unit) s ic = Ok v /\
  In (d_mnemonic (i_di v), ps) (both ++ only32 ++ only32f) /\ decode (A := unit) (U := unit) s (expanded ps ic) = Throw EUnknownOpcode.
Proof. exact C69_shift_lemma. Qed.
Print Assumptions C69_shift_refuted.
(** The raw immediate is not the same, even where the signed offset is: c.addi x1, -1. *)
Theorem C69_raw_refuted : exists s ic v ps w, make_decoder [] [] 1 [] [] rv64 = Ok s /\ decode (A := unit) (U := unit) s ic = Ok v /\
  In (d_mnemonic (i_di v), ps) (both ++ only64) /\ decode (A := unit) (U := unit) s (expanded ps ic) = Ok w /\ alike v w /\
  d_imm (i_di v) = 0x3F /\ d_imm (i_di w) = 0xFFF.
Proof. exact C69_raw_lemma. Qed.
Print Assumptions C69_raw_refuted.
(** c.addi x1, -1 and addi x1, x1, -1. *)
Example C69_ex : exists s v w, make_decoder [] [] 1 [] [] rv64 = Ok s /\ expansions_of rv64 (both ++ only64) /\
  decode (A := unit) (U := unit) s 0x10FD = Ok v /\ d_mnemonic (i_di v) = "c.addi"%string /\ In ("c.addi"%string, addi_ps) (both ++ only64) /\
  slice 0 2 0x10FD <> 3 /\ (forall p, In p unlike -> ~ fits p 0x10FD) /\ expanded addi_ps 0x10FD = 0xFFF08093 /\
  decode (A := unit) (U := unit) s 0xFFF08093 = Ok w /\ d_mnemonic (i_di w) = "addi"%string /\ alike v w.
Proof. exact C69_case. Qed.
