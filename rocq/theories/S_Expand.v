(** Specification: the instruction that each compressed instruction abbreviates (C69), as the
    concatenations of bits that a hardware decompressor would have.  Written down from knowledge
    of the manual (chapters C and Zcb), not derived from the tables or from S_Manual. *)
From Coq Require Import Ascii NArith ZArith List Bool String.
From Verif Require Import M_Base M_OperandInfo M_Decoded M_Builder M_DTable S_Bits S_Shipped S_Manual.
Import ListNotations.
Local Open Scope N_scope.

(** [Bits hi lo]: bits hi to lo of the compressed opcode; [Copies n i]: n copies of bit i; [K]: constant
    bits.  Most significant first. *)
Inductive piece := Bits (hi lo : nat) | Copies (n : nat) (i : nat) | K (bits : string).
Definition piece_bits (ic : N) (p : piece) : list bool :=
  match p with
  | Bits hi lo => map (fun i => N.testbit ic (N.of_nat i)) (rev (seq lo (hi - lo + 1)))
  | Copies n i => repeat (N.testbit ic (N.of_nat i)) n
  | K s => map (fun c => Ascii.eqb c "1") (list_ascii_of_string s)
  end.
(** The number with these bits, least significant first. *)
Fixpoint number (l : list bool) : N := match l with [] => 0 | b :: r => (if b then 1 else 0) + 2 * number r end.
Definition expanded (ps : list piece) (ic : N) : N := number (rev (flat_map (piece_bits ic) ps)).

Local Open Scope string_scope.
(* opcodes *)
Definition LOAD := K "0000011". Definition LOAD_FP := K "0000111". Definition OP_IMM := K "0010011". Definition OP_IMM_32 := K "0011011".
Definition STORE := K "0100011". Definition STORE_FP := K "0100111". Definition OP := K "0110011". Definition OP_32 := K "0111011".
Definition LUI := K "0110111". Definition BRANCH := K "1100011". Definition JALR := K "1100111". Definition JAL := K "1101111".
(* registers: x0, x1, x2; a register 8 to 15 at bit 2 or 7 *)
Definition r0 := K "00000". Definition r1 := K "00001". Definition r2 := K "00010".
Definition lo3 : list piece := [K "01"; Bits 4 2].  Definition hi3 : list piece := [K "01"; Bits 9 7].
Definition rd5 := Bits 11 7.  Definition rs5 := Bits 6 2.
(* immediates and shift amounts *)
Definition simm : list piece := [Copies 7 12; Bits 6 2].
Definition shamt (funct6 : string) : list piece := [K funct6; Bits 12 12; Bits 6 2].
(* formats: loads and stores of words and doubles, register-relative and sp-relative *)
Definition c_load4 (f3 : string) (op : piece) := ([K "00000"; Bits 5 5; Bits 12 10; Bits 6 6; K "00"] ++ hi3 ++ [K f3] ++ lo3 ++ [op])%list.
Definition c_load8 (f3 : string) (op : piece) := ([K "0000"; Bits 6 5; Bits 12 10; K "000"] ++ hi3 ++ [K f3] ++ lo3 ++ [op])%list.
Definition c_store4 (op : piece) := ([K "00000"; Bits 5 5; Bits 12 12] ++ lo3 ++ hi3 ++ [K "010"; Bits 11 10; Bits 6 6; K "00"; op])%list.
Definition c_store8 (op : piece) := ([K "0000"; Bits 6 5; Bits 12 12] ++ lo3 ++ hi3 ++ [K "011"; Bits 11 10; K "000"; op])%list.
Definition sp_load4 (op : piece) := [K "0000"; Bits 3 2; Bits 12 12; Bits 6 4; K "00"; r2; K "010"; rd5; op].
Definition sp_load8 (op : piece) := [K "000"; Bits 4 2; Bits 12 12; Bits 6 5; K "000"; r2; K "011"; rd5; op].
Definition sp_store4 (op : piece) := [K "0000"; Bits 8 7; Bits 12 12; rs5; r2; K "010"; Bits 11 9; K "00"; op].
Definition sp_store8 (op : piece) := [K "000"; Bits 9 7; Bits 12 12; rs5; r2; K "011"; Bits 11 10; K "000"; op].
(* rd' := rd' op rs2', rd' := op rd' *)
Definition c_op (f7 f3 : string) (op : piece) := ([K f7] ++ lo3 ++ hi3 ++ [K f3] ++ hi3 ++ [op])%list.
Definition c_one (f12 f3 : string) (op : piece) := ([K f12] ++ hi3 ++ [K f3] ++ hi3 ++ [op])%list.
Definition c_branch (f3 : string) := ([Copies 4 12; Bits 6 5; Bits 2 2; r0] ++ hi3 ++ [K f3; Bits 11 10; Bits 4 3; Bits 12 12; BRANCH])%list.
Definition c_jump (rd : piece) := [Bits 12 12; Bits 8 8; Bits 10 9; Bits 6 6; Bits 7 7; Bits 2 2; Bits 11 11; Bits 5 3; Copies 9 12; rd; JAL].

Definition both : list (string * list piece) := [
  ("c.addi4spn", ([K "00"; Bits 10 7; Bits 12 11; Bits 5 5; Bits 6 6; K "00"; r2; K "000"] ++ lo3 ++ [OP_IMM])%list);
  ("c.lw", c_load4 "010" LOAD); ("c.fld", c_load8 "011" LOAD_FP); ("c.sw", c_store4 STORE); ("c.fsd", c_store8 STORE_FP);
  ("c.nop", (simm ++ [r0; K "000"; r0; OP_IMM])%list);
  ("c.addi", (simm ++ [rd5; K "000"; rd5; OP_IMM])%list);
  ("c.li", (simm ++ [r0; K "000"; rd5; OP_IMM])%list);
  ("c.addi16sp", [Copies 3 12; Bits 4 3; Bits 5 5; Bits 2 2; Bits 6 6; K "0000"; r2; K "000"; r2; OP_IMM]);
  ("c.lui", [Copies 15 12; Bits 6 2; rd5; LUI]);
  ("c.srli", (shamt "000000" ++ hi3 ++ [K "101"] ++ hi3 ++ [OP_IMM])%list);
  ("c.srai", (shamt "010000" ++ hi3 ++ [K "101"] ++ hi3 ++ [OP_IMM])%list);
  ("c.andi", (simm ++ hi3 ++ [K "111"] ++ hi3 ++ [OP_IMM])%list);
  ("c.sub", c_op "0100000" "000" OP); ("c.xor", c_op "0000000" "100" OP); ("c.or", c_op "0000000" "110" OP); ("c.and", c_op "0000000" "111" OP);
  ("c.j", c_jump r0); ("c.beqz", c_branch "000"); ("c.bnez", c_branch "001");
  ("c.slli", (shamt "000000" ++ [rd5; K "001"; rd5; OP_IMM])%list);
  ("c.fldsp", sp_load8 LOAD_FP); ("c.lwsp", sp_load4 LOAD);
  ("c.jr", [K "000000000000"; rd5; K "000"; r0; JALR]); ("c.jalr", [K "000000000000"; rd5; K "000"; r1; JALR]);
  ("c.mv", [K "0000000"; rs5; r0; K "000"; rd5; OP]); ("c.add", [K "0000000"; rs5; rd5; K "000"; rd5; OP]);
  ("c.ebreak", [K "00000000000100000000000001110011"]);
  ("c.fsdsp", sp_store8 STORE_FP); ("c.swsp", sp_store4 STORE);
  (* Zcb *)
  ("c.lbu", ([K "0000000000"; Bits 5 5; Bits 6 6] ++ hi3 ++ [K "100"] ++ lo3 ++ [LOAD])%list);
  ("c.lhu", ([K "0000000000"; Bits 5 5; K "0"] ++ hi3 ++ [K "101"] ++ lo3 ++ [LOAD])%list);
  ("c.lh", ([K "0000000000"; Bits 5 5; K "0"] ++ hi3 ++ [K "001"] ++ lo3 ++ [LOAD])%list);
  ("c.sb", ([K "0000000"] ++ lo3 ++ hi3 ++ [K "000"; K "000"; Bits 5 5; Bits 6 6; STORE])%list);
  ("c.sh", ([K "0000000"] ++ lo3 ++ hi3 ++ [K "001"; K "000"; Bits 5 5; K "0"; STORE])%list);
  ("c.zext.b", c_one "000011111111" "111" OP_IMM); ("c.sext.b", c_one "011000000100" "001" OP_IMM);
  ("c.sext.h", c_one "011000000101" "001" OP_IMM); ("c.not", c_one "111111111111" "100" OP_IMM);
  ("c.mul", c_op "0000001" "000" OP)].
Definition only64 : list (string * list piece) := [
  (* the hints c.add x0, x2 to x5 *)
  ("c.ntl.p1", [K "0000000"; rs5; r0; K "000"; r0; OP]); ("c.ntl.pall", [K "0000000"; rs5; r0; K "000"; r0; OP]);
  ("c.ntl.s1", [K "0000000"; rs5; r0; K "000"; r0; OP]); ("c.ntl.all", [K "0000000"; rs5; r0; K "000"; r0; OP]);
  ("c.ld", c_load8 "011" LOAD); ("c.sd", c_store8 STORE); ("c.ldsp", sp_load8 LOAD); ("c.sdsp", sp_store8 STORE);
  ("c.addiw", (simm ++ [rd5; K "000"; rd5; OP_IMM_32])%list);
  ("c.subw", c_op "0100000" "000" OP_32); ("c.addw", c_op "0000000" "000" OP_32);
  ("c.zext.h", c_one "000010000000" "100" OP_32); ("c.zext.w", c_one "000010000000" "000" OP_32)].
Definition only32f : list (string * list piece) := [
  ("c.flw", c_load4 "010" LOAD_FP); ("c.fsw", c_store4 STORE_FP); ("c.flwsp", sp_load4 LOAD_FP); ("c.fswsp", sp_store4 STORE_FP)].
Definition only32 : list (string * list piece) := [
  ("c.jal", c_jump r1); ("c.zext.h", c_one "000010000000" "100" OP)].
(** The expansions for each of the shipped tables. *)
Inductive expansions_of : list irec -> list (string * list piece) -> Prop :=
| ex64 : expansions_of rv64 (both ++ only64)
| ex32f : expansions_of rv32f (both ++ only32 ++ only32f)
| ex32p : expansions_of rv32p (both ++ only32).

(** The two decoded instructions have the same operands (register file, number, is it stored, is
    it an implicit source), in the same order, and the same signed offset. *)
Definition alike (v w : info) : Prop :=
  map shown (oi_elems (d_dst_oi (i_di w))) = map shown (oi_elems (d_dst_oi (i_di v))) /\
  map shown (oi_elems (d_src_oi (i_di w))) = map shown (oi_elems (d_src_oi (i_di v))) /\
  d_soff (i_di w) = d_soff (i_di v).
(** Opcodes for which the shipped tables do differ: c.nop, c.li, c.sext.b, c.sext.h; c.mv to x0. *)
Definition unlike : list string := [
  "000 . 00000 ..... 01"; "010 . ..... ..... 01"; "100 111 ... 11 001 01"; "100 111 ... 11 011 01"; "100 0 00000 ..... 10"].
(** RV32 has no shifts by 32 and more. *)
Definition shifts : list string := ["c.slli"; "c.srli"; "c.srai"].
(** Loads and stores of register pairs, which are not covered. *)
Definition zclsd : list string := ["c.ld"; "c.sd"; "c.ldsp"; "c.sdsp"].
