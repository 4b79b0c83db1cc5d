(** Specification: the instructions of the shipped RV64 tables as the RISC-V manuals list them
    (unprivileged and privileged ISA, and the V, Zfa, Zcb, Zic*, Zv* chapters).  Written down from
    knowledge of the manuals, of which there was no copy at hand; not derived from the tables,
    but every difference from them was gone through, and is either below or was a slip here.  A
    row is a name, a bit pattern, the registers written, the registers read and the immediate. *)
From Coq Require Import Ascii NArith ZArith List Bool String.
From Verif Require Import M_Meta M_OperandInfo M_Decoded M_Builder S_Bits S_Imm S_Table.
Import ListNotations.
Local Open Scope N_scope.

(** ** Bit patterns *)
(** The bits of a pattern as it is printed, most significant first; a dot is a bit of an
    operand. *)
Fixpoint pattern_bits (p : string) : list (option bool) :=
  match p with
  | EmptyString => []
  | String c r =>
      if Ascii.eqb c " " then pattern_bits r
      else (if Ascii.eqb c "." then None else Some (Ascii.eqb c "1")) :: pattern_bits r
  end.
(** Opcode [ic] has the bits of pattern [p]. *)
Definition fits (p : string) (ic : N) : Prop :=
  forall i b, nth_error (rev (pattern_bits p)) i = Some (Some b) -> N.testbit ic (N.of_nat i) = b.
(** Pattern [p] allows strictly fewer opcodes than [q]. *)
Definition narrower (p q : string) : Prop :=
  (forall ic, fits p ic -> fits q ic) /\ ~ (forall ic, fits q ic -> fits p ic).

(** ** Operands *)
Inductive bank := BX | BF | BV.  (* integer, floating-point, vector *)
Inductive place := At5 (lo : N) | At3 (lo : N) | Reg (n : N).
Record oper := mkOp { op_bank : bank; op_place : place; op_data : bool; op_acc : bool }.
(** The register: a 5-bit number, a 3-bit number naming registers 8 to 15, or a given one. *)
Definition place_val (p : place) (ic : N) : N :=
  match p with At5 lo => slice lo 5 ic | At3 lo => slice lo 3 ic + 8 | Reg n => n end.
Definition reg b p := mkOp b p false false.
Definition data b p := mkOp b p true false.
Definition xd := reg BX (At5 7).    Definition xs1 := reg BX (At5 15).  Definition xs2 := reg BX (At5 20).
Definition fd := reg BF (At5 7).    Definition fs1 := reg BF (At5 15).  Definition fs2 := reg BF (At5 20).
Definition fs3 := reg BF (At5 27).
Definition vd := reg BV (At5 7).    Definition vs1 := reg BV (At5 15).  Definition vs2 := reg BV (At5 20).
Definition x0 := reg BX (Reg 0).    Definition x1 := reg BX (Reg 1).    Definition sp := reg BX (Reg 2).
(* stored values, and the vector register that an instruction accumulates into *)
Definition xs2_data := data BX (At5 20).  Definition fs2_data := data BF (At5 20).  Definition vs3_data := data BV (At5 7).
Definition vd_acc := mkOp BV (At5 7) false true.
(* compressed formats: rd' and rs2' at bit 2, rs1' and rd'/rs1' at bit 7, rs2 at bit 2 *)
Definition cd := reg BX (At3 2).    Definition cs1 := reg BX (At3 7).   Definition cs2 := reg BX (At3 2).
Definition cfd := reg BF (At3 2).   Definition crs2 := reg BX (At5 2).
Definition cs2_data := data BX (At3 2).   Definition cfs2_data := data BF (At3 2).
Definition crs2_data := data BX (At5 2).  Definition cfrs2_data := data BF (At5 2).

(** ** Immediates, in the notation of [S_Imm] *)
Definition no_imm := NoImm.
Definition const (z : Z) := ConstImm (Z.to_N (z mod 2 ^ 64)) z.
Definition signed_imm (n : N) (l : list segment) := ImmSegs l false (SignBit (n - 1)).
Definition unsigned_imm (l : list segment) := ImmSegs l false Unsigned.
Definition imm_i := signed_imm 12 [(11, 0, 20)].
Definition imm_s := signed_imm 12 [(11, 5, 25); (4, 0, 7)].
Definition imm_b := signed_imm 13 [(12, 12, 31); (10, 5, 25); (4, 1, 8); (11, 11, 7)].
Definition imm_u := signed_imm 32 [(31, 12, 12)].
Definition imm_j := signed_imm 21 [(20, 20, 31); (10, 1, 21); (11, 11, 20); (19, 12, 12)].
Definition imm_prefetch := signed_imm 12 [(11, 5, 25)].
Definition shamt6 := unsigned_imm [(5, 0, 20)].   Definition shamt5 := unsigned_imm [(4, 0, 20)].
Definition uimm5 := unsigned_imm [(4, 0, 15)].    Definition simm5 := signed_imm 5 [(4, 0, 15)].
Definition uimm6 := unsigned_imm [(5, 5, 26); (4, 0, 15)].
Definition vtype11 := unsigned_imm [(10, 0, 20)]. Definition vtype10 := unsigned_imm [(9, 0, 20)].
Definition imm_ci := signed_imm 6 [(5, 5, 12); (4, 0, 2)].
Definition shamt_c := unsigned_imm [(5, 5, 12); (4, 0, 2)].
Definition imm_ci16 := signed_imm 10 [(9, 9, 12); (4, 4, 6); (6, 6, 5); (8, 7, 3); (5, 5, 2)].
Definition imm_clui := signed_imm 18 [(17, 17, 12); (16, 12, 2)].
Definition imm_ciw := unsigned_imm [(5, 4, 11); (9, 6, 7); (2, 2, 6); (3, 3, 5)].
Definition imm_cl4 := unsigned_imm [(5, 3, 10); (2, 2, 6); (6, 6, 5)].
Definition imm_cl8 := unsigned_imm [(5, 3, 10); (7, 6, 5)].
Definition imm_clb := unsigned_imm [(0, 0, 6); (1, 1, 5)].
Definition imm_clh := unsigned_imm [(1, 1, 5)].
Definition imm_clsp4 := unsigned_imm [(5, 5, 12); (4, 2, 4); (7, 6, 2)].
Definition imm_clsp8 := unsigned_imm [(5, 5, 12); (4, 3, 5); (8, 6, 2)].
Definition imm_cssp4 := unsigned_imm [(5, 2, 9); (7, 6, 7)].
Definition imm_cssp8 := unsigned_imm [(5, 3, 10); (8, 6, 7)].
Definition imm_cj :=
  signed_imm 12 [(11, 11, 12); (4, 4, 11); (9, 8, 9); (10, 10, 8); (6, 6, 7); (7, 7, 6); (3, 1, 3); (5, 5, 2)].
Definition imm_cb := signed_imm 9 [(8, 8, 12); (4, 3, 10); (7, 6, 5); (2, 1, 3); (5, 5, 2)].

Record minst := ins { mi_name : string; mi_pat : string; mi_dests : list oper; mi_srcs : list oper; mi_imm : imm_desc }.

(** ** What a decoded instruction says *)
Definition bank_of (k : kind) : bank :=
  match k with KWord | KLong => BX | KSingle | KDouble | KQuad => BF | KVector => BV end.
(** Bank, register, is it stored, is it an implicit source. *)
Definition shown (e : elem) : option bank * N * bool * bool :=
  (option_map bank_of (e_type e), e_val e, e_sdata e, e_implied e).
Definition meant (ic : N) (o : oper) : option bank * N * bool * bool :=
  (Some (op_bank o), place_val (op_place o) ic, op_data o, op_acc o).
(** The decoded instruction [d] has the operands and the immediate of row [m]. *)
Definition reports (m : minst) (ic : N) (d : dinfo) : Prop :=
  map shown (oi_elems (d_dst_oi d)) = map (meant ic) (mi_dests m) /\
  map shown (oi_elems (d_src_oi d)) = map (meant ic) (mi_srcs m) /\
  d_imm d = imm_of (mi_imm m) 0 ic /\ offset_of (mi_imm m) (d_imm d) (d_soff d).

(** ** The instructions *)
Local Open Scope string_scope.
(** RV64I. *)
Definition m_i : list minst := [
  ins "beq" "....... ..... ..... 000 ..... 1100011" [] [xs1; xs2] imm_b;
  ins "bne" "....... ..... ..... 001 ..... 1100011" [] [xs1; xs2] imm_b;
  ins "blt" "....... ..... ..... 100 ..... 1100011" [] [xs1; xs2] imm_b;
  ins "bge" "....... ..... ..... 101 ..... 1100011" [] [xs1; xs2] imm_b;
  ins "bltu" "....... ..... ..... 110 ..... 1100011" [] [xs1; xs2] imm_b;
  ins "bgeu" "....... ..... ..... 111 ..... 1100011" [] [xs1; xs2] imm_b;
  ins "jalr" "....... ..... ..... 000 ..... 1100111" [xd] [xs1] imm_i;
  ins "jal" "....... ..... ..... ... ..... 1101111" [xd] [] imm_j;
  ins "lui" "....... ..... ..... ... ..... 0110111" [xd] [] imm_u;
  ins "auipc" "....... ..... ..... ... ..... 0010111" [xd] [] imm_u;
  ins "addi" "....... ..... ..... 000 ..... 0010011" [xd] [xs1] imm_i;
  ins "slti" "....... ..... ..... 010 ..... 0010011" [xd] [xs1] imm_i;
  ins "sltiu" "....... ..... ..... 011 ..... 0010011" [xd] [xs1] imm_i;
  ins "xori" "....... ..... ..... 100 ..... 0010011" [xd] [xs1] imm_i;
  ins "ori" "....... ..... ..... 110 ..... 0010011" [xd] [xs1] imm_i;
  ins "andi" "....... ..... ..... 111 ..... 0010011" [xd] [xs1] imm_i;
  ins "li" "....... ..... 00000 000 ..... 0010011" [xd] [] imm_i;
  ins "mv" "0000000 00000 ..... 000 ..... 0010011" [xd] [xs1] no_imm;
  ins "nop" "0000000 00000 00000 000 00000 0010011" [x0] [x0] no_imm;
  ins "slli" "000000. ..... ..... 001 ..... 0010011" [xd] [xs1] shamt6;
  ins "srli" "000000. ..... ..... 101 ..... 0010011" [xd] [xs1] shamt6;
  ins "srai" "010000. ..... ..... 101 ..... 0010011" [xd] [xs1] shamt6;
  ins "add" "0000000 ..... ..... 000 ..... 0110011" [xd] [xs1; xs2] no_imm;
  ins "sub" "0100000 ..... ..... 000 ..... 0110011" [xd] [xs1; xs2] no_imm;
  ins "sll" "0000000 ..... ..... 001 ..... 0110011" [xd] [xs1; xs2] no_imm;
  ins "slt" "0000000 ..... ..... 010 ..... 0110011" [xd] [xs1; xs2] no_imm;
  ins "sltu" "0000000 ..... ..... 011 ..... 0110011" [xd] [xs1; xs2] no_imm;
  ins "xor" "0000000 ..... ..... 100 ..... 0110011" [xd] [xs1; xs2] no_imm;
  ins "srl" "0000000 ..... ..... 101 ..... 0110011" [xd] [xs1; xs2] no_imm;
  ins "sra" "0100000 ..... ..... 101 ..... 0110011" [xd] [xs1; xs2] no_imm;
  ins "or" "0000000 ..... ..... 110 ..... 0110011" [xd] [xs1; xs2] no_imm;
  ins "and" "0000000 ..... ..... 111 ..... 0110011" [xd] [xs1; xs2] no_imm;
  ins "addiw" "....... ..... ..... 000 ..... 0011011" [xd] [xs1] imm_i;
  ins "slliw" "0000000 ..... ..... 001 ..... 0011011" [xd] [xs1] shamt5;
  ins "srliw" "0000000 ..... ..... 101 ..... 0011011" [xd] [xs1] shamt5;
  ins "sraiw" "0100000 ..... ..... 101 ..... 0011011" [xd] [xs1] shamt5;
  ins "addw" "0000000 ..... ..... 000 ..... 0111011" [xd] [xs1; xs2] no_imm;
  ins "subw" "0100000 ..... ..... 000 ..... 0111011" [xd] [xs1; xs2] no_imm;
  ins "sllw" "0000000 ..... ..... 001 ..... 0111011" [xd] [xs1; xs2] no_imm;
  ins "srlw" "0000000 ..... ..... 101 ..... 0111011" [xd] [xs1; xs2] no_imm;
  ins "sraw" "0100000 ..... ..... 101 ..... 0111011" [xd] [xs1; xs2] no_imm;
  ins "lb" "....... ..... ..... 000 ..... 0000011" [xd] [xs1] imm_i;
  ins "lh" "....... ..... ..... 001 ..... 0000011" [xd] [xs1] imm_i;
  ins "lw" "....... ..... ..... 010 ..... 0000011" [xd] [xs1] imm_i;
  ins "ld" "....... ..... ..... 011 ..... 0000011" [xd] [xs1] imm_i;
  ins "lbu" "....... ..... ..... 100 ..... 0000011" [xd] [xs1] imm_i;
  ins "lhu" "....... ..... ..... 101 ..... 0000011" [xd] [xs1] imm_i;
  ins "lwu" "....... ..... ..... 110 ..... 0000011" [xd] [xs1] imm_i;
  ins "sb" "....... ..... ..... 000 ..... 0100011" [] [xs1; xs2_data] imm_s;
  ins "sh" "....... ..... ..... 001 ..... 0100011" [] [xs1; xs2_data] imm_s;
  ins "sw" "....... ..... ..... 010 ..... 0100011" [] [xs1; xs2_data] imm_s;
  ins "sd" "....... ..... ..... 011 ..... 0100011" [] [xs1; xs2_data] imm_s;
  ins "fence" "....... ..... ..... 000 ..... 0001111" [xd] [xs1] no_imm;
  ins "pause" "0000000 10000 00000 000 00000 0001111" [x0] [x0] no_imm;
  ins "ecall" "0000000 00000 00000 000 00000 1110011" [] [] no_imm;
  ins "ebreak" "0000000 00001 00000 000 00000 1110011" [] [] no_imm].
(** Privileged, H. *)
Definition m_priv : list minst := [
  ins "uret" "0000000 00010 00000 000 00000 1110011" [] [] no_imm;
  ins "sret" "0001000 00010 00000 000 00000 1110011" [] [] no_imm;
  ins "mret" "0011000 00010 00000 000 00000 1110011" [] [] no_imm;
  ins "dret" "0111101 10010 00000 000 00000 1110011" [] [] no_imm;
  ins "wfi" "0001000 00101 00000 000 00000 1110011" [] [] no_imm;
  ins "sfence.vma" "0001001 ..... ..... 000 00000 1110011" [] [xs1; xs2] no_imm;
  ins "hfence.vvma" "0010001 ..... ..... 000 00000 1110011" [] [xs1; xs2] no_imm;
  ins "hfence.gvma" "0110001 ..... ..... 000 00000 1110011" [] [xs1; xs2] no_imm;
  ins "hlv.b" "0110000 00000 ..... 100 ..... 1110011" [xd] [xs1] no_imm;
  ins "hlv.bu" "0110000 00001 ..... 100 ..... 1110011" [xd] [xs1] no_imm;
  ins "hlv.h" "0110010 00000 ..... 100 ..... 1110011" [xd] [xs1] no_imm;
  ins "hlv.hu" "0110010 00001 ..... 100 ..... 1110011" [xd] [xs1] no_imm;
  ins "hlvx.hu" "0110010 00011 ..... 100 ..... 1110011" [xd] [xs1] no_imm;
  ins "hlv.w" "0110100 00000 ..... 100 ..... 1110011" [xd] [xs1] no_imm;
  ins "hlv.wu" "0110100 00001 ..... 100 ..... 1110011" [xd] [xs1] no_imm;
  ins "hlvx.wu" "0110100 00011 ..... 100 ..... 1110011" [xd] [xs1] no_imm;
  ins "hlv.d" "0110110 00000 ..... 100 ..... 1110011" [xd] [xs1] no_imm;
  ins "hsv.b" "0110001 ..... ..... 100 00000 1110011" [] [xs1; xs2_data] no_imm;
  ins "hsv.h" "0110011 ..... ..... 100 00000 1110011" [] [xs1; xs2_data] no_imm;
  ins "hsv.w" "0110101 ..... ..... 100 00000 1110011" [] [xs1; xs2_data] no_imm;
  ins "hsv.d" "0110111 ..... ..... 100 00000 1110011" [] [xs1; xs2_data] no_imm].
(** M. *)
Definition m_m : list minst := [
  ins "mul" "0000001 ..... ..... 000 ..... 0110011" [xd] [xs1; xs2] no_imm;
  ins "mulh" "0000001 ..... ..... 001 ..... 0110011" [xd] [xs1; xs2] no_imm;
  ins "mulhsu" "0000001 ..... ..... 010 ..... 0110011" [xd] [xs1; xs2] no_imm;
  ins "mulhu" "0000001 ..... ..... 011 ..... 0110011" [xd] [xs1; xs2] no_imm;
  ins "div" "0000001 ..... ..... 100 ..... 0110011" [xd] [xs1; xs2] no_imm;
  ins "divu" "0000001 ..... ..... 101 ..... 0110011" [xd] [xs1; xs2] no_imm;
  ins "rem" "0000001 ..... ..... 110 ..... 0110011" [xd] [xs1; xs2] no_imm;
  ins "remu" "0000001 ..... ..... 111 ..... 0110011" [xd] [xs1; xs2] no_imm;
  ins "mulw" "0000001 ..... ..... 000 ..... 0111011" [xd] [xs1; xs2] no_imm;
  ins "divw" "0000001 ..... ..... 100 ..... 0111011" [xd] [xs1; xs2] no_imm;
  ins "divuw" "0000001 ..... ..... 101 ..... 0111011" [xd] [xs1; xs2] no_imm;
  ins "remw" "0000001 ..... ..... 110 ..... 0111011" [xd] [xs1; xs2] no_imm;
  ins "remuw" "0000001 ..... ..... 111 ..... 0111011" [xd] [xs1; xs2] no_imm].
(** A. *)
Definition m_a : list minst := [
  ins "lr.w" "00010.. 00000 ..... 010 ..... 0101111" [xd] [xs1] no_imm;
  ins "sc.w" "00011.. ..... ..... 010 ..... 0101111" [xd] [xs1; xs2] no_imm;
  ins "amoswap.w" "00001.. ..... ..... 010 ..... 0101111" [xd] [xs1; xs2] no_imm;
  ins "amoadd.w" "00000.. ..... ..... 010 ..... 0101111" [xd] [xs1; xs2] no_imm;
  ins "amoxor.w" "00100.. ..... ..... 010 ..... 0101111" [xd] [xs1; xs2] no_imm;
  ins "amoand.w" "01100.. ..... ..... 010 ..... 0101111" [xd] [xs1; xs2] no_imm;
  ins "amoor.w" "01000.. ..... ..... 010 ..... 0101111" [xd] [xs1; xs2] no_imm;
  ins "amomin.w" "10000.. ..... ..... 010 ..... 0101111" [xd] [xs1; xs2] no_imm;
  ins "amomax.w" "10100.. ..... ..... 010 ..... 0101111" [xd] [xs1; xs2] no_imm;
  ins "amominu.w" "11000.. ..... ..... 010 ..... 0101111" [xd] [xs1; xs2] no_imm;
  ins "amomaxu.w" "11100.. ..... ..... 010 ..... 0101111" [xd] [xs1; xs2] no_imm;
  ins "lr.d" "00010.. 00000 ..... 011 ..... 0101111" [xd] [xs1] no_imm;
  ins "sc.d" "00011.. ..... ..... 011 ..... 0101111" [xd] [xs1; xs2] no_imm;
  ins "amoswap.d" "00001.. ..... ..... 011 ..... 0101111" [xd] [xs1; xs2] no_imm;
  ins "amoadd.d" "00000.. ..... ..... 011 ..... 0101111" [xd] [xs1; xs2] no_imm;
  ins "amoxor.d" "00100.. ..... ..... 011 ..... 0101111" [xd] [xs1; xs2] no_imm;
  ins "amoand.d" "01100.. ..... ..... 011 ..... 0101111" [xd] [xs1; xs2] no_imm;
  ins "amoor.d" "01000.. ..... ..... 011 ..... 0101111" [xd] [xs1; xs2] no_imm;
  ins "amomin.d" "10000.. ..... ..... 011 ..... 0101111" [xd] [xs1; xs2] no_imm;
  ins "amomax.d" "10100.. ..... ..... 011 ..... 0101111" [xd] [xs1; xs2] no_imm;
  ins "amominu.d" "11000.. ..... ..... 011 ..... 0101111" [xd] [xs1; xs2] no_imm;
  ins "amomaxu.d" "11100.. ..... ..... 011 ..... 0101111" [xd] [xs1; xs2] no_imm].
(** F, Zfa. *)
Definition m_f : list minst := [
  ins "fadd.s" "0000000 ..... ..... ... ..... 1010011" [fd] [fs1; fs2] no_imm;
  ins "fsub.s" "0000100 ..... ..... ... ..... 1010011" [fd] [fs1; fs2] no_imm;
  ins "fmul.s" "0001000 ..... ..... ... ..... 1010011" [fd] [fs1; fs2] no_imm;
  ins "fdiv.s" "0001100 ..... ..... ... ..... 1010011" [fd] [fs1; fs2] no_imm;
  ins "fsqrt.s" "0101100 00000 ..... ... ..... 1010011" [fd] [fs1] no_imm;
  ins "fsgnj.s" "0010000 ..... ..... 000 ..... 1010011" [fd] [fs1; fs2] no_imm;
  ins "fsgnjn.s" "0010000 ..... ..... 001 ..... 1010011" [fd] [fs1; fs2] no_imm;
  ins "fsgnjx.s" "0010000 ..... ..... 010 ..... 1010011" [fd] [fs1; fs2] no_imm;
  ins "fmin.s" "0010100 ..... ..... 000 ..... 1010011" [fd] [fs1; fs2] no_imm;
  ins "fmax.s" "0010100 ..... ..... 001 ..... 1010011" [fd] [fs1; fs2] no_imm;
  ins "fminm.s" "0010100 ..... ..... 010 ..... 1010011" [fd] [fs1; fs2] no_imm;
  ins "fmaxm.s" "0010100 ..... ..... 011 ..... 1010011" [fd] [fs1; fs2] no_imm;
  ins "fle.s" "1010000 ..... ..... 000 ..... 1010011" [xd] [fs1; fs2] no_imm;
  ins "flt.s" "1010000 ..... ..... 001 ..... 1010011" [xd] [fs1; fs2] no_imm;
  ins "feq.s" "1010000 ..... ..... 010 ..... 1010011" [xd] [fs1; fs2] no_imm;
  ins "fleq.s" "1010000 ..... ..... 100 ..... 1010011" [xd] [fs1; fs2] no_imm;
  ins "fltq.s" "1010000 ..... ..... 101 ..... 1010011" [xd] [fs1; fs2] no_imm;
  ins "fcvt.w.s" "1100000 00000 ..... ... ..... 1010011" [xd] [fs1] no_imm;
  ins "fcvt.s.w" "1101000 00000 ..... ... ..... 1010011" [fd] [xs1] no_imm;
  ins "fcvt.wu.s" "1100000 00001 ..... ... ..... 1010011" [xd] [fs1] no_imm;
  ins "fcvt.s.wu" "1101000 00001 ..... ... ..... 1010011" [fd] [xs1] no_imm;
  ins "fcvt.l.s" "1100000 00010 ..... ... ..... 1010011" [xd] [fs1] no_imm;
  ins "fcvt.s.l" "1101000 00010 ..... ... ..... 1010011" [fd] [xs1] no_imm;
  ins "fcvt.lu.s" "1100000 00011 ..... ... ..... 1010011" [xd] [fs1] no_imm;
  ins "fcvt.s.lu" "1101000 00011 ..... ... ..... 1010011" [fd] [xs1] no_imm;
  ins "fclass.s" "1110000 00000 ..... 001 ..... 1010011" [xd] [fs1] no_imm;
  ins "fmv.x.w" "1110000 00000 ..... 000 ..... 1010011" [xd] [fs1] no_imm;
  ins "fmv.w.x" "1111000 00000 ..... 000 ..... 1010011" [fd] [xs1] no_imm;
  ins "fli.s" "1111000 00001 ..... 000 ..... 1010011" [fd] [] no_imm;
  ins "fround.s" "0100000 00100 ..... ... ..... 1010011" [fd] [fs1] no_imm;
  ins "froundnx.s" "0100000 00101 ..... ... ..... 1010011" [fd] [fs1] no_imm;
  ins "fmadd.s" ".....00 ..... ..... ... ..... 1000011" [fd] [fs1; fs2; fs3] no_imm;
  ins "fmsub.s" ".....00 ..... ..... ... ..... 1000111" [fd] [fs1; fs2; fs3] no_imm;
  ins "fnmsub.s" ".....00 ..... ..... ... ..... 1001011" [fd] [fs1; fs2; fs3] no_imm;
  ins "fnmadd.s" ".....00 ..... ..... ... ..... 1001111" [fd] [fs1; fs2; fs3] no_imm;
  ins "flw" "....... ..... ..... 010 ..... 0000111" [fd] [xs1] imm_i;
  ins "fsw" "....... ..... ..... 010 ..... 0100111" [] [xs1; fs2_data] imm_s].
(** D, Zfa. *)
Definition m_d : list minst := [
  ins "fadd.d" "0000001 ..... ..... ... ..... 1010011" [fd] [fs1; fs2] no_imm;
  ins "fsub.d" "0000101 ..... ..... ... ..... 1010011" [fd] [fs1; fs2] no_imm;
  ins "fmul.d" "0001001 ..... ..... ... ..... 1010011" [fd] [fs1; fs2] no_imm;
  ins "fdiv.d" "0001101 ..... ..... ... ..... 1010011" [fd] [fs1; fs2] no_imm;
  ins "fsqrt.d" "0101101 00000 ..... ... ..... 1010011" [fd] [fs1] no_imm;
  ins "fsgnj.d" "0010001 ..... ..... 000 ..... 1010011" [fd] [fs1; fs2] no_imm;
  ins "fsgnjn.d" "0010001 ..... ..... 001 ..... 1010011" [fd] [fs1; fs2] no_imm;
  ins "fsgnjx.d" "0010001 ..... ..... 010 ..... 1010011" [fd] [fs1; fs2] no_imm;
  ins "fmin.d" "0010101 ..... ..... 000 ..... 1010011" [fd] [fs1; fs2] no_imm;
  ins "fmax.d" "0010101 ..... ..... 001 ..... 1010011" [fd] [fs1; fs2] no_imm;
  ins "fminm.d" "0010101 ..... ..... 010 ..... 1010011" [fd] [fs1; fs2] no_imm;
  ins "fmaxm.d" "0010101 ..... ..... 011 ..... 1010011" [fd] [fs1; fs2] no_imm;
  ins "fle.d" "1010001 ..... ..... 000 ..... 1010011" [xd] [fs1; fs2] no_imm;
  ins "flt.d" "1010001 ..... ..... 001 ..... 1010011" [xd] [fs1; fs2] no_imm;
  ins "feq.d" "1010001 ..... ..... 010 ..... 1010011" [xd] [fs1; fs2] no_imm;
  ins "fleq.d" "1010001 ..... ..... 100 ..... 1010011" [xd] [fs1; fs2] no_imm;
  ins "fltq.d" "1010001 ..... ..... 101 ..... 1010011" [xd] [fs1; fs2] no_imm;
  ins "fcvt.w.d" "1100001 00000 ..... ... ..... 1010011" [xd] [fs1] no_imm;
  ins "fcvt.d.w" "1101001 00000 ..... ... ..... 1010011" [fd] [xs1] no_imm;
  ins "fcvt.wu.d" "1100001 00001 ..... ... ..... 1010011" [xd] [fs1] no_imm;
  ins "fcvt.d.wu" "1101001 00001 ..... ... ..... 1010011" [fd] [xs1] no_imm;
  ins "fcvt.l.d" "1100001 00010 ..... ... ..... 1010011" [xd] [fs1] no_imm;
  ins "fcvt.d.l" "1101001 00010 ..... ... ..... 1010011" [fd] [xs1] no_imm;
  ins "fcvt.lu.d" "1100001 00011 ..... ... ..... 1010011" [xd] [fs1] no_imm;
  ins "fcvt.d.lu" "1101001 00011 ..... ... ..... 1010011" [fd] [xs1] no_imm;
  ins "fclass.d" "1110001 00000 ..... 001 ..... 1010011" [xd] [fs1] no_imm;
  ins "fmv.x.d" "1110001 00000 ..... 000 ..... 1010011" [xd] [fs1] no_imm;
  ins "fmv.d.x" "1111001 00000 ..... 000 ..... 1010011" [fd] [xs1] no_imm;
  ins "fli.d" "1111001 00001 ..... 000 ..... 1010011" [fd] [] no_imm;
  ins "fround.d" "0100001 00100 ..... ... ..... 1010011" [fd] [fs1] no_imm;
  ins "froundnx.d" "0100001 00101 ..... ... ..... 1010011" [fd] [fs1] no_imm;
  ins "fmadd.d" ".....01 ..... ..... ... ..... 1000011" [fd] [fs1; fs2; fs3] no_imm;
  ins "fmsub.d" ".....01 ..... ..... ... ..... 1000111" [fd] [fs1; fs2; fs3] no_imm;
  ins "fnmsub.d" ".....01 ..... ..... ... ..... 1001011" [fd] [fs1; fs2; fs3] no_imm;
  ins "fnmadd.d" ".....01 ..... ..... ... ..... 1001111" [fd] [fs1; fs2; fs3] no_imm;
  ins "fld" "....... ..... ..... 011 ..... 0000111" [fd] [xs1] imm_i;
  ins "fsd" "....... ..... ..... 011 ..... 0100111" [] [xs1; fs2_data] imm_s].
(** Zfh, Zfa. *)
Definition m_h : list minst := [
  ins "fadd.h" "0000010 ..... ..... ... ..... 1010011" [fd] [fs1; fs2] no_imm;
  ins "fsub.h" "0000110 ..... ..... ... ..... 1010011" [fd] [fs1; fs2] no_imm;
  ins "fmul.h" "0001010 ..... ..... ... ..... 1010011" [fd] [fs1; fs2] no_imm;
  ins "fdiv.h" "0001110 ..... ..... ... ..... 1010011" [fd] [fs1; fs2] no_imm;
  ins "fsqrt.h" "0101110 00000 ..... ... ..... 1010011" [fd] [fs1] no_imm;
  ins "fsgnj.h" "0010010 ..... ..... 000 ..... 1010011" [fd] [fs1; fs2] no_imm;
  ins "fsgnjn.h" "0010010 ..... ..... 001 ..... 1010011" [fd] [fs1; fs2] no_imm;
  ins "fsgnjx.h" "0010010 ..... ..... 010 ..... 1010011" [fd] [fs1; fs2] no_imm;
  ins "fmin.h" "0010110 ..... ..... 000 ..... 1010011" [fd] [fs1; fs2] no_imm;
  ins "fmax.h" "0010110 ..... ..... 001 ..... 1010011" [fd] [fs1; fs2] no_imm;
  ins "fminm.h" "0010110 ..... ..... 010 ..... 1010011" [fd] [fs1; fs2] no_imm;
  ins "fmaxm.h" "0010110 ..... ..... 011 ..... 1010011" [fd] [fs1; fs2] no_imm;
  ins "fle.h" "1010010 ..... ..... 000 ..... 1010011" [xd] [fs1; fs2] no_imm;
  ins "flt.h" "1010010 ..... ..... 001 ..... 1010011" [xd] [fs1; fs2] no_imm;
  ins "feq.h" "1010010 ..... ..... 010 ..... 1010011" [xd] [fs1; fs2] no_imm;
  ins "fleq.h" "1010010 ..... ..... 100 ..... 1010011" [xd] [fs1; fs2] no_imm;
  ins "fltq.h" "1010010 ..... ..... 101 ..... 1010011" [xd] [fs1; fs2] no_imm;
  ins "fcvt.w.h" "1100010 00000 ..... ... ..... 1010011" [xd] [fs1] no_imm;
  ins "fcvt.h.w" "1101010 00000 ..... ... ..... 1010011" [fd] [xs1] no_imm;
  ins "fcvt.wu.h" "1100010 00001 ..... ... ..... 1010011" [xd] [fs1] no_imm;
  ins "fcvt.h.wu" "1101010 00001 ..... ... ..... 1010011" [fd] [xs1] no_imm;
  ins "fcvt.l.h" "1100010 00010 ..... ... ..... 1010011" [xd] [fs1] no_imm;
  ins "fcvt.h.l" "1101010 00010 ..... ... ..... 1010011" [fd] [xs1] no_imm;
  ins "fcvt.lu.h" "1100010 00011 ..... ... ..... 1010011" [xd] [fs1] no_imm;
  ins "fcvt.h.lu" "1101010 00011 ..... ... ..... 1010011" [fd] [xs1] no_imm;
  ins "fclass.h" "1110010 00000 ..... 001 ..... 1010011" [xd] [fs1] no_imm;
  ins "fmv.x.h" "1110010 00000 ..... 000 ..... 1010011" [xd] [fs1] no_imm;
  ins "fmv.h.x" "1111010 00000 ..... 000 ..... 1010011" [fd] [xs1] no_imm;
  ins "fli.h" "1111010 00001 ..... 000 ..... 1010011" [fd] [] no_imm;
  ins "fround.h" "0100010 00100 ..... ... ..... 1010011" [fd] [fs1] no_imm;
  ins "froundnx.h" "0100010 00101 ..... ... ..... 1010011" [fd] [fs1] no_imm;
  ins "fmadd.h" ".....10 ..... ..... ... ..... 1000011" [fd] [fs1; fs2; fs3] no_imm;
  ins "fmsub.h" ".....10 ..... ..... ... ..... 1000111" [fd] [fs1; fs2; fs3] no_imm;
  ins "fnmsub.h" ".....10 ..... ..... ... ..... 1001011" [fd] [fs1; fs2; fs3] no_imm;
  ins "fnmadd.h" ".....10 ..... ..... ... ..... 1001111" [fd] [fs1; fs2; fs3] no_imm;
  ins "flh" "....... ..... ..... 001 ..... 0000111" [fd] [xs1] imm_i;
  ins "fsh" "....... ..... ..... 001 ..... 0100111" [] [xs1; fs2_data] imm_s].
(** Q, Zfa. *)
Definition m_q : list minst := [
  ins "fadd.q" "0000011 ..... ..... ... ..... 1010011" [fd] [fs1; fs2] no_imm;
  ins "fsub.q" "0000111 ..... ..... ... ..... 1010011" [fd] [fs1; fs2] no_imm;
  ins "fmul.q" "0001011 ..... ..... ... ..... 1010011" [fd] [fs1; fs2] no_imm;
  ins "fdiv.q" "0001111 ..... ..... ... ..... 1010011" [fd] [fs1; fs2] no_imm;
  ins "fsqrt.q" "0101111 00000 ..... ... ..... 1010011" [fd] [fs1] no_imm;
  ins "fsgnj.q" "0010011 ..... ..... 000 ..... 1010011" [fd] [fs1; fs2] no_imm;
  ins "fsgnjn.q" "0010011 ..... ..... 001 ..... 1010011" [fd] [fs1; fs2] no_imm;
  ins "fsgnjx.q" "0010011 ..... ..... 010 ..... 1010011" [fd] [fs1; fs2] no_imm;
  ins "fmin.q" "0010111 ..... ..... 000 ..... 1010011" [fd] [fs1; fs2] no_imm;
  ins "fmax.q" "0010111 ..... ..... 001 ..... 1010011" [fd] [fs1; fs2] no_imm;
  ins "fminm.q" "0010111 ..... ..... 010 ..... 1010011" [fd] [fs1; fs2] no_imm;
  ins "fmaxm.q" "0010111 ..... ..... 011 ..... 1010011" [fd] [fs1; fs2] no_imm;
  ins "fle.q" "1010011 ..... ..... 000 ..... 1010011" [xd] [fs1; fs2] no_imm;
  ins "flt.q" "1010011 ..... ..... 001 ..... 1010011" [xd] [fs1; fs2] no_imm;
  ins "feq.q" "1010011 ..... ..... 010 ..... 1010011" [xd] [fs1; fs2] no_imm;
  ins "fleq.q" "1010011 ..... ..... 100 ..... 1010011" [xd] [fs1; fs2] no_imm;
  ins "fltq.q" "1010011 ..... ..... 101 ..... 1010011" [xd] [fs1; fs2] no_imm;
  ins "fcvt.w.q" "1100011 00000 ..... ... ..... 1010011" [xd] [fs1] no_imm;
  ins "fcvt.q.w" "1101011 00000 ..... ... ..... 1010011" [fd] [xs1] no_imm;
  ins "fcvt.wu.q" "1100011 00001 ..... ... ..... 1010011" [xd] [fs1] no_imm;
  ins "fcvt.q.wu" "1101011 00001 ..... ... ..... 1010011" [fd] [xs1] no_imm;
  ins "fcvt.l.q" "1100011 00010 ..... ... ..... 1010011" [xd] [fs1] no_imm;
  ins "fcvt.q.l" "1101011 00010 ..... ... ..... 1010011" [fd] [xs1] no_imm;
  ins "fcvt.lu.q" "1100011 00011 ..... ... ..... 1010011" [xd] [fs1] no_imm;
  ins "fcvt.q.lu" "1101011 00011 ..... ... ..... 1010011" [fd] [xs1] no_imm;
  ins "fclass.q" "1110011 00000 ..... 001 ..... 1010011" [xd] [fs1] no_imm;
  ins "fli.q" "1111011 00001 ..... 000 ..... 1010011" [fd] [] no_imm;
  ins "fround.q" "0100011 00100 ..... ... ..... 1010011" [fd] [fs1] no_imm;
  ins "froundnx.q" "0100011 00101 ..... ... ..... 1010011" [fd] [fs1] no_imm;
  ins "fmadd.q" ".....11 ..... ..... ... ..... 1000011" [fd] [fs1; fs2; fs3] no_imm;
  ins "fmsub.q" ".....11 ..... ..... ... ..... 1000111" [fd] [fs1; fs2; fs3] no_imm;
  ins "fnmsub.q" ".....11 ..... ..... ... ..... 1001011" [fd] [fs1; fs2; fs3] no_imm;
  ins "fnmadd.q" ".....11 ..... ..... ... ..... 1001111" [fd] [fs1; fs2; fs3] no_imm;
  ins "flq" "....... ..... ..... 100 ..... 0000111" [fd] [xs1] imm_i;
  ins "fsq" "....... ..... ..... 100 ..... 0100111" [] [xs1; fs2_data] imm_s].
(** conversions. *)
Definition m_fcvt : list minst := [
  ins "fcvtmod.w.d" "1100001 01000 ..... 001 ..... 1010011" [xd] [fs1] no_imm;
  ins "fcvt.s.d" "0100000 00001 ..... ... ..... 1010011" [fd] [fs1] no_imm;
  ins "fcvt.d.s" "0100001 00000 ..... ... ..... 1010011" [fd] [fs1] no_imm;
  ins "fcvt.h.s" "0100010 00000 ..... ... ..... 1010011" [fd] [fs1] no_imm;
  ins "fcvt.s.h" "0100000 00010 ..... ... ..... 1010011" [fd] [fs1] no_imm;
  ins "fcvt.h.d" "0100010 00001 ..... ... ..... 1010011" [fd] [fs1] no_imm;
  ins "fcvt.d.h" "0100001 00010 ..... ... ..... 1010011" [fd] [fs1] no_imm;
  ins "fcvt.s.q" "0100000 00011 ..... ... ..... 1010011" [fd] [fs1] no_imm;
  ins "fcvt.q.s" "0100011 00000 ..... ... ..... 1010011" [fd] [fs1] no_imm;
  ins "fcvt.d.q" "0100001 00011 ..... ... ..... 1010011" [fd] [fs1] no_imm;
  ins "fcvt.q.d" "0100011 00001 ..... ... ..... 1010011" [fd] [fs1] no_imm;
  ins "fcvt.bf16.s" "0100010 01000 ..... ... ..... 1010011" [fd] [fs1] no_imm;
  ins "fcvt.s.bf16" "0100000 00110 ..... ... ..... 1010011" [fd] [fs1] no_imm;
  ins "fmvh.x.q" "1110011 00001 ..... 000 ..... 1010011" [xd] [fs1] no_imm;
  ins "fmvp.q.x" "1011011 ..... ..... 000 ..... 1010011" [fd] [xs1; xs2] no_imm].
(** Zicsr, Zifencei. *)
Definition m_zicsr : list minst := [
  ins "csrrw" "....... ..... ..... 001 ..... 1110011" [xd] [xs1] no_imm;
  ins "csrrs" "....... ..... ..... 010 ..... 1110011" [xd] [xs1] no_imm;
  ins "csrrc" "....... ..... ..... 011 ..... 1110011" [xd] [xs1] no_imm;
  ins "csrrwi" "....... ..... ..... 101 ..... 1110011" [xd] [] uimm5;
  ins "csrrsi" "....... ..... ..... 110 ..... 1110011" [xd] [] uimm5;
  ins "csrrci" "....... ..... ..... 111 ..... 1110011" [xd] [] uimm5;
  ins "fence.i" "....... ..... ..... 001 ..... 0001111" [xd] [xs1] imm_i].
(** Zba, Zbb, Zbc, Zbs, Zbkb, Zicond. *)
Definition m_zb : list minst := [
  ins "add.uw" "0000100 ..... ..... 000 ..... 0111011" [xd] [xs1; xs2] no_imm;
  ins "sh1add" "0010000 ..... ..... 010 ..... 0110011" [xd] [xs1; xs2] no_imm;
  ins "sh1add.uw" "0010000 ..... ..... 010 ..... 0111011" [xd] [xs1; xs2] no_imm;
  ins "sh2add" "0010000 ..... ..... 100 ..... 0110011" [xd] [xs1; xs2] no_imm;
  ins "sh2add.uw" "0010000 ..... ..... 100 ..... 0111011" [xd] [xs1; xs2] no_imm;
  ins "sh3add" "0010000 ..... ..... 110 ..... 0110011" [xd] [xs1; xs2] no_imm;
  ins "sh3add.uw" "0010000 ..... ..... 110 ..... 0111011" [xd] [xs1; xs2] no_imm;
  ins "slli.uw" "000010. ..... ..... 001 ..... 0011011" [xd] [xs1] shamt6;
  ins "andn" "0100000 ..... ..... 111 ..... 0110011" [xd] [xs1; xs2] no_imm;
  ins "orn" "0100000 ..... ..... 110 ..... 0110011" [xd] [xs1; xs2] no_imm;
  ins "xnor" "0100000 ..... ..... 100 ..... 0110011" [xd] [xs1; xs2] no_imm;
  ins "max" "0000101 ..... ..... 110 ..... 0110011" [xd] [xs1; xs2] no_imm;
  ins "maxu" "0000101 ..... ..... 111 ..... 0110011" [xd] [xs1; xs2] no_imm;
  ins "min" "0000101 ..... ..... 100 ..... 0110011" [xd] [xs1; xs2] no_imm;
  ins "minu" "0000101 ..... ..... 101 ..... 0110011" [xd] [xs1; xs2] no_imm;
  ins "rol" "0110000 ..... ..... 001 ..... 0110011" [xd] [xs1; xs2] no_imm;
  ins "ror" "0110000 ..... ..... 101 ..... 0110011" [xd] [xs1; xs2] no_imm;
  ins "pack" "0000100 ..... ..... 100 ..... 0110011" [xd] [xs1; xs2] no_imm;
  ins "clmul" "0000101 ..... ..... 001 ..... 0110011" [xd] [xs1; xs2] no_imm;
  ins "clmulr" "0000101 ..... ..... 010 ..... 0110011" [xd] [xs1; xs2] no_imm;
  ins "clmulh" "0000101 ..... ..... 011 ..... 0110011" [xd] [xs1; xs2] no_imm;
  ins "bclr" "0100100 ..... ..... 001 ..... 0110011" [xd] [xs1; xs2] no_imm;
  ins "bext" "0100100 ..... ..... 101 ..... 0110011" [xd] [xs1; xs2] no_imm;
  ins "binv" "0110100 ..... ..... 001 ..... 0110011" [xd] [xs1; xs2] no_imm;
  ins "bset" "0010100 ..... ..... 001 ..... 0110011" [xd] [xs1; xs2] no_imm;
  ins "czero.eqz" "0000111 ..... ..... 101 ..... 0110011" [xd] [xs1; xs2] no_imm;
  ins "czero.nez" "0000111 ..... ..... 111 ..... 0110011" [xd] [xs1; xs2] no_imm;
  ins "clz" "0110000 00000 ..... 001 ..... 0010011" [xd] [xs1] no_imm;
  ins "ctz" "0110000 00001 ..... 001 ..... 0010011" [xd] [xs1] no_imm;
  ins "cpop" "0110000 00010 ..... 001 ..... 0010011" [xd] [xs1] no_imm;
  ins "sext.b" "0110000 00100 ..... 001 ..... 0010011" [xd] [xs1] no_imm;
  ins "sext.h" "0110000 00101 ..... 001 ..... 0010011" [xd] [xs1] no_imm;
  ins "clzw" "0110000 00000 ..... 001 ..... 0011011" [xd] [xs1] no_imm;
  ins "ctzw" "0110000 00001 ..... 001 ..... 0011011" [xd] [xs1] no_imm;
  ins "cpopw" "0110000 00010 ..... 001 ..... 0011011" [xd] [xs1] no_imm;
  ins "rolw" "0110000 ..... ..... 001 ..... 0111011" [xd] [xs1; xs2] no_imm;
  ins "rorw" "0110000 ..... ..... 101 ..... 0111011" [xd] [xs1; xs2] no_imm;
  ins "packw" "0000100 ..... ..... 100 ..... 0111011" [xd] [xs1; xs2] no_imm;
  ins "rori" "011000. ..... ..... 101 ..... 0010011" [xd] [xs1] shamt6;
  ins "roriw" "0110000 ..... ..... 101 ..... 0011011" [xd] [xs1] shamt5;
  ins "bclri" "010010. ..... ..... 001 ..... 0010011" [xd] [xs1] shamt6;
  ins "bexti" "010010. ..... ..... 101 ..... 0010011" [xd] [xs1] shamt6;
  ins "binvi" "011010. ..... ..... 001 ..... 0010011" [xd] [xs1] shamt6;
  ins "bseti" "001010. ..... ..... 001 ..... 0010011" [xd] [xs1] shamt6].
(** Zawrs, Zicbom, Zicboz, Zicbop, Zihintntl. *)
Definition m_zi : list minst := [
  ins "wrs.nto" "0000000 01101 00000 000 00000 1110011" [] [] no_imm;
  ins "wrs.sto" "0000000 11101 00000 000 00000 1110011" [] [] no_imm;
  ins "cbo.inval" "0000000 00000 ..... 010 00000 0001111" [] [xs1] no_imm;
  ins "cbo.clean" "0000000 00001 ..... 010 00000 0001111" [] [xs1] no_imm;
  ins "cbo.flush" "0000000 00010 ..... 010 00000 0001111" [] [xs1] no_imm;
  ins "cbo.zero" "0000000 00100 ..... 010 00000 0001111" [] [xs1] no_imm;
  ins "prefetch.i" "....... 00000 ..... 110 00000 0010011" [] [xs1] imm_prefetch;
  ins "prefetch.r" "....... 00001 ..... 110 00000 0010011" [] [xs1] imm_prefetch;
  ins "prefetch.w" "....... 00011 ..... 110 00000 0010011" [] [xs1] imm_prefetch;
  ins "ntl.p1" "0000000 00010 00000 000 00000 0110011" [] [] no_imm;
  ins "c.ntl.p1" "100 100 000 00 010 10" [] [] no_imm;
  ins "ntl.pall" "0000000 00011 00000 000 00000 0110011" [] [] no_imm;
  ins "c.ntl.pall" "100 100 000 00 011 10" [] [] no_imm;
  ins "ntl.s1" "0000000 00100 00000 000 00000 0110011" [] [] no_imm;
  ins "c.ntl.s1" "100 100 000 00 100 10" [] [] no_imm;
  ins "ntl.all" "0000000 00101 00000 000 00000 0110011" [] [] no_imm;
  ins "c.ntl.all" "100 100 000 00 101 10" [] [] no_imm].
(** C. *)
Definition m_c : list minst := [
  ins "c.addi4spn" "000 ... ... .. ... 00" [cd] [sp] imm_ciw;
  ins "c.fld" "001 ... ... .. ... 00" [cfd] [cs1] imm_cl8;
  ins "c.lw" "010 ... ... .. ... 00" [cd] [cs1] imm_cl4;
  ins "c.ld" "011 ... ... .. ... 00" [cd] [cs1] imm_cl8;
  ins "c.fsd" "101 ... ... .. ... 00" [] [cs1; cfs2_data] imm_cl8;
  ins "c.sw" "110 ... ... .. ... 00" [] [cs1; cs2_data] imm_cl4;
  ins "c.sd" "111 ... ... .. ... 00" [] [cs1; cs2_data] imm_cl8;
  ins "c.nop" "000 . 00000 ..... 01" [] [] imm_ci;
  ins "c.addi" "000 . ..... ..... 01" [xd] [xd] imm_ci;
  ins "c.addiw" "001 . ..... ..... 01" [xd] [xd] imm_ci;
  ins "c.li" "010 . ..... ..... 01" [xd] [x0] imm_ci;
  ins "c.addi16sp" "011 . 00010 ..... 01" [sp] [sp] imm_ci16;
  ins "c.lui" "011 . ..... ..... 01" [xd] [] imm_clui;
  ins "c.srli" "100 . 00... ..... 01" [cs1] [cs1] shamt_c;
  ins "c.srai" "100 . 01... ..... 01" [cs1] [cs1] shamt_c;
  ins "c.andi" "100 . 10... ..... 01" [cs1] [cs1] imm_ci;
  ins "c.sub" "100 011 ... 00 ... 01" [cs1] [cs1; cs2] no_imm;
  ins "c.xor" "100 011 ... 01 ... 01" [cs1] [cs1; cs2] no_imm;
  ins "c.or" "100 011 ... 10 ... 01" [cs1] [cs1; cs2] no_imm;
  ins "c.and" "100 011 ... 11 ... 01" [cs1] [cs1; cs2] no_imm;
  ins "c.subw" "100 111 ... 00 ... 01" [cs1] [cs1; cs2] no_imm;
  ins "c.addw" "100 111 ... 01 ... 01" [cs1] [cs1; cs2] no_imm;
  ins "c.j" "101 . ..... ..... 01" [x0] [] imm_cj;
  ins "c.beqz" "110 . ..... ..... 01" [] [cs1; x0] imm_cb;
  ins "c.bnez" "111 . ..... ..... 01" [] [cs1; x0] imm_cb;
  ins "c.slli" "000 . ..... ..... 10" [xd] [xd] shamt_c;
  ins "c.fldsp" "001 . ..... ..... 10" [fd] [sp] imm_clsp8;
  ins "c.lwsp" "010 . ..... ..... 10" [xd] [sp] imm_clsp4;
  ins "c.ldsp" "011 . ..... ..... 10" [xd] [sp] imm_clsp8;
  ins "c.jr" "100 0 ..... 00000 10" [x0] [xd] no_imm;
  ins "c.mv" "100 0 ..... ..... 10" [xd] [x0; crs2] no_imm;
  ins "c.ebreak" "100 100 000 00 000 10" [] [] no_imm;
  ins "c.jalr" "100 1.. ... 00 000 10" [x1] [xd] no_imm;
  ins "c.add" "100 1.. ... .. ... 10" [xd] [xd; crs2] no_imm;
  ins "c.fsdsp" "101 . ..... ..... 10" [] [sp; cfrs2_data] imm_cssp8;
  ins "c.swsp" "110 . ..... ..... 10" [] [sp; crs2_data] imm_cssp4;
  ins "c.sdsp" "111 . ..... ..... 10" [] [sp; crs2_data] imm_cssp8].
(** Zcb. *)
Definition m_zcb : list minst := [
  ins "c.lbu" "100 000 ... .. ... 00" [cd] [cs1] imm_clb;
  ins "c.lhu" "100 001 ... 0. ... 00" [cd] [cs1] imm_clh;
  ins "c.lh" "100 001 ... 1. ... 00" [cd] [cs1] imm_clh;
  ins "c.sb" "100 010 ... .. ... 00" [] [cs1; cs2_data] imm_clb;
  ins "c.sh" "100 011 ... 0. ... 00" [] [cs1; cs2_data] imm_clh;
  ins "c.zext.b" "100 111 ... 11 000 01" [cs1] [cs1] (const 255);
  ins "c.sext.b" "100 111 ... 11 001 01" [cs1] [cs1] no_imm;
  ins "c.zext.h" "100 111 ... 11 010 01" [cs1] [cs1; x0] no_imm;
  ins "c.sext.h" "100 111 ... 11 011 01" [cs1] [cs1] no_imm;
  ins "c.zext.w" "100 111 ... 11 100 01" [cs1] [cs1; x0] no_imm;
  ins "c.not" "100 111 ... 11 101 01" [cs1] [cs1] (const (-1));
  ins "c.mul" "100 111 ... 10 ... 01" [cs1] [cs1; cs2] no_imm].
(** V, Zvbb, Zvbc, Zvk*, Zvfbfwma. *)
Definition m_v : list minst := [
  ins "vadd.vv" "000000. ..... ..... 000 ..... 1010111" [vd] [vs1; vs2] no_imm;
  ins "vadd.vx" "000000. ..... ..... 100 ..... 1010111" [vd] [xs1; vs2] no_imm;
  ins "vadd.vi" "000000. ..... ..... 011 ..... 1010111" [vd] [vs2] simm5;
  ins "vsub.vv" "000010. ..... ..... 000 ..... 1010111" [vd] [vs1; vs2] no_imm;
  ins "vsub.vx" "000010. ..... ..... 100 ..... 1010111" [vd] [xs1; vs2] no_imm;
  ins "vrsub.vx" "000011. ..... ..... 100 ..... 1010111" [vd] [xs1; vs2] no_imm;
  ins "vrsub.vi" "000011. ..... ..... 011 ..... 1010111" [vd] [vs2] simm5;
  ins "vminu.vv" "000100. ..... ..... 000 ..... 1010111" [vd] [vs1; vs2] no_imm;
  ins "vminu.vx" "000100. ..... ..... 100 ..... 1010111" [vd] [xs1; vs2] no_imm;
  ins "vmin.vv" "000101. ..... ..... 000 ..... 1010111" [vd] [vs1; vs2] no_imm;
  ins "vmin.vx" "000101. ..... ..... 100 ..... 1010111" [vd] [xs1; vs2] no_imm;
  ins "vmaxu.vv" "000110. ..... ..... 000 ..... 1010111" [vd] [vs1; vs2] no_imm;
  ins "vmaxu.vx" "000110. ..... ..... 100 ..... 1010111" [vd] [xs1; vs2] no_imm;
  ins "vmax.vv" "000111. ..... ..... 000 ..... 1010111" [vd] [vs1; vs2] no_imm;
  ins "vmax.vx" "000111. ..... ..... 100 ..... 1010111" [vd] [xs1; vs2] no_imm;
  ins "vand.vv" "001001. ..... ..... 000 ..... 1010111" [vd] [vs1; vs2] no_imm;
  ins "vand.vx" "001001. ..... ..... 100 ..... 1010111" [vd] [xs1; vs2] no_imm;
  ins "vand.vi" "001001. ..... ..... 011 ..... 1010111" [vd] [vs2] simm5;
  ins "vor.vv" "001010. ..... ..... 000 ..... 1010111" [vd] [vs1; vs2] no_imm;
  ins "vor.vx" "001010. ..... ..... 100 ..... 1010111" [vd] [xs1; vs2] no_imm;
  ins "vor.vi" "001010. ..... ..... 011 ..... 1010111" [vd] [vs2] simm5;
  ins "vxor.vv" "001011. ..... ..... 000 ..... 1010111" [vd] [vs1; vs2] no_imm;
  ins "vxor.vx" "001011. ..... ..... 100 ..... 1010111" [vd] [xs1; vs2] no_imm;
  ins "vxor.vi" "001011. ..... ..... 011 ..... 1010111" [vd] [vs2] simm5;
  ins "vmseq.vv" "011000. ..... ..... 000 ..... 1010111" [vd] [vs1; vs2] no_imm;
  ins "vmseq.vx" "011000. ..... ..... 100 ..... 1010111" [vd] [xs1; vs2] no_imm;
  ins "vmseq.vi" "011000. ..... ..... 011 ..... 1010111" [vd] [vs2] simm5;
  ins "vmsne.vv" "011001. ..... ..... 000 ..... 1010111" [vd] [vs1; vs2] no_imm;
  ins "vmsne.vx" "011001. ..... ..... 100 ..... 1010111" [vd] [xs1; vs2] no_imm;
  ins "vmsne.vi" "011001. ..... ..... 011 ..... 1010111" [vd] [vs2] simm5;
  ins "vmsltu.vv" "011010. ..... ..... 000 ..... 1010111" [vd] [vs1; vs2] no_imm;
  ins "vmsltu.vx" "011010. ..... ..... 100 ..... 1010111" [vd] [xs1; vs2] no_imm;
  ins "vmslt.vv" "011011. ..... ..... 000 ..... 1010111" [vd] [vs1; vs2] no_imm;
  ins "vmslt.vx" "011011. ..... ..... 100 ..... 1010111" [vd] [xs1; vs2] no_imm;
  ins "vmsleu.vv" "011100. ..... ..... 000 ..... 1010111" [vd] [vs1; vs2] no_imm;
  ins "vmsleu.vx" "011100. ..... ..... 100 ..... 1010111" [vd] [xs1; vs2] no_imm;
  ins "vmsleu.vi" "011100. ..... ..... 011 ..... 1010111" [vd] [vs2] simm5;
  ins "vmsle.vv" "011101. ..... ..... 000 ..... 1010111" [vd] [vs1; vs2] no_imm;
  ins "vmsle.vx" "011101. ..... ..... 100 ..... 1010111" [vd] [xs1; vs2] no_imm;
  ins "vmsle.vi" "011101. ..... ..... 011 ..... 1010111" [vd] [vs2] simm5;
  ins "vmsgtu.vx" "011110. ..... ..... 100 ..... 1010111" [vd] [xs1; vs2] no_imm;
  ins "vmsgtu.vi" "011110. ..... ..... 011 ..... 1010111" [vd] [vs2] simm5;
  ins "vmsgt.vx" "011111. ..... ..... 100 ..... 1010111" [vd] [xs1; vs2] no_imm;
  ins "vmsgt.vi" "011111. ..... ..... 011 ..... 1010111" [vd] [vs2] simm5;
  ins "vsaddu.vv" "100000. ..... ..... 000 ..... 1010111" [vd] [vs1; vs2] no_imm;
  ins "vsaddu.vx" "100000. ..... ..... 100 ..... 1010111" [vd] [xs1; vs2] no_imm;
  ins "vsaddu.vi" "100000. ..... ..... 011 ..... 1010111" [vd] [vs2] simm5;
  ins "vsadd.vv" "100001. ..... ..... 000 ..... 1010111" [vd] [vs1; vs2] no_imm;
  ins "vsadd.vx" "100001. ..... ..... 100 ..... 1010111" [vd] [xs1; vs2] no_imm;
  ins "vsadd.vi" "100001. ..... ..... 011 ..... 1010111" [vd] [vs2] simm5;
  ins "vssubu.vv" "100010. ..... ..... 000 ..... 1010111" [vd] [vs1; vs2] no_imm;
  ins "vssubu.vx" "100010. ..... ..... 100 ..... 1010111" [vd] [xs1; vs2] no_imm;
  ins "vssub.vv" "100011. ..... ..... 000 ..... 1010111" [vd] [vs1; vs2] no_imm;
  ins "vssub.vx" "100011. ..... ..... 100 ..... 1010111" [vd] [xs1; vs2] no_imm;
  ins "vsmul.vv" "100111. ..... ..... 000 ..... 1010111" [vd] [vs1; vs2] no_imm;
  ins "vsmul.vx" "100111. ..... ..... 100 ..... 1010111" [vd] [xs1; vs2] no_imm;
  ins "vandn.vv" "000001. ..... ..... 000 ..... 1010111" [vd] [vs1; vs2] no_imm;
  ins "vandn.vx" "000001. ..... ..... 100 ..... 1010111" [vd] [xs1; vs2] no_imm;
  ins "vrol.vv" "010101. ..... ..... 000 ..... 1010111" [vd] [vs1; vs2] no_imm;
  ins "vrol.vx" "010101. ..... ..... 100 ..... 1010111" [vd] [xs1; vs2] no_imm;
  ins "vror.vv" "010100. ..... ..... 000 ..... 1010111" [vd] [vs1; vs2] no_imm;
  ins "vror.vx" "010100. ..... ..... 100 ..... 1010111" [vd] [xs1; vs2] no_imm;
  ins "vrgather.vv" "001100. ..... ..... 000 ..... 1010111" [vd] [vs1; vs2] no_imm;
  ins "vrgather.vx" "001100. ..... ..... 100 ..... 1010111" [vd] [xs1; vs2] no_imm;
  ins "vrgather.vi" "001100. ..... ..... 011 ..... 1010111" [vd] [vs2] uimm5;
  ins "vslideup.vx" "001110. ..... ..... 100 ..... 1010111" [vd] [xs1; vs2] no_imm;
  ins "vslideup.vi" "001110. ..... ..... 011 ..... 1010111" [vd] [vs2] uimm5;
  ins "vslidedown.vx" "001111. ..... ..... 100 ..... 1010111" [vd] [xs1; vs2] no_imm;
  ins "vslidedown.vi" "001111. ..... ..... 011 ..... 1010111" [vd] [vs2] uimm5;
  ins "vsll.vv" "100101. ..... ..... 000 ..... 1010111" [vd] [vs1; vs2] no_imm;
  ins "vsll.vx" "100101. ..... ..... 100 ..... 1010111" [vd] [xs1; vs2] no_imm;
  ins "vsll.vi" "100101. ..... ..... 011 ..... 1010111" [vd] [vs2] uimm5;
  ins "vsrl.vv" "101000. ..... ..... 000 ..... 1010111" [vd] [vs1; vs2] no_imm;
  ins "vsrl.vx" "101000. ..... ..... 100 ..... 1010111" [vd] [xs1; vs2] no_imm;
  ins "vsrl.vi" "101000. ..... ..... 011 ..... 1010111" [vd] [vs2] uimm5;
  ins "vsra.vv" "101001. ..... ..... 000 ..... 1010111" [vd] [vs1; vs2] no_imm;
  ins "vsra.vx" "101001. ..... ..... 100 ..... 1010111" [vd] [xs1; vs2] no_imm;
  ins "vsra.vi" "101001. ..... ..... 011 ..... 1010111" [vd] [vs2] uimm5;
  ins "vssrl.vv" "101010. ..... ..... 000 ..... 1010111" [vd] [vs1; vs2] no_imm;
  ins "vssrl.vx" "101010. ..... ..... 100 ..... 1010111" [vd] [xs1; vs2] no_imm;
  ins "vssrl.vi" "101010. ..... ..... 011 ..... 1010111" [vd] [vs2] uimm5;
  ins "vssra.vv" "101011. ..... ..... 000 ..... 1010111" [vd] [vs1; vs2] no_imm;
  ins "vssra.vx" "101011. ..... ..... 100 ..... 1010111" [vd] [xs1; vs2] no_imm;
  ins "vssra.vi" "101011. ..... ..... 011 ..... 1010111" [vd] [vs2] uimm5;
  ins "vwsll.vv" "110101. ..... ..... 000 ..... 1010111" [vd] [vs1; vs2] no_imm;
  ins "vwsll.vx" "110101. ..... ..... 100 ..... 1010111" [vd] [xs1; vs2] no_imm;
  ins "vwsll.vi" "110101. ..... ..... 011 ..... 1010111" [vd] [vs2] uimm5;
  ins "vrgatherei16.vv" "001110. ..... ..... 000 ..... 1010111" [vd] [vs1; vs2] no_imm;
  ins "vnsrl.wv" "101100. ..... ..... 000 ..... 1010111" [vd] [vs1; vs2] no_imm;
  ins "vnsrl.wx" "101100. ..... ..... 100 ..... 1010111" [vd] [xs1; vs2] no_imm;
  ins "vnsrl.wi" "101100. ..... ..... 011 ..... 1010111" [vd] [vs2] uimm5;
  ins "vnsra.wv" "101101. ..... ..... 000 ..... 1010111" [vd] [vs1; vs2] no_imm;
  ins "vnsra.wx" "101101. ..... ..... 100 ..... 1010111" [vd] [xs1; vs2] no_imm;
  ins "vnsra.wi" "101101. ..... ..... 011 ..... 1010111" [vd] [vs2] uimm5;
  ins "vnclipu.wv" "101110. ..... ..... 000 ..... 1010111" [vd] [vs1; vs2] no_imm;
  ins "vnclipu.wx" "101110. ..... ..... 100 ..... 1010111" [vd] [xs1; vs2] no_imm;
  ins "vnclipu.wi" "101110. ..... ..... 011 ..... 1010111" [vd] [vs2] uimm5;
  ins "vnclip.wv" "101111. ..... ..... 000 ..... 1010111" [vd] [vs1; vs2] no_imm;
  ins "vnclip.wx" "101111. ..... ..... 100 ..... 1010111" [vd] [xs1; vs2] no_imm;
  ins "vnclip.wi" "101111. ..... ..... 011 ..... 1010111" [vd] [vs2] uimm5;
  ins "vadc.vvm" "0100000 ..... ..... 000 ..... 1010111" [vd] [vs1; vs2] no_imm;
  ins "vadc.vxm" "0100000 ..... ..... 100 ..... 1010111" [vd] [xs1; vs2] no_imm;
  ins "vadc.vim" "0100000 ..... ..... 011 ..... 1010111" [vd] [vs2] simm5;
  ins "vmadc.vvm" "0100010 ..... ..... 000 ..... 1010111" [vd] [vs1; vs2] no_imm;
  ins "vmadc.vxm" "0100010 ..... ..... 100 ..... 1010111" [vd] [xs1; vs2] no_imm;
  ins "vmadc.vim" "0100010 ..... ..... 011 ..... 1010111" [vd] [vs2] simm5;
  ins "vsbc.vvm" "0100100 ..... ..... 000 ..... 1010111" [vd] [vs1; vs2] no_imm;
  ins "vsbc.vxm" "0100100 ..... ..... 100 ..... 1010111" [vd] [xs1; vs2] no_imm;
  ins "vmsbc.vvm" "0100110 ..... ..... 000 ..... 1010111" [vd] [vs1; vs2] no_imm;
  ins "vmsbc.vxm" "0100110 ..... ..... 100 ..... 1010111" [vd] [xs1; vs2] no_imm;
  ins "vmerge.vvm" "0101110 ..... ..... 000 ..... 1010111" [vd] [vs1; vs2] no_imm;
  ins "vmerge.vxm" "0101110 ..... ..... 100 ..... 1010111" [vd] [xs1; vs2] no_imm;
  ins "vmerge.vim" "0101110 ..... ..... 011 ..... 1010111" [vd] [vs2] simm5;
  ins "vmv.v.v" "0101111 00000 ..... 000 ..... 1010111" [vd] [vs1] no_imm;
  ins "vmv.v.x" "0101111 00000 ..... 100 ..... 1010111" [vd] [xs1] no_imm;
  ins "vmv.v.i" "0101111 00000 ..... 011 ..... 1010111" [vd] [] simm5;
  ins "vwredsumu.vs" "110000. ..... ..... 000 ..... 1010111" [vd] [vs1; vs2] no_imm;
  ins "vwredsum.vs" "110001. ..... ..... 000 ..... 1010111" [vd] [vs1; vs2] no_imm;
  ins "vmv1r.v" "1001111 ..... 00000 011 ..... 1010111" [vd] [vs2] no_imm;
  ins "vmv2r.v" "1001111 ..... 00001 011 ..... 1010111" [vd] [vs2] no_imm;
  ins "vmv4r.v" "1001111 ..... 00011 011 ..... 1010111" [vd] [vs2] no_imm;
  ins "vmv8r.v" "1001111 ..... 00111 011 ..... 1010111" [vd] [vs2] no_imm;
  ins "vror.vi" "01010.. ..... ..... 011 ..... 1010111" [vd] [vs2] uimm6;
  ins "vredsum.vs" "000000. ..... ..... 010 ..... 1010111" [vd] [vs1; vs2] no_imm;
  ins "vredand.vs" "000001. ..... ..... 010 ..... 1010111" [vd] [vs1; vs2] no_imm;
  ins "vredor.vs" "000010. ..... ..... 010 ..... 1010111" [vd] [vs1; vs2] no_imm;
  ins "vredxor.vs" "000011. ..... ..... 010 ..... 1010111" [vd] [vs1; vs2] no_imm;
  ins "vredminu.vs" "000100. ..... ..... 010 ..... 1010111" [vd] [vs1; vs2] no_imm;
  ins "vredmin.vs" "000101. ..... ..... 010 ..... 1010111" [vd] [vs1; vs2] no_imm;
  ins "vredmaxu.vs" "000110. ..... ..... 010 ..... 1010111" [vd] [vs1; vs2] no_imm;
  ins "vredmax.vs" "000111. ..... ..... 010 ..... 1010111" [vd] [vs1; vs2] no_imm;
  ins "vaaddu.vv" "001000. ..... ..... 010 ..... 1010111" [vd] [vs1; vs2] no_imm;
  ins "vaaddu.vx" "001000. ..... ..... 110 ..... 1010111" [vd] [xs1; vs2] no_imm;
  ins "vaadd.vv" "001001. ..... ..... 010 ..... 1010111" [vd] [vs1; vs2] no_imm;
  ins "vaadd.vx" "001001. ..... ..... 110 ..... 1010111" [vd] [xs1; vs2] no_imm;
  ins "vasubu.vv" "001010. ..... ..... 010 ..... 1010111" [vd] [vs1; vs2] no_imm;
  ins "vasubu.vx" "001010. ..... ..... 110 ..... 1010111" [vd] [xs1; vs2] no_imm;
  ins "vasub.vv" "001011. ..... ..... 010 ..... 1010111" [vd] [vs1; vs2] no_imm;
  ins "vasub.vx" "001011. ..... ..... 110 ..... 1010111" [vd] [xs1; vs2] no_imm;
  ins "vdivu.vv" "100000. ..... ..... 010 ..... 1010111" [vd] [vs1; vs2] no_imm;
  ins "vdivu.vx" "100000. ..... ..... 110 ..... 1010111" [vd] [xs1; vs2] no_imm;
  ins "vdiv.vv" "100001. ..... ..... 010 ..... 1010111" [vd] [vs1; vs2] no_imm;
  ins "vdiv.vx" "100001. ..... ..... 110 ..... 1010111" [vd] [xs1; vs2] no_imm;
  ins "vremu.vv" "100010. ..... ..... 010 ..... 1010111" [vd] [vs1; vs2] no_imm;
  ins "vremu.vx" "100010. ..... ..... 110 ..... 1010111" [vd] [xs1; vs2] no_imm;
  ins "vrem.vv" "100011. ..... ..... 010 ..... 1010111" [vd] [vs1; vs2] no_imm;
  ins "vrem.vx" "100011. ..... ..... 110 ..... 1010111" [vd] [xs1; vs2] no_imm;
  ins "vmulhu.vv" "100100. ..... ..... 010 ..... 1010111" [vd] [vs1; vs2] no_imm;
  ins "vmulhu.vx" "100100. ..... ..... 110 ..... 1010111" [vd] [xs1; vs2] no_imm;
  ins "vmul.vv" "100101. ..... ..... 010 ..... 1010111" [vd] [vs1; vs2] no_imm;
  ins "vmul.vx" "100101. ..... ..... 110 ..... 1010111" [vd] [xs1; vs2] no_imm;
  ins "vmulhsu.vv" "100110. ..... ..... 010 ..... 1010111" [vd] [vs1; vs2] no_imm;
  ins "vmulhsu.vx" "100110. ..... ..... 110 ..... 1010111" [vd] [xs1; vs2] no_imm;
  ins "vmulh.vv" "100111. ..... ..... 010 ..... 1010111" [vd] [vs1; vs2] no_imm;
  ins "vmulh.vx" "100111. ..... ..... 110 ..... 1010111" [vd] [xs1; vs2] no_imm;
  ins "vwaddu.vv" "110000. ..... ..... 010 ..... 1010111" [vd] [vs1; vs2] no_imm;
  ins "vwaddu.vx" "110000. ..... ..... 110 ..... 1010111" [vd] [xs1; vs2] no_imm;
  ins "vwadd.vv" "110001. ..... ..... 010 ..... 1010111" [vd] [vs1; vs2] no_imm;
  ins "vwadd.vx" "110001. ..... ..... 110 ..... 1010111" [vd] [xs1; vs2] no_imm;
  ins "vwsubu.vv" "110010. ..... ..... 010 ..... 1010111" [vd] [vs1; vs2] no_imm;
  ins "vwsubu.vx" "110010. ..... ..... 110 ..... 1010111" [vd] [xs1; vs2] no_imm;
  ins "vwsub.vv" "110011. ..... ..... 010 ..... 1010111" [vd] [vs1; vs2] no_imm;
  ins "vwsub.vx" "110011. ..... ..... 110 ..... 1010111" [vd] [xs1; vs2] no_imm;
  ins "vwmulu.vv" "111000. ..... ..... 010 ..... 1010111" [vd] [vs1; vs2] no_imm;
  ins "vwmulu.vx" "111000. ..... ..... 110 ..... 1010111" [vd] [xs1; vs2] no_imm;
  ins "vwmulsu.vv" "111010. ..... ..... 010 ..... 1010111" [vd] [vs1; vs2] no_imm;
  ins "vwmulsu.vx" "111010. ..... ..... 110 ..... 1010111" [vd] [xs1; vs2] no_imm;
  ins "vwmul.vv" "111011. ..... ..... 010 ..... 1010111" [vd] [vs1; vs2] no_imm;
  ins "vwmul.vx" "111011. ..... ..... 110 ..... 1010111" [vd] [xs1; vs2] no_imm;
  ins "vclmul.vv" "001100. ..... ..... 010 ..... 1010111" [vd] [vs1; vs2] no_imm;
  ins "vclmul.vx" "001100. ..... ..... 110 ..... 1010111" [vd] [xs1; vs2] no_imm;
  ins "vclmulh.vv" "001101. ..... ..... 010 ..... 1010111" [vd] [vs1; vs2] no_imm;
  ins "vclmulh.vx" "001101. ..... ..... 110 ..... 1010111" [vd] [xs1; vs2] no_imm;
  ins "vwaddu.wv" "110100. ..... ..... 010 ..... 1010111" [vd] [vs1; vs2] no_imm;
  ins "vwaddu.wx" "110100. ..... ..... 110 ..... 1010111" [vd] [xs1; vs2] no_imm;
  ins "vwadd.wv" "110101. ..... ..... 010 ..... 1010111" [vd] [vs1; vs2] no_imm;
  ins "vwadd.wx" "110101. ..... ..... 110 ..... 1010111" [vd] [xs1; vs2] no_imm;
  ins "vwsubu.wv" "110110. ..... ..... 010 ..... 1010111" [vd] [vs1; vs2] no_imm;
  ins "vwsubu.wx" "110110. ..... ..... 110 ..... 1010111" [vd] [xs1; vs2] no_imm;
  ins "vwsub.wv" "110111. ..... ..... 010 ..... 1010111" [vd] [vs1; vs2] no_imm;
  ins "vwsub.wx" "110111. ..... ..... 110 ..... 1010111" [vd] [xs1; vs2] no_imm;
  ins "vmadd.vv" "101001. ..... ..... 010 ..... 1010111" [vd] [vs1; vs2; vd_acc] no_imm;
  ins "vmadd.vx" "101001. ..... ..... 110 ..... 1010111" [vd] [xs1; vs2; vd_acc] no_imm;
  ins "vnmsub.vv" "101011. ..... ..... 010 ..... 1010111" [vd] [vs1; vs2; vd_acc] no_imm;
  ins "vnmsub.vx" "101011. ..... ..... 110 ..... 1010111" [vd] [xs1; vs2; vd_acc] no_imm;
  ins "vmacc.vv" "101101. ..... ..... 010 ..... 1010111" [vd] [vs1; vs2; vd_acc] no_imm;
  ins "vmacc.vx" "101101. ..... ..... 110 ..... 1010111" [vd] [xs1; vs2; vd_acc] no_imm;
  ins "vnmsac.vv" "101111. ..... ..... 010 ..... 1010111" [vd] [vs1; vs2; vd_acc] no_imm;
  ins "vnmsac.vx" "101111. ..... ..... 110 ..... 1010111" [vd] [xs1; vs2; vd_acc] no_imm;
  ins "vwmaccu.vv" "111100. ..... ..... 010 ..... 1010111" [vd] [vs1; vs2; vd_acc] no_imm;
  ins "vwmaccu.vx" "111100. ..... ..... 110 ..... 1010111" [vd] [xs1; vs2; vd_acc] no_imm;
  ins "vwmacc.vv" "111101. ..... ..... 010 ..... 1010111" [vd] [vs1; vs2; vd_acc] no_imm;
  ins "vwmacc.vx" "111101. ..... ..... 110 ..... 1010111" [vd] [xs1; vs2; vd_acc] no_imm;
  ins "vwmaccsu.vv" "111111. ..... ..... 010 ..... 1010111" [vd] [vs1; vs2; vd_acc] no_imm;
  ins "vwmaccsu.vx" "111111. ..... ..... 110 ..... 1010111" [vd] [xs1; vs2; vd_acc] no_imm;
  ins "vwmaccus.vx" "111110. ..... ..... 110 ..... 1010111" [vd] [xs1; vs2; vd_acc] no_imm;
  ins "vslide1up.vx" "001110. ..... ..... 110 ..... 1010111" [vd] [xs1; vs2] no_imm;
  ins "vslide1down.vx" "001111. ..... ..... 110 ..... 1010111" [vd] [xs1; vs2] no_imm;
  ins "vmv.x.s" "0100001 ..... 00000 010 ..... 1010111" [xd] [vs2] no_imm;
  ins "vmv.s.x" "0100001 00000 ..... 110 ..... 1010111" [vd] [xs1] no_imm;
  ins "vpopc.m" "010000. ..... 10000 010 ..... 1010111" [xd] [vs2] no_imm;
  ins "vfirst.m" "010000. ..... 10001 010 ..... 1010111" [xd] [vs2] no_imm;
  ins "vzext.vf8" "010010. ..... 00010 010 ..... 1010111" [vd] [vs2] no_imm;
  ins "vsext.vf8" "010010. ..... 00011 010 ..... 1010111" [vd] [vs2] no_imm;
  ins "vzext.vf4" "010010. ..... 00100 010 ..... 1010111" [vd] [vs2] no_imm;
  ins "vsext.vf4" "010010. ..... 00101 010 ..... 1010111" [vd] [vs2] no_imm;
  ins "vzext.vf2" "010010. ..... 00110 010 ..... 1010111" [vd] [vs2] no_imm;
  ins "vsext.vf2" "010010. ..... 00111 010 ..... 1010111" [vd] [vs2] no_imm;
  ins "vbrev8.v" "010010. ..... 01000 010 ..... 1010111" [vd] [vs2] no_imm;
  ins "vrev8.v" "010010. ..... 01001 010 ..... 1010111" [vd] [vs2] no_imm;
  ins "vbrev.v" "010010. ..... 01010 010 ..... 1010111" [vd] [vs2] no_imm;
  ins "vclz.v" "010010. ..... 01100 010 ..... 1010111" [vd] [vs2] no_imm;
  ins "vctz.v" "010010. ..... 01101 010 ..... 1010111" [vd] [vs2] no_imm;
  ins "vcpop.v" "010010. ..... 01110 010 ..... 1010111" [vd] [vs2] no_imm;
  ins "vmsbf.m" "010100. ..... 00001 010 ..... 1010111" [vd] [vs2] no_imm;
  ins "vmsof.m" "010100. ..... 00010 010 ..... 1010111" [vd] [vs2] no_imm;
  ins "vmsif.m" "010100. ..... 00011 010 ..... 1010111" [vd] [vs2] no_imm;
  ins "viota.m" "010100. ..... 10000 010 ..... 1010111" [vd] [vs2] no_imm;
  ins "vid.v" "010100. 00000 10001 010 ..... 1010111" [vd] [] no_imm;
  ins "vcompress.vm" "0101111 ..... ..... 010 ..... 1010111" [vd] [vs1; vs2] no_imm;
  ins "vmandn.mm" "0110001 ..... ..... 010 ..... 1010111" [vd] [vs1; vs2] no_imm;
  ins "vmand.mm" "0110011 ..... ..... 010 ..... 1010111" [vd] [vs1; vs2] no_imm;
  ins "vmor.mm" "0110101 ..... ..... 010 ..... 1010111" [vd] [vs1; vs2] no_imm;
  ins "vmxor.mm" "0110111 ..... ..... 010 ..... 1010111" [vd] [vs1; vs2] no_imm;
  ins "vmorn.mm" "0111001 ..... ..... 010 ..... 1010111" [vd] [vs1; vs2] no_imm;
  ins "vmnand.mm" "0111011 ..... ..... 010 ..... 1010111" [vd] [vs1; vs2] no_imm;
  ins "vmnor.mm" "0111101 ..... ..... 010 ..... 1010111" [vd] [vs1; vs2] no_imm;
  ins "vmxnor.mm" "0111111 ..... ..... 010 ..... 1010111" [vd] [vs1; vs2] no_imm;
  ins "vfadd.vv" "000000. ..... ..... 001 ..... 1010111" [vd] [vs1; vs2] no_imm;
  ins "vfadd.vf" "000000. ..... ..... 101 ..... 1010111" [vd] [fs1; vs2] no_imm;
  ins "vfsub.vv" "000010. ..... ..... 001 ..... 1010111" [vd] [vs1; vs2] no_imm;
  ins "vfsub.vf" "000010. ..... ..... 101 ..... 1010111" [vd] [fs1; vs2] no_imm;
  ins "vfmin.vv" "000100. ..... ..... 001 ..... 1010111" [vd] [vs1; vs2] no_imm;
  ins "vfmin.vf" "000100. ..... ..... 101 ..... 1010111" [vd] [fs1; vs2] no_imm;
  ins "vfmax.vv" "000110. ..... ..... 001 ..... 1010111" [vd] [vs1; vs2] no_imm;
  ins "vfmax.vf" "000110. ..... ..... 101 ..... 1010111" [vd] [fs1; vs2] no_imm;
  ins "vfsgnj.vv" "001000. ..... ..... 001 ..... 1010111" [vd] [vs1; vs2] no_imm;
  ins "vfsgnj.vf" "001000. ..... ..... 101 ..... 1010111" [vd] [fs1; vs2] no_imm;
  ins "vfsgnjn.vv" "001001. ..... ..... 001 ..... 1010111" [vd] [vs1; vs2] no_imm;
  ins "vfsgnjn.vf" "001001. ..... ..... 101 ..... 1010111" [vd] [fs1; vs2] no_imm;
  ins "vfsgnjx.vv" "001010. ..... ..... 001 ..... 1010111" [vd] [vs1; vs2] no_imm;
  ins "vfsgnjx.vf" "001010. ..... ..... 101 ..... 1010111" [vd] [fs1; vs2] no_imm;
  ins "vfslide1up.vf" "001110. ..... ..... 101 ..... 1010111" [vd] [fs1; vs2] no_imm;
  ins "vfslide1down.vf" "001111. ..... ..... 101 ..... 1010111" [vd] [fs1; vs2] no_imm;
  ins "vmfeq.vv" "011000. ..... ..... 001 ..... 1010111" [vd] [vs1; vs2] no_imm;
  ins "vmfeq.vf" "011000. ..... ..... 101 ..... 1010111" [vd] [fs1; vs2] no_imm;
  ins "vmfle.vv" "011001. ..... ..... 001 ..... 1010111" [vd] [vs1; vs2] no_imm;
  ins "vmfle.vf" "011001. ..... ..... 101 ..... 1010111" [vd] [fs1; vs2] no_imm;
  ins "vmflt.vv" "011011. ..... ..... 001 ..... 1010111" [vd] [vs1; vs2] no_imm;
  ins "vmflt.vf" "011011. ..... ..... 101 ..... 1010111" [vd] [fs1; vs2] no_imm;
  ins "vmfne.vv" "011100. ..... ..... 001 ..... 1010111" [vd] [vs1; vs2] no_imm;
  ins "vmfne.vf" "011100. ..... ..... 101 ..... 1010111" [vd] [fs1; vs2] no_imm;
  ins "vmfgt.vf" "011101. ..... ..... 101 ..... 1010111" [vd] [fs1; vs2] no_imm;
  ins "vmfge.vf" "011111. ..... ..... 101 ..... 1010111" [vd] [fs1; vs2] no_imm;
  ins "vfdiv.vv" "100000. ..... ..... 001 ..... 1010111" [vd] [vs1; vs2] no_imm;
  ins "vfdiv.vf" "100000. ..... ..... 101 ..... 1010111" [vd] [fs1; vs2] no_imm;
  ins "vfrdiv.vf" "100001. ..... ..... 101 ..... 1010111" [vd] [fs1; vs2] no_imm;
  ins "vfmul.vv" "100100. ..... ..... 001 ..... 1010111" [vd] [vs1; vs2] no_imm;
  ins "vfmul.vf" "100100. ..... ..... 101 ..... 1010111" [vd] [fs1; vs2] no_imm;
  ins "vfrsub.vf" "100111. ..... ..... 101 ..... 1010111" [vd] [fs1; vs2] no_imm;
  ins "vfwadd.vv" "110000. ..... ..... 001 ..... 1010111" [vd] [vs1; vs2] no_imm;
  ins "vfwadd.vf" "110000. ..... ..... 101 ..... 1010111" [vd] [fs1; vs2] no_imm;
  ins "vfwsub.vv" "110010. ..... ..... 001 ..... 1010111" [vd] [vs1; vs2] no_imm;
  ins "vfwsub.vf" "110010. ..... ..... 101 ..... 1010111" [vd] [fs1; vs2] no_imm;
  ins "vfwmul.vv" "111000. ..... ..... 001 ..... 1010111" [vd] [vs1; vs2] no_imm;
  ins "vfwmul.vf" "111000. ..... ..... 101 ..... 1010111" [vd] [fs1; vs2] no_imm;
  ins "vfmadd.vv" "101000. ..... ..... 001 ..... 1010111" [vd] [vs1; vs2; vd_acc] no_imm;
  ins "vfmadd.vf" "101000. ..... ..... 101 ..... 1010111" [vd] [fs1; vs2; vd_acc] no_imm;
  ins "vfnmadd.vv" "101001. ..... ..... 001 ..... 1010111" [vd] [vs1; vs2; vd_acc] no_imm;
  ins "vfnmadd.vf" "101001. ..... ..... 101 ..... 1010111" [vd] [fs1; vs2; vd_acc] no_imm;
  ins "vfmsub.vv" "101010. ..... ..... 001 ..... 1010111" [vd] [vs1; vs2; vd_acc] no_imm;
  ins "vfmsub.vf" "101010. ..... ..... 101 ..... 1010111" [vd] [fs1; vs2; vd_acc] no_imm;
  ins "vfnmsub.vv" "101011. ..... ..... 001 ..... 1010111" [vd] [vs1; vs2; vd_acc] no_imm;
  ins "vfnmsub.vf" "101011. ..... ..... 101 ..... 1010111" [vd] [fs1; vs2; vd_acc] no_imm;
  ins "vfmacc.vv" "101100. ..... ..... 001 ..... 1010111" [vd] [vs1; vs2; vd_acc] no_imm;
  ins "vfmacc.vf" "101100. ..... ..... 101 ..... 1010111" [vd] [fs1; vs2; vd_acc] no_imm;
  ins "vfnmacc.vv" "101101. ..... ..... 001 ..... 1010111" [vd] [vs1; vs2; vd_acc] no_imm;
  ins "vfnmacc.vf" "101101. ..... ..... 101 ..... 1010111" [vd] [fs1; vs2; vd_acc] no_imm;
  ins "vfmsac.vv" "101110. ..... ..... 001 ..... 1010111" [vd] [vs1; vs2; vd_acc] no_imm;
  ins "vfmsac.vf" "101110. ..... ..... 101 ..... 1010111" [vd] [fs1; vs2; vd_acc] no_imm;
  ins "vfnmsac.vv" "101111. ..... ..... 001 ..... 1010111" [vd] [vs1; vs2; vd_acc] no_imm;
  ins "vfnmsac.vf" "101111. ..... ..... 101 ..... 1010111" [vd] [fs1; vs2; vd_acc] no_imm;
  ins "vfwmaccbf16.vv" "111011. ..... ..... 001 ..... 1010111" [vd] [vs1; vs2; vd_acc] no_imm;
  ins "vfwmaccbf16.vf" "111011. ..... ..... 101 ..... 1010111" [vd] [fs1; vs2; vd_acc] no_imm;
  ins "vfwmacc.vv" "111100. ..... ..... 001 ..... 1010111" [vd] [vs1; vs2; vd_acc] no_imm;
  ins "vfwmacc.vf" "111100. ..... ..... 101 ..... 1010111" [vd] [fs1; vs2; vd_acc] no_imm;
  ins "vfwnmacc.vv" "111101. ..... ..... 001 ..... 1010111" [vd] [vs1; vs2; vd_acc] no_imm;
  ins "vfwnmacc.vf" "111101. ..... ..... 101 ..... 1010111" [vd] [fs1; vs2; vd_acc] no_imm;
  ins "vfwmsac.vv" "111110. ..... ..... 001 ..... 1010111" [vd] [vs1; vs2; vd_acc] no_imm;
  ins "vfwmsac.vf" "111110. ..... ..... 101 ..... 1010111" [vd] [fs1; vs2; vd_acc] no_imm;
  ins "vfwnmsac.vv" "111111. ..... ..... 001 ..... 1010111" [vd] [vs1; vs2; vd_acc] no_imm;
  ins "vfwnmsac.vf" "111111. ..... ..... 101 ..... 1010111" [vd] [fs1; vs2; vd_acc] no_imm;
  ins "vfwadd.wv" "110100. ..... ..... 001 ..... 1010111" [vd] [vs1; vs2] no_imm;
  ins "vfwadd.wf" "110100. ..... ..... 101 ..... 1010111" [vd] [fs1; vs2] no_imm;
  ins "vfwsub.wv" "110110. ..... ..... 001 ..... 1010111" [vd] [vs1; vs2] no_imm;
  ins "vfwsub.wf" "110110. ..... ..... 101 ..... 1010111" [vd] [fs1; vs2] no_imm;
  ins "vfredusum.vs" "000001. ..... ..... 001 ..... 1010111" [vd] [vs1; vs2] no_imm;
  ins "vfredosum.vs" "000011. ..... ..... 001 ..... 1010111" [vd] [vs1; vs2] no_imm;
  ins "vfredmin.vs" "000101. ..... ..... 001 ..... 1010111" [vd] [vs1; vs2] no_imm;
  ins "vfredmax.vs" "000111. ..... ..... 001 ..... 1010111" [vd] [vs1; vs2] no_imm;
  ins "vfwredusum.vs" "110001. ..... ..... 001 ..... 1010111" [vd] [vs1; vs2] no_imm;
  ins "vfwredosum.vs" "110011. ..... ..... 001 ..... 1010111" [vd] [vs1; vs2] no_imm;
  ins "vfmv.f.s" "0100001 ..... 00000 001 ..... 1010111" [fd] [vs2] no_imm;
  ins "vfmv.s.f" "0100001 00000 ..... 101 ..... 1010111" [vd] [fs1] no_imm;
  ins "vfmerge.vfm" "0101110 ..... ..... 101 ..... 1010111" [vd] [fs1; vs2] no_imm;
  ins "vfmv.v.f" "0101111 00000 ..... 101 ..... 1010111" [vd] [fs1] no_imm;
  ins "vfcvt.xu.f.v" "010010. ..... 00000 001 ..... 1010111" [vd] [vs2] no_imm;
  ins "vfcvt.x.f.v" "010010. ..... 00001 001 ..... 1010111" [vd] [vs2] no_imm;
  ins "vfcvt.f.xu.v" "010010. ..... 00010 001 ..... 1010111" [vd] [vs2] no_imm;
  ins "vfcvt.f.x.v" "010010. ..... 00011 001 ..... 1010111" [vd] [vs2] no_imm;
  ins "vfcvt.rtz.xu.f.v" "010010. ..... 00110 001 ..... 1010111" [vd] [vs2] no_imm;
  ins "vfcvt.rtz.x.f.v" "010010. ..... 00111 001 ..... 1010111" [vd] [vs2] no_imm;
  ins "vfwcvt.xu.f.v" "010010. ..... 01000 001 ..... 1010111" [vd] [vs2] no_imm;
  ins "vfwcvt.x.f.v" "010010. ..... 01001 001 ..... 1010111" [vd] [vs2] no_imm;
  ins "vfwcvt.f.xu.v" "010010. ..... 01010 001 ..... 1010111" [vd] [vs2] no_imm;
  ins "vfwcvt.f.x.v" "010010. ..... 01011 001 ..... 1010111" [vd] [vs2] no_imm;
  ins "vfwcvt.f.f.v" "010010. ..... 01100 001 ..... 1010111" [vd] [vs2] no_imm;
  ins "vfwcvt.rtz.xu.f.v" "010010. ..... 01110 001 ..... 1010111" [vd] [vs2] no_imm;
  ins "vfwcvt.rtz.x.f.v" "010010. ..... 01111 001 ..... 1010111" [vd] [vs2] no_imm;
  ins "vfncvt.xu.f.w" "010010. ..... 10000 001 ..... 1010111" [vd] [vs2] no_imm;
  ins "vfncvt.x.f.w" "010010. ..... 10001 001 ..... 1010111" [vd] [vs2] no_imm;
  ins "vfncvt.f.xu.w" "010010. ..... 10010 001 ..... 1010111" [vd] [vs2] no_imm;
  ins "vfncvt.f.x.w" "010010. ..... 10011 001 ..... 1010111" [vd] [vs2] no_imm;
  ins "vfncvt.f.f.w" "010010. ..... 10100 001 ..... 1010111" [vd] [vs2] no_imm;
  ins "vfncvt.rod.f.f.w" "010010. ..... 10101 001 ..... 1010111" [vd] [vs2] no_imm;
  ins "vfncvt.rtz.xu.f.w" "010010. ..... 10110 001 ..... 1010111" [vd] [vs2] no_imm;
  ins "vfncvt.rtz.x.f.w" "010010. ..... 10111 001 ..... 1010111" [vd] [vs2] no_imm;
  ins "vfsqrt.v" "010011. ..... 00000 001 ..... 1010111" [vd] [vs2] no_imm;
  ins "vfrsqrt7.v" "010011. ..... 00100 001 ..... 1010111" [vd] [vs2] no_imm;
  ins "vfrec7.v" "010011. ..... 00101 001 ..... 1010111" [vd] [vs2] no_imm;
  ins "vfclass.v" "010011. ..... 10000 001 ..... 1010111" [vd] [vs2] no_imm;
  ins "vaesdm.vv" "1010001 ..... 00000 010 ..... 1110111" [vd] [vs2; vd_acc] no_imm;
  ins "vaesdm.vs" "1010011 ..... 00000 010 ..... 1110111" [vd] [vs2; vd_acc] no_imm;
  ins "vaesdf.vv" "1010001 ..... 00001 010 ..... 1110111" [vd] [vs2; vd_acc] no_imm;
  ins "vaesdf.vs" "1010011 ..... 00001 010 ..... 1110111" [vd] [vs2; vd_acc] no_imm;
  ins "vaesem.vv" "1010001 ..... 00010 010 ..... 1110111" [vd] [vs2; vd_acc] no_imm;
  ins "vaesem.vs" "1010011 ..... 00010 010 ..... 1110111" [vd] [vs2; vd_acc] no_imm;
  ins "vaesef.vv" "1010001 ..... 00011 010 ..... 1110111" [vd] [vs2; vd_acc] no_imm;
  ins "vaesef.vs" "1010011 ..... 00011 010 ..... 1110111" [vd] [vs2; vd_acc] no_imm;
  ins "vsm4r.vv" "1010001 ..... 10000 010 ..... 1110111" [vd] [vs2; vd_acc] no_imm;
  ins "vsm4r.vs" "1010011 ..... 10000 010 ..... 1110111" [vd] [vs2; vd_acc] no_imm;
  ins "vgmul.vv" "1010001 ..... 10001 010 ..... 1110111" [vd] [vs2; vd_acc] no_imm;
  ins "vaesz.vs" "1010011 ..... 00111 010 ..... 1110111" [vd] [vs2; vd_acc] no_imm;
  ins "vsm3me.vv" "1000001 ..... ..... 010 ..... 1110111" [vd] [vs1; vs2] no_imm;
  ins "vsm4k.vi" "1000011 ..... ..... 010 ..... 1110111" [vd] [vs2] uimm5;
  ins "vaeskf1.vi" "1000101 ..... ..... 010 ..... 1110111" [vd] [vs2] uimm5;
  ins "vaeskf2.vi" "1010101 ..... ..... 010 ..... 1110111" [vd] [vs2; vd_acc] uimm5;
  ins "vsm3c.vi" "1010111 ..... ..... 010 ..... 1110111" [vd] [vs2; vd_acc] uimm5;
  ins "vghsh.vv" "1011001 ..... ..... 010 ..... 1110111" [vd] [vs1; vs2; vd_acc] no_imm;
  ins "vsha2ms.vv" "1011011 ..... ..... 010 ..... 1110111" [vd] [vs1; vs2; vd_acc] no_imm;
  ins "vsha2ch.vv" "1011101 ..... ..... 010 ..... 1110111" [vd] [vs1; vs2; vd_acc] no_imm;
  ins "vsha2cl.vv" "1011111 ..... ..... 010 ..... 1110111" [vd] [vs1; vs2; vd_acc] no_imm].
(** V loads and stores, configuration. *)
Definition m_vmem : list minst := [
  ins "vle8.v" "...000. 00000 ..... 000 ..... 0000111" [vd] [xs1] no_imm;
  ins "vse8.v" "...000. 00000 ..... 000 ..... 0100111" [] [xs1; vs3_data] no_imm;
  ins "vle8ff.v" "...000. 10000 ..... 000 ..... 0000111" [vd] [xs1] no_imm;
  ins "vlse8.v" "...010. ..... ..... 000 ..... 0000111" [vd] [xs1; xs2] no_imm;
  ins "vsse8.v" "...010. ..... ..... 000 ..... 0100111" [] [xs1; xs2; vs3_data] no_imm;
  ins "vloxei8.v" "...011. ..... ..... 000 ..... 0000111" [vd] [xs1; vs2] no_imm;
  ins "vsoxei8.v" "...011. ..... ..... 000 ..... 0100111" [] [xs1; vs2; vs3_data] no_imm;
  ins "vluxei8.v" "...001. ..... ..... 000 ..... 0000111" [vd] [xs1; vs2] no_imm;
  ins "vsuxei8.v" "...001. ..... ..... 000 ..... 0100111" [] [xs1; vs2; vs3_data] no_imm;
  ins "vl1re8.v" "0000001 01000 ..... 000 ..... 0000111" [vd] [xs1] no_imm;
  ins "vl2re8.v" "0010001 01000 ..... 000 ..... 0000111" [vd] [xs1] no_imm;
  ins "vl4re8.v" "0110001 01000 ..... 000 ..... 0000111" [vd] [xs1] no_imm;
  ins "vl8re8.v" "1110001 01000 ..... 000 ..... 0000111" [vd] [xs1] no_imm;
  ins "vle16.v" "...000. 00000 ..... 101 ..... 0000111" [vd] [xs1] no_imm;
  ins "vse16.v" "...000. 00000 ..... 101 ..... 0100111" [] [xs1; vs3_data] no_imm;
  ins "vle16ff.v" "...000. 10000 ..... 101 ..... 0000111" [vd] [xs1] no_imm;
  ins "vlse16.v" "...010. ..... ..... 101 ..... 0000111" [vd] [xs1; xs2] no_imm;
  ins "vsse16.v" "...010. ..... ..... 101 ..... 0100111" [] [xs1; xs2; vs3_data] no_imm;
  ins "vloxei16.v" "...011. ..... ..... 101 ..... 0000111" [vd] [xs1; vs2] no_imm;
  ins "vsoxei16.v" "...011. ..... ..... 101 ..... 0100111" [] [xs1; vs2; vs3_data] no_imm;
  ins "vluxei16.v" "...001. ..... ..... 101 ..... 0000111" [vd] [xs1; vs2] no_imm;
  ins "vsuxei16.v" "...001. ..... ..... 101 ..... 0100111" [] [xs1; vs2; vs3_data] no_imm;
  ins "vl1re16.v" "0000001 01000 ..... 101 ..... 0000111" [vd] [xs1] no_imm;
  ins "vl2re16.v" "0010001 01000 ..... 101 ..... 0000111" [vd] [xs1] no_imm;
  ins "vl4re16.v" "0110001 01000 ..... 101 ..... 0000111" [vd] [xs1] no_imm;
  ins "vl8re16.v" "1110001 01000 ..... 101 ..... 0000111" [vd] [xs1] no_imm;
  ins "vle32.v" "...000. 00000 ..... 110 ..... 0000111" [vd] [xs1] no_imm;
  ins "vse32.v" "...000. 00000 ..... 110 ..... 0100111" [] [xs1; vs3_data] no_imm;
  ins "vle32ff.v" "...000. 10000 ..... 110 ..... 0000111" [vd] [xs1] no_imm;
  ins "vlse32.v" "...010. ..... ..... 110 ..... 0000111" [vd] [xs1; xs2] no_imm;
  ins "vsse32.v" "...010. ..... ..... 110 ..... 0100111" [] [xs1; xs2; vs3_data] no_imm;
  ins "vloxei32.v" "...011. ..... ..... 110 ..... 0000111" [vd] [xs1; vs2] no_imm;
  ins "vsoxei32.v" "...011. ..... ..... 110 ..... 0100111" [] [xs1; vs2; vs3_data] no_imm;
  ins "vluxei32.v" "...001. ..... ..... 110 ..... 0000111" [vd] [xs1; vs2] no_imm;
  ins "vsuxei32.v" "...001. ..... ..... 110 ..... 0100111" [] [xs1; vs2; vs3_data] no_imm;
  ins "vl1re32.v" "0000001 01000 ..... 110 ..... 0000111" [vd] [xs1] no_imm;
  ins "vl2re32.v" "0010001 01000 ..... 110 ..... 0000111" [vd] [xs1] no_imm;
  ins "vl4re32.v" "0110001 01000 ..... 110 ..... 0000111" [vd] [xs1] no_imm;
  ins "vl8re32.v" "1110001 01000 ..... 110 ..... 0000111" [vd] [xs1] no_imm;
  ins "vle64.v" "...000. 00000 ..... 111 ..... 0000111" [vd] [xs1] no_imm;
  ins "vse64.v" "...000. 00000 ..... 111 ..... 0100111" [] [xs1; vs3_data] no_imm;
  ins "vle64ff.v" "...000. 10000 ..... 111 ..... 0000111" [vd] [xs1] no_imm;
  ins "vlse64.v" "...010. ..... ..... 111 ..... 0000111" [vd] [xs1; xs2] no_imm;
  ins "vsse64.v" "...010. ..... ..... 111 ..... 0100111" [] [xs1; xs2; vs3_data] no_imm;
  ins "vloxei64.v" "...011. ..... ..... 111 ..... 0000111" [vd] [xs1; vs2] no_imm;
  ins "vsoxei64.v" "...011. ..... ..... 111 ..... 0100111" [] [xs1; vs2; vs3_data] no_imm;
  ins "vluxei64.v" "...001. ..... ..... 111 ..... 0000111" [vd] [xs1; vs2] no_imm;
  ins "vsuxei64.v" "...001. ..... ..... 111 ..... 0100111" [] [xs1; vs2; vs3_data] no_imm;
  ins "vl1re64.v" "0000001 01000 ..... 111 ..... 0000111" [vd] [xs1] no_imm;
  ins "vl2re64.v" "0010001 01000 ..... 111 ..... 0000111" [vd] [xs1] no_imm;
  ins "vl4re64.v" "0110001 01000 ..... 111 ..... 0000111" [vd] [xs1] no_imm;
  ins "vl8re64.v" "1110001 01000 ..... 111 ..... 0000111" [vd] [xs1] no_imm;
  ins "vs1r.v" "0000001 01000 ..... 000 ..... 0100111" [] [xs1; vs3_data] no_imm;
  ins "vs2r.v" "0010001 01000 ..... 000 ..... 0100111" [] [xs1; vs3_data] no_imm;
  ins "vs4r.v" "0110001 01000 ..... 000 ..... 0100111" [] [xs1; vs3_data] no_imm;
  ins "vs8r.v" "1110001 01000 ..... 000 ..... 0100111" [] [xs1; vs3_data] no_imm;
  ins "vlm.v" "0000001 01011 ..... 000 ..... 0000111" [vd] [xs1] no_imm;
  ins "vsm.v" "0000001 01011 ..... 000 ..... 0100111" [] [xs1; vs3_data] no_imm;
  ins "vsetvli" "0...... ..... ..... 111 ..... 1010111" [xd] [xs1] vtype11;
  ins "vsetivli" "11..... ..... ..... 111 ..... 1010111" [xd] [] vtype10;
  ins "vsetvl" "1000000 ..... ..... 111 ..... 1010111" [xd] [xs1; xs2] no_imm].
Definition manual64 : list minst := List.concat [m_i; m_priv; m_m; m_a; m_f; m_d; m_h; m_q; m_fcvt; m_zicsr; m_zb; m_zi; m_c; m_zcb; m_v; m_vmem].
Definition in_manual (M : list minst) (n : string) : Prop := exists m, In m M /\ mi_name m = n.
(** The records provide instruction [n]: one has that name and, if it is an overlay, another
    has its base. *)
Definition provided (recs : list irec) (n : string) : Prop :=
  exists r, In r recs /\ r_mn r = Some n /\
    forall base mask value, overlays r n base mask value -> exists r', In r' recs /\ is_inst r' base.
(** Row [m] fits opcode [ic] and, of the provided instructions, none fits it more
    narrowly. *)
Definition closest (M : list minst) (recs : list irec) (m : minst) (ic : N) : Prop :=
  In m M /\ fits (mi_pat m) ic /\
  forall m', In m' M -> provided recs (mi_name m') -> fits (mi_pat m') ic -> ~ narrower (mi_pat m') (mi_pat m).

(** The encodings these instructions reserve (unprivileged ISA, RV64C instruction listings):
    c.addi4spn and c.lui or c.addi16sp without an immediate; c.addiw, c.lwsp and c.ldsp to x0;
    c.jr through x0. *)
Definition reserved64 : list string := [
  "000 000 000 00 ... 00"; "011 0 ..... 00000 01"; "001 . 00000 ..... 01";
  "010 . 00000 ..... 10"; "011 . 00000 ..... 10"; "100 0 00000 00000 10"].

(** ** Where the shipped tables differ *)
(** Opcodes that are another instruction, or reserved, are reported under these names. *)
Definition odd_patterns : list string := [
  "prefetch.i"; "prefetch.r"; "prefetch.w";
  "vmadc.vvm"; "vmadc.vxm"; "vmadc.vim"; "vmsbc.vvm"; "vmsbc.vxm";
  "vmandn.mm"; "vmand.mm"; "vmor.mm"; "vmxor.mm"; "vmorn.mm"; "vmnand.mm"; "vmnor.mm"; "vmxnor.mm"].
(** These instructions are reported with other operands or another immediate. *)
Definition odd_operands : list string := [
  (* destination in the wrong bank *)
  "fleq.s"; "fltq.s"; "fleq.d"; "fltq.d"; "fleq.h"; "fltq.h"; "fleq.q"; "fltq.q"; "fle.q"; "flt.q"; "feq.q"; "fcvtmod.w.d";
  (* a source that is an index into a table of constants; a source without a type *)
  "fli.s"; "fli.d"; "fli.h"; "fli.q"; "fmvp.q.x";
  (* part of the opcode as immediate; the offset divided by 32 *)
  "ctz"; "cpop"; "sext.b"; "sext.h"; "ctzw"; "cpopw"; "prefetch.i"; "prefetch.r"; "prefetch.w";
  (* a missing source *)
  "vfwmaccbf16.vv"; "vfwmaccbf16.vf"].
