(** Specification: the instructions of the shipped RV32 tables as the RISC-V manuals list them.
    See S_Manual. *)
From Coq Require Import Ascii NArith ZArith List Bool String.
From Verif Require Import M_Builder S_Bits S_Imm S_Shipped S_Manual.
Import ListNotations.
Local Open Scope string_scope.

(** Instructions that RV32 and RV64 share. *)
Definition same32 : list string := [
  "beq"; "bne"; "blt"; "bge"; "bltu"; "bgeu"; "jalr"; "jal"; "lui"; "auipc"; "addi"; "li"; "nop"; "mv"; "slti";
  "sltiu"; "xori"; "ori"; "andi"; "add"; "sub"; "sll"; "slt"; "sltu"; "xor"; "srl"; "sra"; "or"; "and"; "lb"; "lh";
  "lw"; "lbu"; "lhu"; "sb"; "sh"; "sw"; "fence"; "ecall"; "ebreak"; "uret"; "sret"; "mret"; "dret"; "sfence.vma";
  "wfi"; "fadd.s"; "fsub.s"; "fmul.s"; "fdiv.s"; "fsgnj.s"; "fsgnjn.s"; "fsgnjx.s"; "fmin.s"; "fmax.s"; "fsqrt.s";
  "fle.s"; "flt.s"; "feq.s"; "fcvt.w.s"; "fcvt.wu.s"; "fmv.x.w"; "fclass.s"; "fcvt.s.w"; "fcvt.s.wu"; "fmv.w.x";
  "flw"; "fsw"; "fmadd.s"; "fmsub.s"; "fnmsub.s"; "fnmadd.s"; "fleq.s"; "fli.s"; "fltq.s"; "fmaxm.s"; "fminm.s";
  "fround.s"; "froundnx.s"; "mul"; "mulh"; "mulhsu"; "mulhu"; "div"; "divu"; "rem"; "remu"; "amoadd.w"; "amoxor.w";
  "amoor.w"; "amoand.w"; "amomin.w"; "amomax.w"; "amominu.w"; "amomaxu.w"; "amoswap.w"; "lr.w"; "sc.w"; "fadd.d";
  "fsub.d"; "fmul.d"; "fdiv.d"; "fsgnj.d"; "fsgnjn.d"; "fsgnjx.d"; "fmin.d"; "fmax.d"; "fcvt.s.d"; "fcvt.d.s";
  "fsqrt.d"; "fle.d"; "flt.d"; "feq.d"; "fcvt.w.d"; "fcvt.wu.d"; "fclass.d"; "fcvt.d.w"; "fcvt.d.wu"; "fld"; "fsd";
  "fmadd.d"; "fmsub.d"; "fnmsub.d"; "fnmadd.d"; "fcvtmod.w.d"; "fleq.d"; "fli.d"; "fltq.d"; "fmaxm.d"; "fminm.d";
  "fround.d"; "froundnx.d"; "csrrw"; "csrrs"; "csrrc"; "csrrwi"; "csrrsi"; "csrrci"; "fence.i"; "c.addi4spn"; "c.lw";
  "c.sw"; "c.addi"; "c.nop"; "c.addi16sp"; "c.jr"; "c.jalr"; "c.li"; "c.lui"; "c.andi"; "c.sub"; "c.xor"; "c.or";
  "c.and"; "c.j"; "c.beqz"; "c.bnez"; "c.lwsp"; "c.mv"; "c.ebreak"; "c.add"; "c.swsp"; "c.fld"; "c.fsd"; "c.fldsp";
  "c.fsdsp"; "pause"; "wrs.nto"; "wrs.sto"; "sh1add"; "sh2add"; "sh3add"; "andn"; "orn"; "xnor"; "clz"; "ctz"; "cpop";
  "max"; "maxu"; "min"; "minu"; "sext.b"; "sext.h"; "pack"; "rol"; "ror"; "clmul"; "clmulh"; "clmulr"; "bclr"; "bext";
  "binv"; "bset"; "c.lbu"; "c.lh"; "c.lhu"; "c.sb"; "c.sh"; "c.zext.b"; "c.sext.b"; "c.zext.h"; "c.sext.h"; "c.not";
  "c.mul"; "czero.eqz"; "czero.nez"].
Definition m_shared : list minst := filter (fun m => existsb (String.eqb (mi_name m)) same32) manual64.
(** Shift amounts have five bits; in the compressed shifts the sixth is zero. *)
Definition m_shifts : list minst := [
  ins "slli" "0000000 ..... ..... 001 ..... 0010011" [xd] [xs1] shamt5;
  ins "srli" "0000000 ..... ..... 101 ..... 0010011" [xd] [xs1] shamt5;
  ins "srai" "0100000 ..... ..... 101 ..... 0010011" [xd] [xs1] shamt5;
  ins "rori" "0110000 ..... ..... 101 ..... 0010011" [xd] [xs1] shamt5;
  ins "bclri" "0100100 ..... ..... 001 ..... 0010011" [xd] [xs1] shamt5;
  ins "bexti" "0100100 ..... ..... 101 ..... 0010011" [xd] [xs1] shamt5;
  ins "binvi" "0110100 ..... ..... 001 ..... 0010011" [xd] [xs1] shamt5;
  ins "bseti" "0010100 ..... ..... 001 ..... 0010011" [xd] [xs1] shamt5;
  ins "c.slli" "000 0 ..... ..... 10" [xd] [xd] shamt_c;
  ins "c.srli" "100 0 00... ..... 01" [cs1] [cs1] shamt_c;
  ins "c.srai" "100 0 01... ..... 01" [cs1] [cs1] shamt_c;
  ins "c.jal" "001 . ..... ..... 01" [x1] [] imm_cj].
(** Zcf. *)
Definition m_zcf : list minst := [
  ins "c.flw" "011 ... ... .. ... 00" [cfd] [cs1] imm_cl4;
  ins "c.fsw" "111 ... ... .. ... 00" [] [cs1; cfs2_data] imm_cl4;
  ins "c.flwsp" "011 . ..... ..... 10" [fd] [sp] imm_clsp4;
  ins "c.fswsp" "111 . ..... ..... 10" [] [sp; cfrs2_data] imm_cssp4].
(** Zilsd and Zclsd.  The operands are pairs of registers (S_Pairs); only the patterns are given
    here. *)
Definition m_zilsd : list minst := [
  ins "ld" "....... ..... ..... 011 ..... 0000011" [] [] no_imm;
  ins "sd" "....... ..... ..... 011 ..... 0100011" [] [] no_imm].
Definition m_zclsd : list minst := [
  ins "c.ld" "011 ... ... .. ... 00" [] [] no_imm;
  ins "c.sd" "111 ... ... .. ... 00" [] [] no_imm;
  ins "c.ldsp" "011 . ..... ..... 10" [] [] no_imm;
  ins "c.sdsp" "111 . ..... ..... 10" [] [] no_imm].
Definition pairs32 : list string := ["ld"; "sd"; "c.ld"; "c.sd"; "c.ldsp"; "c.sdsp"].

(** Reserved: as for RV64 but for c.addiw and c.ldsp; pairs that start with an odd register;
    c.ldsp to x0. *)
Definition reserved32f : list string := [
  "000 000 000 00 ... 00"; "011 0 ..... 00000 01"; "010 . 00000 ..... 10"; "100 0 00000 00000 10";
  "....... ..... ..... 011 ....1 0000011"; "....... ....1 ..... 011 ..... 0100011"].
Definition reserved32p : list string := (reserved32f ++ [
  "011 ... ... .. ..1 00"; "111 ... ... .. ..1 00"; "011 . ....1 ..... 10"; "111 . ..... ....1 10"])%list.
Definition ldsp_x0 : string := "011 . 00000 ..... 10".

Definition odd_patterns32 : list string := ["c.slli"; "c.srli"; "c.srai"].
Definition odd_operands32 : list string := [
  "fleq.s"; "fltq.s"; "fleq.d"; "fltq.d"; "fcvtmod.w.d"; "fli.s"; "fli.d"; "ctz"; "cpop"; "sext.b"; "sext.h"].

(** ** The tables and their books *)
Record book := mkBook {
  bk_rows : list minst;
  bk_reserved : list string;
  (* names whose rows differ from the manual, and names without operands in the book *)
  bk_patterns : list string;
  bk_operands : list string;
  bk_pairs : list string }.
Inductive book_of : list irec -> book -> Prop :=
| book64 : book_of rv64 (mkBook manual64 reserved64 odd_patterns odd_operands [])
| book32f : book_of rv32f (mkBook (m_shared ++ m_shifts ++ m_zilsd ++ m_zcf) reserved32f odd_patterns32 odd_operands32 pairs32)
| book32p : book_of rv32p (mkBook (m_shared ++ m_shifts ++ m_zilsd ++ m_zclsd) reserved32p odd_patterns32 odd_operands32 pairs32).
