(** Specification: which opcodes are loads, stores, branches and so on, and how many bits a
    memory access moves, by the opcode maps of the RISC-V manuals (C62).  Patterns as in
    [S_Manual]; nothing here mentions instruction names or records. *)
From Coq Require Import NArith List Bool String.
From Verif Require Import M_Base M_Meta M_Decoded M_Builder M_DTable S_Bits S_Table S_Manual S_Shipped.
Import ListNotations.
Local Open Scope N_scope.
Local Open Scope string_scope.

(** The three shipped selections (S_Shipped): RV64; RV32 with c.flw and c.fsw; RV32 with the load
    and store of pairs in their place. *)
Inductive mode := Rv64 | Rv32f | Rv32p.
Definition table_of (m : mode) : list irec := match m with Rv64 => rv64 | Rv32f => rv32f | Rv32p => rv32p end.

(** A class: its name and the number of its bit in InstMetaData::InstructionTypes, the patterns of
    its opcodes, and patterns of those of its opcodes that the shipped tables leave out. *)
Record class := mkClass { cl_name : string; cl_bit : N; cl_pats : list string; cl_omitted : list string }.
Definition in_class (c : class) (ic : N) : Prop := exists p, In p (cl_pats c) /\ fits p ic.
Definition omitted (c : class) (ic : N) : Prop := exists p, In p (cl_omitted c) /\ fits p ic.

Definition nonzero5 (a b : string) : list string :=
  map (fun x => a ++ x ++ b) ["1...."; ".1..."; "..1.."; "...1."; "....1"].
Definition some (b : bool) (l : list string) : list string := if b then l else [].
Definition is32 (m : mode) : bool := match m with Rv64 => false | _ => true end.
Definition is32f (m : mode) : bool := match m with Rv32f => true | _ => false end.

(** *** Memory *)
(* lr (00010) and the read-modify-write instructions, but not sc (00011); hlv; c.lbu c.lh c.lhu *)
Definition loads : list string := [
  "....... ..... ..... ... ..... 0000011"; "....... ..... ..... ... ..... 0000111";
  "....0.. ..... ..... ... ..... 0101111"; "...01.. ..... ..... ... ..... 0101111";
  "0110..0 ..... ..... 100 ..... 1110011";
  "001 ... ... .. ... 00"; "01. ... ... .. ... 00"; "100 00. ... .. ... 00";
  "001 . ..... ..... 10"; "01. . ..... ..... 10" ].
(* sc and the read-modify-write instructions, but not lr; hsv; c.sb c.sh *)
Definition stores : list string := [
  "....... ..... ..... ... ..... 0100011"; "....... ..... ..... ... ..... 0100111";
  "...0... ..... ..... ... ..... 0101111"; "....1.. ..... ..... ... ..... 0101111";
  "0110..1 ..... ..... 100 ..... 1110011";
  "101 ... ... .. ... 00"; "11. ... ... .. ... 00"; "100 01. ... .. ... 00";
  "101 . ..... ..... 10"; "11. . ..... ..... 10" ].
(* AMO: everything of the major opcode but lr and sc *)
Definition rmw : list string := ["...0... ..... ..... ... ..... 0101111"; "...01.. ..... ..... ... ..... 0101111"].
Definition amos : list string := ["....... ..... ..... ... ..... 0101111"].
(* LOAD-FP and STORE-FP with a vector width *)
Definition vmem (hi lo : string) : list string := map (fun w => hi ++ lo ++ w ++ " ..... 0.00111") ["000"; "101"; "110"; "111"].
Definition vmop (mop : string) : list string := vmem ("... . " ++ mop ++ " . ") "..... ..... ".

(** *** Control flow *)
Definition conds : list string := ["....... ..... ..... ... ..... 1100011"; "11. ........... 01"].
Definition jals (m : mode) : list string :=
  ["....... ..... ..... ... ..... 1101111"; "101 ........... 01"] ++ some (is32 m) ["001 ........... 01"].
Definition jalrs : list string :=
  ["....... ..... ..... ... ..... 1100111"] ++ nonzero5 "1000 " " 00000 10" ++ nonzero5 "1001 " " 00000 10".

(** *** Arithmetic *)
Definition opfp (f7 rs2 rm : string) : string := f7 ++ " " ++ rs2 ++ " ..... " ++ rm ++ " ..... 1010011".
Definition opv (f6 vs1 f3 : string) : string := f6 ++ ". ..... " ++ vs1 ++ " " ++ f3 ++ " ..... 1010111".
Definition any5 : string := ".....".

Definition classes (m : mode) : list class := [
  mkClass "load" 10 loads [];
  mkClass "store" 11 stores rmw;
  mkClass "atomic" 60 amos [];
  mkClass "branch" 5 (conds ++ jals m ++ jalrs) [];
  mkClass "cond" 7 conds [];
  mkClass "jal" 8 (jals m) [];
  mkClass "jalr" 9 jalrs [];
  mkClass "pc" 6 ["....... ..... ..... ... ..... 0010111"] [];
  (* FLH FSH, FLW FSW FLD FSD, FLQ FSQ; OP-FP; the four multiply-adds; OPFVV OPFVF; c.fld .. *)
  mkClass "float" 1 (["....... ..... ..... 001 ..... 0.00111"; "....... ..... ..... 01. ..... 0.00111"; "....... ..... ..... 100 ..... 0.00111";
    "....... ..... ..... ... ..... 1010011"; "....... ..... ..... ... ..... 100..11"; "....... ..... ..... .01 ..... 1010111";
    ".01 ... ... .. ... 00"; ".01 . ..... ..... 10"] ++ some (is32f m) [".11 ... ... .. ... 00"; ".11 . ..... ..... 10"]) [];
  (* OP-V, OP-VE and the vector loads and stores; vsetvli vsetivli vsetvl left out *)
  mkClass "vector" 18 (["....... ..... ..... ... ..... 1010111"; "....... ..... ..... ... ..... 1110111"] ++ vmop "..")
    ["....... ..... ..... 111 ..... 1010111"];
  mkClass "unit_stride" 20 (vmem "... . 00 . " "00000 ..... " ++ vmem "... . 00 . " "10000 ..... " ++ vmem "... . 00 . " "01011 ..... ") [];
  mkClass "stride" 21 (vmop "10") [];
  mkClass "ordered_indexed" 22 (vmop "11") [];
  mkClass "unordered_indexed" 23 (vmop "01") [];
  mkClass "faultfirst" 25 (vmem "... . 00 . " "10000 ..... ") [];
  (* whole registers: vl<n>re<w> vs<n>r and vmv<n>r *)
  mkClass "whole" 26 (vmem "... . 00 . " "01000 ..... " ++ [opv "100111" any5 "011"]) [];
  mkClass "mul" 3 ["0000001 ..... ..... 0.. ..... 011.011"; opfp "00010.." any5 "..."; "100 1 11 ... 10 ... 01";
      (* vmulhu vmul vmulhsu vmulh, vwmulu vwmulsu vwmul, vfmul, vfwmul *)
      opv "1001.." any5 ".10"; opv "11101." any5 ".10"; opv "111000" any5 ".10"; opv "100100" any5 ".01"; opv "111000" any5 ".01"]
    [opv "1001.." any5 ".10"; opv "11101." any5 ".10"; opv "111000" any5 ".10"; opv "100100" any5 ".01"; opv "111000" any5 ".01"];
  mkClass "div" 4 ["0000001 ..... ..... 1.. ..... 011.011"; opfp "00011.." any5 "...";
      (* vdivu vdiv vremu vrem, vfdiv vfrdiv *)
      opv "1000.." any5 ".10"; opv "10000." any5 ".01"] [];
  mkClass "mac" 12 ["....... ..... ..... ... ..... 100..11";
      (* vmadd vnmsub vmacc vnmsac, vwmaccu vwmacc vwmaccus vwmaccsu; vfmadd .. vfnmsac, vfwmaccbf16, vfwmacc .. vfwnmsac *)
      opv "101..1" any5 ".10"; opv "1111.." any5 ".10"; opv "101..." any5 ".01"; opv "111011" any5 ".01"; opv "1111.." any5 ".01"] [];
  mkClass "sqrt" 13 [opfp "01011.." "00000" "..."; opv "010011" "00.00" "001"] [];
  mkClass "convert" 14 [opfp "01000.." "000.." "..."; opfp "01000.." "0011." "..."; opfp "11000.." "000.." "..."; opfp "11010.." "000.." "...";
      opfp "0100010" "01000" "..."; opfp "1100001" "01000" "001"; opv "010010" any5 "001"]
    [opfp "1100001" "01000" "001"; opv "010010" any5 "001"];
  (* feq flt fle, and fleq fltq with bit 2 of funct3 *)
  mkClass "compare" 15 [opfp "10100.." any5 "..."; opv "0110.." any5 ".01"; opv "0111.1" any5 "101"] [opfp "10100.." any5 "1.."; opv "0110.." any5 ".01"; opv "0111.1" any5 "101"];
  mkClass "classify" 17 [opfp "11100.." "00000" "001"; opv "010011" "10000" "001"] [opv "010011" "10000" "001"];
  mkClass "csr" 63 ["....... ..... ..... .01 ..... 1110011"; "....... ..... ..... .1. ..... 1110011"] [];
  (* FENCE and FENCE.I; SFENCE.VMA, HFENCE.VVMA, HFENCE.GVMA *)
  mkClass "fence" 61 ["....... ..... ..... 00. ..... 0001111"; "0001001 ..... ..... 000 ..... 1110011"; "0.10001 ..... ..... 000 ..... 1110011"] [];
  (* SYSTEM; the cache block operations of MISC-MEM; c.ebreak *)
  mkClass "system" 62 ["....... ..... ..... ... ..... 1110011"; "....... ..... ..... 010 ..... 0001111"; "1001 00000 00000 10"] [];
  mkClass "cache" 59 ["....... ..... ..... 010 ..... 0001111"; "111111000... ..... 000 ..... 1110011"] [];
  mkClass "hypervisor" 29 ["....... ..... ..... 100 ..... 1110011"; "0.10001 ..... ..... 000 ..... 1110011"] []].

(** *** Size of a memory access, in bits; 0 for an instruction without one.  A vector instruction
    has the width of an element, or of an index. *)
Definition sizes (m : mode) : list (N * list string) := [
  (8, ["....... ..... ..... .00 ..... 0.00011"; "....... ..... ..... 000 ..... 0.00111"; "011000. ..... ..... 100 ..... 1110011";
       "100 0.0 ... .. ... 00"]);
  (16, ["....... ..... ..... .01 ..... 0.00011"; "....... ..... ..... .01 ..... 0.00111"; "011001. ..... ..... 100 ..... 1110011";
        "100 0.1 ... .. ... 00"]);
  (32, (["....... ..... ..... .10 ..... 0.00011"; "....... ..... ..... .10 ..... 0.00111"; "....... ..... ..... 010 ..... 0101111";
        "011010. ..... ..... 100 ..... 1110011"; ".10 ... ... .. ... 00"; ".10 . ..... ..... 10"] ++
       some (is32f m) [".11 ... ... .. ... 00"; ".11 . ..... ..... 10"])%list);
  (64, (["....... ..... ..... .11 ..... 0.00011"; "....... ..... ..... .11 ..... 0.00111"; "....... ..... ..... 011 ..... 0101111";
        "011011. ..... ..... 100 ..... 1110011"; ".01 ... ... .. ... 00"; ".01 . ..... ..... 10"] ++
       some (negb (is32f m)) [".11 ... ... .. ... 00"; ".11 . ..... ..... 10"])%list);
  (128, ["....... ..... ..... 100 ..... 0.00111"])].
(** The RV64 table gives prefetch.r a size of 8.  (It ignores bit 24, see C49.) *)
Definition prefetch_r (m : mode) : list string := some (negb (is32 m)) ["....... .0001 ..... 110 00000 0010011"].
Definition has_size (m : mode) (ic n : N) : Prop := exists l p, In (n, l) (sizes m) /\ In p l /\ fits p ic.
