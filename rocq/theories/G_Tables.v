(** Generated by tools/gen_tables.py from /repo/json; do not edit.  One list per file, one
    record per JSON object, in file order. *)
From Coq Require Import NArith List String.
From Verif Require Import M_Meta M_Builder M_Raw.
Import ListNotations.
Local Open Scope N_scope.
Local Open Scope string_scope.

(** json/isa_rv32a.json *)
Definition isa_rv32a : list raw := [
  mkRaw (Some "amoadd.w") None (Some "AMO") None (Some 0x202f) [] [] [] None None None ["a"; "g"] (Some ["int"; "load"; "atomic"]) (Some 32) [(KLong, OperAll)] [];
  mkRaw (Some "amoxor.w") None (Some "AMO") None (Some 0x2000202f) [] [] [] None None None ["a"; "g"] (Some ["int"; "load"; "atomic"]) (Some 32) [(KLong, OperAll)] [];
  mkRaw (Some "amoor.w") None (Some "AMO") None (Some 0x4000202f) [] [] [] None None None ["a"; "g"] (Some ["int"; "load"; "atomic"]) (Some 32) [(KLong, OperAll)] [];
  mkRaw (Some "amoand.w") None (Some "AMO") None (Some 0x6000202f) [] [] [] None None None ["a"; "g"] (Some ["int"; "load"; "atomic"]) (Some 32) [(KLong, OperAll)] [];
  mkRaw (Some "amomin.w") None (Some "AMO") None (Some 0x8000202f) [] [] [] None None None ["a"; "g"] (Some ["int"; "load"; "atomic"]) (Some 32) [(KLong, OperAll)] [];
  mkRaw (Some "amomax.w") None (Some "AMO") None (Some 0xa000202f) [] [] [] None None None ["a"; "g"] (Some ["int"; "load"; "atomic"]) (Some 32) [(KLong, OperAll)] [];
  mkRaw (Some "amominu.w") None (Some "AMO") None (Some 0xc000202f) [] [] [] None None None ["a"; "g"] (Some ["int"; "load"; "atomic"]) (Some 32) [(KLong, OperAll)] [];
  mkRaw (Some "amomaxu.w") None (Some "AMO") None (Some 0xe000202f) [] [] [] None None None ["a"; "g"] (Some ["int"; "load"; "atomic"]) (Some 32) [(KLong, OperAll)] [];
  mkRaw (Some "amoswap.w") None (Some "AMO") None (Some 0x800202f) [] [] [] None None None ["a"; "g"] (Some ["int"; "load"; "atomic"]) (Some 32) [(KLong, OperAll)] [];
  mkRaw (Some "lr.w") None (Some "AMO") None (Some 0x1000202f) ["rs2"] [] [] None None None ["a"; "g"] (Some ["int"; "load"; "atomic"]) (Some 32) [(KLong, OperAll)] [];
  mkRaw (Some "sc.w") None (Some "AMO") None (Some 0x1800202f) [] [] [] None None None ["a"; "g"] (Some ["int"; "store"; "atomic"]) (Some 32) [(KLong, OperAll)] []
].

(** json/isa_rv32c.json *)
Definition isa_rv32c : list raw := [
  mkRaw (Some "c.addi4spn") None (Some "C0") (Some "CIW_sp") (Some 0x0) [] ["func2A"] [] None (Some "addi") None ["c"] None None [] [];
  mkRaw (Some "c.lw") None (Some "C0") (Some "C0_load_word") (Some 0x4000) [] ["func2A"] [] None (Some "lw") None ["c"] None None [] [];
  mkRaw (Some "c.sw") None (Some "C0") (Some "C0_store_word") (Some 0xc000) [] ["func2A"] [] None (Some "sw") None ["c"] None None [] [];
  mkRaw (Some "c.addi") None (Some "C1") (Some "CI_addi") (Some 0x1) [] ["func2"; "func1"; "func2b"] [] None (Some "addi") None ["c"] None None [] [];
  mkRaw (Some "c.nop") None (Some "C1") (Some "CI_addi") (Some 0x1) ["rs1"] ["func1"; "func2b"] [] None (Some "nop") None ["c"] None None [] [];
  mkRaw (Some "c.addi16sp") None (Some "C1") (Some "CI_sp") (Some 0x6101) ["rs1"] ["func1"; "func2b"] [] None (Some "addi") None ["c"] None None [] [];
  mkRaw (Some "c.jr") None (Some "C2") (Some "CJR") (Some 0x8002) ["rs2"] [] [] None (Some "jalr") None ["c"] None None [] [];
  mkRaw (Some "c.jalr") None (Some "C2") (Some "CJALR") (Some 0x9002) ["rs2"] [] [] None (Some "jalr") None ["c"] None None [] [];
  mkRaw (Some "c.li") None (Some "C1") (Some "CI_rD_only") (Some 0x4001) [] ["func2"; "func1"; "func2b"] [] None (Some "li") None ["c"] None None [] [];
  mkRaw (Some "c.lui") None (Some "C1") (Some "CI_rD_shifted") (Some 0x6001) [] ["func2"; "func1"; "func2b"] [] None (Some "lui") None ["c"] None None [] [];
  mkRaw (Some "c.srli") None (Some "C1") (Some "CIX") (Some 0x8001) [] ["func1"; "func2b"] [] None (Some "srli") None ["c"] None None [] [];
  mkRaw (Some "c.srai") None (Some "C1") (Some "CIX") (Some 0x8401) [] ["func1"; "func2b"] [] None (Some "srai") None ["c"] None None [] [];
  mkRaw (Some "c.andi") None (Some "C1") (Some "CIX_andi") (Some 0x8801) [] ["func1"; "func2b"] [] None (Some "andi") None ["c"] None None [] [];
  mkRaw (Some "c.sub") None (Some "C1") (Some "CA") (Some 0x8c01) [] [] [] None (Some "sub") None ["c"] None None [] [];
  mkRaw (Some "c.xor") None (Some "C1") (Some "CA") (Some 0x8c21) [] [] [] None (Some "xor") None ["c"] None None [] [];
  mkRaw (Some "c.or") None (Some "C1") (Some "CA") (Some 0x8c41) [] [] [] None (Some "or") None ["c"] None None [] [];
  mkRaw (Some "c.and") None (Some "C1") (Some "CA") (Some 0x8c61) [] [] [] None (Some "and") None ["c"] None None [] [];
  mkRaw (Some "c.j") None (Some "C1") (Some "CJ") (Some 0xa001) [] ["func2"; "func1"; "func2b"] [] None (Some "jal") None ["c"] None None [] [];
  mkRaw (Some "c.jal") None (Some "C1") (Some "CJAL") (Some 0x2001) [] ["func2"; "func1"; "func2b"] [] None (Some "jal") None ["c"] None None [] [];
  mkRaw (Some "c.beqz") None (Some "C1") (Some "CB") (Some 0xc001) [] ["func2"; "func1"; "func2b"] [] None (Some "beq") None ["c"] None None [] [];
  mkRaw (Some "c.bnez") None (Some "C1") (Some "CB") (Some 0xe001) [] ["func2"; "func1"; "func2b"] [] None (Some "bne") None ["c"] None None [] [];
  mkRaw (Some "c.slli") None (Some "C2") (Some "C2_slli") (Some 0x2) [] ["func1"] [] None (Some "slli") None ["c"] None None [] [];
  mkRaw (Some "c.lwsp") None (Some "C2") (Some "C2_sp_load_word") (Some 0x4002) [] ["func1"] [] None (Some "lw") None ["c"] None None [] [];
  mkRaw (Some "c.mv") None (Some "C2") (Some "C2_mv") (Some 0x8002) [] [] [] None (Some "add") None ["c"] (Some ["move"]) None [] [];
  mkRaw (Some "c.ebreak") None (Some "C2") None (Some 0x9002) ["rs1"; "rs2"] [] [] None (Some "ebreak") None ["c"] None None [] [];
  mkRaw (Some "c.add") None (Some "C2") (Some "C2_add") (Some 0x9002) [] [] [] None (Some "add") None ["c"] None None [] [];
  mkRaw (Some "c.swsp") None (Some "C2") (Some "C2_sp_store_word") (Some 0xc002) [] ["func1"] [] None (Some "sw") None ["c"] None None [] []
].

(** json/isa_rv32cd.json *)
Definition isa_rv32cd : list raw := [
  mkRaw (Some "c.fld") None (Some "C0") (Some "C0_load_double") (Some 0x2000) [] ["func2A"] [] None (Some "fld") None ["cd"] None None [] [];
  mkRaw (Some "c.fsd") None (Some "C0") (Some "C0_store_double") (Some 0xa000) [] ["func2A"] [] None (Some "fsd") None ["cd"] None None [] [];
  mkRaw (Some "c.fldsp") None (Some "C2") (Some "C2_sp_load_float_double") (Some 0x2002) [] ["func1"] [] None (Some "fld") None ["cd"] None None [] [];
  mkRaw (Some "c.fsdsp") None (Some "C2") (Some "C2_sp_store_double") (Some 0xa002) [] ["func1"] [] None (Some "fsd") None ["cd"] None None [] []
].

(** json/isa_rv32cf.json *)
Definition isa_rv32cf : list raw := [
  mkRaw (Some "c.flw") None (Some "C0") (Some "C0_load_word") (Some 0x6000) [] ["func2A"] [] None (Some "flw") None ["cf"] None None [] [];
  mkRaw (Some "c.fsw") None (Some "C0") (Some "C0_store_word") (Some 0xe000) [] ["func2A"] [] None (Some "fsw") None ["cf"] None None [] [];
  mkRaw (Some "c.flwsp") None (Some "C2") (Some "C2_sp_load_float_single") (Some 0x6002) [] ["func1"] [] None (Some "flw") None ["cf"] None None [] [];
  mkRaw (Some "c.fswsp") None (Some "C2") (Some "C2_sp_store_word") (Some 0xe002) [] ["func1"] [] None (Some "fsw") None ["cf"] None None [] []
].

(** json/isa_rv32d.json *)
Definition isa_rv32d : list raw := [
  mkRaw (Some "fadd.d") None (Some "Rfloat") None (Some 0x2000053) [] [] [] None None None ["d"; "g"] (Some ["float"; "arith"]) None [(KDouble, OperAll)] [];
  mkRaw (Some "fsub.d") None (Some "Rfloat") None (Some 0xa000053) [] [] [] None None None ["d"; "g"] (Some ["float"; "arith"]) None [(KDouble, OperAll)] [];
  mkRaw (Some "fmul.d") None (Some "Rfloat") None (Some 0x12000053) [] [] [] None None None ["d"; "g"] (Some ["float"; "mul"]) None [(KDouble, OperAll)] [];
  mkRaw (Some "fdiv.d") None (Some "Rfloat") None (Some 0x1a000053) [] [] [] None None None ["d"; "g"] (Some ["float"; "div"]) None [(KDouble, OperAll)] [];
  mkRaw (Some "fsgnj.d") None (Some "Rfloat") None (Some 0x22000053) ["rm"] [] [] None None None ["d"; "g"] (Some ["float"; "move"]) None [(KDouble, OperAll)] [];
  mkRaw (Some "fsgnjn.d") None (Some "Rfloat") None (Some 0x22001053) ["rm"] [] [] None None None ["d"; "g"] (Some ["float"; "arith"]) None [(KDouble, OperAll)] [];
  mkRaw (Some "fsgnjx.d") None (Some "Rfloat") None (Some 0x22002053) ["rm"] [] [] None None None ["d"; "g"] (Some ["float"; "arith"]) None [(KDouble, OperAll)] [];
  mkRaw (Some "fmin.d") None (Some "Rfloat") None (Some 0x2a000053) ["rm"] [] [] None None None ["d"; "g"] (Some ["float"; "arith"]) None [(KDouble, OperAll)] [];
  mkRaw (Some "fmax.d") None (Some "Rfloat") None (Some 0x2a001053) ["rm"] [] [] None None None ["d"; "g"] (Some ["float"; "arith"]) None [(KDouble, OperAll)] [];
  mkRaw (Some "fcvt.s.d") None (Some "Rfloat") None (Some 0x40100053) ["rs2"] [] [] None None None ["d"; "g"] (Some ["float"; "convert"]) None [(KSingle, (OperList ["rd"])); (KDouble, (OperList ["rs1"]))] [];
  mkRaw (Some "fcvt.d.s") None (Some "Rfloat") None (Some 0x42000053) ["rs2"] [] [] None None None ["d"; "g"] (Some ["float"; "convert"]) None [(KSingle, (OperList ["rs1"])); (KDouble, (OperList ["rd"]))] [];
  mkRaw (Some "fsqrt.d") None (Some "Rfloat") None (Some 0x5a000053) ["rs2"] [] [] None None None ["d"; "g"] (Some ["float"; "sqrt"]) None [(KDouble, OperAll)] [];
  mkRaw (Some "fle.d") None (Some "Rfloat") None (Some 0xa2000053) ["rm"] [] [] None None None ["d"; "g"] (Some ["float"; "compare"]) None [(KWord, (OperList ["rd"])); (KDouble, (OperList ["rs1"; "rs2"]))] [];
  mkRaw (Some "flt.d") None (Some "Rfloat") None (Some 0xa2001053) ["rm"] [] [] None None None ["d"; "g"] (Some ["float"; "compare"]) None [(KWord, (OperList ["rd"])); (KDouble, (OperList ["rs1"; "rs2"]))] [];
  mkRaw (Some "feq.d") None (Some "Rfloat") None (Some 0xa2002053) ["rm"] [] [] None None None ["d"; "g"] (Some ["float"; "compare"]) None [(KWord, (OperList ["rd"])); (KDouble, (OperList ["rs1"; "rs2"]))] [];
  mkRaw (Some "fcvt.w.d") None (Some "Rfloat") None (Some 0xc2000053) ["rs2"] [] [] None None None ["d"; "g"] (Some ["float"; "convert"]) None [(KWord, (OperList ["rd"])); (KDouble, (OperList ["rs1"]))] [];
  mkRaw (Some "fcvt.wu.d") None (Some "Rfloat") None (Some 0xc2100053) ["rs2"] [] [] None None None ["d"; "g"] (Some ["float"; "convert"]) None [(KWord, (OperList ["rd"])); (KDouble, (OperList ["rs1"]))] [];
  mkRaw (Some "fclass.d") None (Some "Rfloat") None (Some 0xe2001053) ["rm"; "rs2"] [] [] None None None ["d"; "g"] (Some ["float"; "classify"]) None [(KLong, (OperList ["rd"])); (KDouble, (OperList ["rs1"]))] [];
  mkRaw (Some "fcvt.d.w") None (Some "Rfloat") None (Some 0xd2000053) ["rs2"] [] [] None None None ["d"; "g"] (Some ["float"; "convert"]) None [(KWord, (OperList ["rs1"])); (KDouble, (OperList ["rd"]))] [];
  mkRaw (Some "fcvt.d.wu") None (Some "Rfloat") None (Some 0xd2100053) ["rs2"] [] [] None None None ["d"; "g"] (Some ["float"; "convert"]) None [(KWord, (OperList ["rs1"])); (KDouble, (OperList ["rd"]))] [];
  mkRaw (Some "fld") None (Some "VF_mem") (Some "I_load") (Some 0x3007) [] ["mewop"] [] None None None ["d"; "g"] (Some ["float"; "load"]) (Some 64) [(KLong, (OperList ["rs1"])); (KDouble, (OperList ["rd"]))] [];
  mkRaw (Some "fsd") None (Some "VF_mem") (Some "S") (Some 0x3027) [] ["mewop"] [] None None None ["d"; "g"] (Some ["float"; "store"]) (Some 64) [(KLong, (OperList ["rs1"])); (KDouble, (OperList ["rs2"]))] [];
  mkRaw (Some "fmadd.d") None (Some "R4") None (Some 0x2000043) [] [] [] None None None ["d"; "g"] (Some ["float"; "mac"]) None [(KDouble, OperAll)] [];
  mkRaw (Some "fmsub.d") None (Some "R4") None (Some 0x2000047) [] [] [] None None None ["d"; "g"] (Some ["float"; "mac"]) None [(KDouble, OperAll)] [];
  mkRaw (Some "fnmsub.d") None (Some "R4") None (Some 0x200004b) [] [] [] None None None ["d"; "g"] (Some ["float"; "mac"]) None [(KDouble, OperAll)] [];
  mkRaw (Some "fnmadd.d") None (Some "R4") None (Some 0x200004f) [] [] [] None None None ["d"; "g"] (Some ["float"; "mac"]) None [(KDouble, OperAll)] [];
  mkRaw (Some "fcvtmod.w.d") None (Some "Rfloat") None (Some 0xc2801053) ["rs2"; "rm"] [] [] None None None ["d"; "zfa"] (Some ["float"; "arith"]) None [(KDouble, OperAll)] [];
  mkRaw (Some "fleq.d") None (Some "Rfloat") None (Some 0xa2004053) ["rm"] [] [] None None None ["d"; "zfa"] (Some ["float"; "arith"]) None [(KDouble, OperAll)] [];
  mkRaw (Some "fli.d") None (Some "Rfloat") None (Some 0xf2100053) ["rs2"; "rm"] [] [] None None None ["d"; "zfa"] (Some ["float"; "arith"]) None [(KDouble, OperAll)] [];
  mkRaw (Some "fltq.d") None (Some "Rfloat") None (Some 0xa2005053) ["rm"] [] [] None None None ["d"; "zfa"] (Some ["float"; "arith"]) None [(KDouble, OperAll)] [];
  mkRaw (Some "fmaxm.d") None (Some "Rfloat") None (Some 0x2a003053) ["rm"] [] [] None None None ["d"; "zfa"] (Some ["float"; "arith"]) None [(KDouble, OperAll)] [];
  mkRaw (Some "fminm.d") None (Some "Rfloat") None (Some 0x2a002053) ["rm"] [] [] None None None ["d"; "zfa"] (Some ["float"; "arith"]) None [(KDouble, OperAll)] [];
  mkRaw (Some "fround.d") None (Some "Rfloat") None (Some 0x42400053) ["rs2"] [] [] None None None ["d"; "zfa"] (Some ["float"; "arith"]) None [(KDouble, OperAll)] [];
  mkRaw (Some "froundnx.d") None (Some "Rfloat") None (Some 0x42500053) ["rs2"] [] [] None None None ["d"; "zfa"] (Some ["float"; "arith"]) None [(KDouble, OperAll)] []
].

(** json/isa_rv32f.json *)
Definition isa_rv32f : list raw := [
  mkRaw (Some "fadd.s") None (Some "Rfloat") None (Some 0x53) [] [] [] None None None ["f"; "g"] (Some ["float"; "arith"]) None [(KSingle, OperAll)] [];
  mkRaw (Some "fsub.s") None (Some "Rfloat") None (Some 0x8000053) [] [] [] None None None ["f"; "g"] (Some ["float"; "arith"]) None [(KSingle, OperAll)] [];
  mkRaw (Some "fmul.s") None (Some "Rfloat") None (Some 0x10000053) [] [] [] None None None ["f"; "g"] (Some ["float"; "mul"]) None [(KSingle, OperAll)] [];
  mkRaw (Some "fdiv.s") None (Some "Rfloat") None (Some 0x18000053) [] [] [] None None None ["f"; "g"] (Some ["float"; "div"]) None [(KSingle, OperAll)] [];
  mkRaw (Some "fsgnj.s") None (Some "Rfloat") None (Some 0x20000053) ["rm"] [] [] None None None ["f"; "g"] (Some ["float"; "move"]) None [(KSingle, OperAll)] [];
  mkRaw (Some "fsgnjn.s") None (Some "Rfloat") None (Some 0x20001053) ["rm"] [] [] None None None ["f"; "g"] (Some ["float"; "arith"]) None [(KSingle, OperAll)] [];
  mkRaw (Some "fsgnjx.s") None (Some "Rfloat") None (Some 0x20002053) ["rm"] [] [] None None None ["f"; "g"] (Some ["float"; "arith"]) None [(KSingle, OperAll)] [];
  mkRaw (Some "fmin.s") None (Some "Rfloat") None (Some 0x28000053) ["rm"] [] [] None None None ["f"; "g"] (Some ["float"; "arith"]) None [(KSingle, OperAll)] [];
  mkRaw (Some "fmax.s") None (Some "Rfloat") None (Some 0x28001053) ["rm"] [] [] None None None ["f"; "g"] (Some ["float"; "arith"]) None [(KSingle, OperAll)] [];
  mkRaw (Some "fsqrt.s") None (Some "Rfloat") None (Some 0x58000053) ["rs2"] [] [] None None None ["f"; "g"] (Some ["float"; "sqrt"]) None [(KSingle, OperAll)] [];
  mkRaw (Some "fle.s") None (Some "Rfloat") None (Some 0xa0000053) ["rm"] [] [] None None None ["f"; "g"] (Some ["float"; "compare"]) None [(KWord, (OperList ["rd"])); (KSingle, (OperList ["rs1"; "rs2"]))] [];
  mkRaw (Some "flt.s") None (Some "Rfloat") None (Some 0xa0001053) ["rm"] [] [] None None None ["f"; "g"] (Some ["float"; "compare"]) None [(KWord, (OperList ["rd"])); (KSingle, (OperList ["rs1"; "rs2"]))] [];
  mkRaw (Some "feq.s") None (Some "Rfloat") None (Some 0xa0002053) ["rm"] [] [] None None None ["f"; "g"] (Some ["float"; "compare"]) None [(KWord, (OperList ["rd"])); (KSingle, (OperList ["rs1"; "rs2"]))] [];
  mkRaw (Some "fcvt.w.s") None (Some "Rfloat") None (Some 0xc0000053) ["rs2"] [] [] None None None ["f"; "g"] (Some ["float"; "convert"]) None [(KWord, (OperList ["rd"])); (KSingle, (OperList ["rs1"]))] [];
  mkRaw (Some "fcvt.wu.s") None (Some "Rfloat") None (Some 0xc0100053) ["rs2"] [] [] None None None ["f"; "g"] (Some ["float"; "convert"]) None [(KWord, (OperList ["rd"])); (KSingle, (OperList ["rs1"]))] [];
  mkRaw (Some "fmv.x.w") None (Some "Rfloat") None (Some 0xe0000053) ["rm"; "rs2"] [] [] None None None ["f"; "g"] (Some ["float"; "move"]) None [(KLong, (OperList ["rd"])); (KSingle, (OperList ["rs1"]))] [];
  mkRaw (Some "fclass.s") None (Some "Rfloat") None (Some 0xe0001053) ["rm"; "rs2"] [] [] None None None ["f"; "g"] (Some ["float"; "classify"]) None [(KLong, (OperList ["rd"])); (KSingle, (OperList ["rs1"]))] [];
  mkRaw (Some "fcvt.s.w") None (Some "Rfloat") None (Some 0xd0000053) ["rs2"] [] [] None None None ["f"; "g"] (Some ["float"; "convert"]) None [(KWord, (OperList ["rs1"])); (KSingle, (OperList ["rd"]))] [];
  mkRaw (Some "fcvt.s.wu") None (Some "Rfloat") None (Some 0xd0100053) ["rs2"] [] [] None None None ["f"; "g"] (Some ["float"; "convert"]) None [(KWord, (OperList ["rs1"])); (KSingle, (OperList ["rd"]))] [];
  mkRaw (Some "fmv.w.x") None (Some "Rfloat") None (Some 0xf0000053) ["rm"; "rs2"] [] [] None None None ["f"; "g"] (Some ["float"; "move"]) None [(KLong, (OperList ["rs1"])); (KSingle, (OperList ["rd"]))] [];
  mkRaw (Some "flw") None (Some "VF_mem") (Some "I_load") (Some 0x2007) [] ["mewop"] [] None None None ["f"; "g"] (Some ["float"; "load"]) (Some 32) [(KLong, (OperList ["rs1"])); (KSingle, (OperList ["rd"]))] [];
  mkRaw (Some "fsw") None (Some "VF_mem") (Some "S") (Some 0x2027) [] ["mewop"] [] None None None ["f"; "g"] (Some ["float"; "store"]) (Some 32) [(KLong, (OperList ["rs1"])); (KSingle, (OperList ["rs2"]))] [];
  mkRaw (Some "fmadd.s") None (Some "R4") None (Some 0x43) [] [] [] None None None ["f"; "g"] (Some ["float"; "mac"]) None [(KSingle, OperAll)] [];
  mkRaw (Some "fmsub.s") None (Some "R4") None (Some 0x47) [] [] [] None None None ["f"; "g"] (Some ["float"; "mac"]) None [(KSingle, OperAll)] [];
  mkRaw (Some "fnmsub.s") None (Some "R4") None (Some 0x4b) [] [] [] None None None ["f"; "g"] (Some ["float"; "mac"]) None [(KSingle, OperAll)] [];
  mkRaw (Some "fnmadd.s") None (Some "R4") None (Some 0x4f) [] [] [] None None None ["f"; "g"] (Some ["float"; "mac"]) None [(KSingle, OperAll)] [];
  mkRaw (Some "fleq.s") None (Some "Rfloat") None (Some 0xa0004053) ["rm"] [] [] None None None ["f"; "zfa"] (Some ["float"; "arith"]) None [(KSingle, OperAll)] [];
  mkRaw (Some "fli.s") None (Some "Rfloat") None (Some 0xf0100053) ["rs2"; "rm"] [] [] None None None ["f"; "zfa"] (Some ["float"; "arith"]) None [(KSingle, OperAll)] [];
  mkRaw (Some "fltq.s") None (Some "Rfloat") None (Some 0xa0005053) ["rm"] [] [] None None None ["f"; "zfa"] (Some ["float"; "arith"]) None [(KSingle, OperAll)] [];
  mkRaw (Some "fmaxm.s") None (Some "Rfloat") None (Some 0x28003053) ["rm"] [] [] None None None ["f"; "zfa"] (Some ["float"; "arith"]) None [(KSingle, OperAll)] [];
  mkRaw (Some "fminm.s") None (Some "Rfloat") None (Some 0x28002053) ["rm"] [] [] None None None ["f"; "zfa"] (Some ["float"; "arith"]) None [(KSingle, OperAll)] [];
  mkRaw (Some "fround.s") None (Some "Rfloat") None (Some 0x40400053) ["rs2"] [] [] None None None ["f"; "zfa"] (Some ["float"; "arith"]) None [(KSingle, OperAll)] [];
  mkRaw (Some "froundnx.s") None (Some "Rfloat") None (Some 0x40500053) ["rs2"] [] [] None None None ["f"; "zfa"] (Some ["float"; "arith"]) None [(KSingle, OperAll)] []
].

(** json/isa_rv32i.json *)
Definition isa_rv32i : list raw := [
  mkRaw (Some "beq") None (Some "B") None (Some 0x63) [] [] [] None None None ["i"; "g"] (Some ["branch"; "cond"]) None [(KLong, OperAll)] [];
  mkRaw (Some "bne") None (Some "B") None (Some 0x1063) [] [] [] None None None ["i"; "g"] (Some ["branch"; "cond"]) None [(KLong, OperAll)] [];
  mkRaw (Some "blt") None (Some "B") None (Some 0x4063) [] [] [] None None None ["i"; "g"] (Some ["branch"; "cond"]) None [(KLong, OperAll)] [];
  mkRaw (Some "bge") None (Some "B") None (Some 0x5063) [] [] [] None None None ["i"; "g"] (Some ["branch"; "cond"]) None [(KLong, OperAll)] [];
  mkRaw (Some "bltu") None (Some "B") None (Some 0x6063) [] [] [] None None None ["i"; "g"] (Some ["branch"; "cond"]) None [(KLong, OperAll)] [];
  mkRaw (Some "bgeu") None (Some "B") None (Some 0x7063) [] [] [] None None None ["i"; "g"] (Some ["branch"; "cond"]) None [(KLong, OperAll)] [];
  mkRaw (Some "jalr") None (Some "I") None (Some 0x67) [] [] [] None None None ["i"; "g"] (Some ["branch"; "jalr"]) None [(KLong, OperAll)] [];
  mkRaw (Some "jal") None (Some "J") None (Some 0x6f) [] [] [] None None None ["i"; "g"] (Some ["branch"; "jal"]) None [(KLong, OperAll)] [];
  mkRaw (Some "lui") None (Some "U") None (Some 0x37) [] [] [] None None None ["i"; "g"] (Some ["int"; "arith"]) None [(KLong, OperAll)] [];
  mkRaw (Some "auipc") None (Some "U") None (Some 0x17) [] [] [] None None None ["i"; "g"] (Some ["int"; "arith"; "pc"]) None [(KLong, OperAll)] [];
  mkRaw (Some "addi") None (Some "ISH") (Some "I") (Some 0x13) [] ["func6"] [] None None None ["i"; "g"] (Some ["int"; "arith"]) None [(KLong, OperAll)] [];
  mkRaw (Some "li") None (Some "ISH") (Some "I") (Some 0x13) ["rs1"] ["func6"] [] None None None ["i"; "g"] (Some ["int"; "arith"]) None [(KLong, OperAll)] [];
  mkRaw (Some "nop") None None (Some "I") None [] [] [] None None (Some ((Some "li"), (Some [0xffffff80; 0x0]))) ["i"; "g"] (Some ["int"; "arith"]) None [] [];
  mkRaw (Some "mv") None None (Some "I_mv") None [] [] [] None None (Some ((Some "addi"), (Some [0xfff00000; 0x0]))) ["i"; "g"] (Some ["int"; "arith"; "move"]) None [] [];
  mkRaw (Some "slli") None (Some "ISHW") None (Some 0x1013) [] [] [] None None None ["i"; "g"] (Some ["int"; "arith"]) None [(KLong, OperAll)] [];
  mkRaw (Some "slti") None (Some "ISH") (Some "I") (Some 0x2013) [] ["func6"] [] None None None ["i"; "g"] (Some ["int"; "arith"]) None [(KLong, OperAll)] [];
  mkRaw (Some "sltiu") None (Some "ISH") (Some "I") (Some 0x3013) [] ["func6"] [] None None None ["i"; "g"] (Some ["int"; "arith"]) None [(KLong, OperAll)] [];
  mkRaw (Some "xori") None (Some "ISH") (Some "I") (Some 0x4013) [] ["func6"] [] None None None ["i"; "g"] (Some ["int"; "arith"]) None [(KLong, OperAll)] [];
  mkRaw (Some "srli") None (Some "ISHW") None (Some 0x5013) [] [] [] None None None ["i"; "g"] (Some ["int"; "arith"]) None [(KLong, OperAll)] [];
  mkRaw (Some "srai") None (Some "ISHW") None (Some 0x40005013) [] [] [] None None None ["i"; "g"] (Some ["int"; "arith"]) None [(KLong, OperAll)] [];
  mkRaw (Some "ori") None (Some "ISH") (Some "I") (Some 0x6013) [] ["func6"] [] None None None ["i"; "g"] (Some ["int"; "arith"]) None [(KLong, OperAll)] [];
  mkRaw (Some "andi") None (Some "ISH") (Some "I") (Some 0x7013) [] ["func6"] [] None None None ["i"; "g"] (Some ["int"; "arith"]) None [(KLong, OperAll)] [];
  mkRaw (Some "add") None (Some "R") None (Some 0x33) [] [] [] None None None ["i"; "g"] (Some ["int"; "arith"]) None [(KLong, OperAll)] [];
  mkRaw (Some "sub") None (Some "R") None (Some 0x40000033) [] [] [] None None None ["i"; "g"] (Some ["int"; "arith"]) None [(KLong, OperAll)] [];
  mkRaw (Some "sll") None (Some "R") None (Some 0x1033) [] [] [] None None None ["i"; "g"] (Some ["int"; "arith"]) None [(KLong, OperAll)] [];
  mkRaw (Some "slt") None (Some "R") None (Some 0x2033) [] [] [] None None None ["i"; "g"] (Some ["int"; "arith"]) None [(KLong, OperAll)] [];
  mkRaw (Some "sltu") None (Some "R") None (Some 0x3033) [] [] [] None None None ["i"; "g"] (Some ["int"; "arith"]) None [(KLong, OperAll)] [];
  mkRaw (Some "xor") None (Some "R") None (Some 0x4033) [] [] [] None None None ["i"; "g"] (Some ["int"; "arith"]) None [(KLong, OperAll)] [];
  mkRaw (Some "srl") None (Some "R") None (Some 0x5033) [] [] [] None None None ["i"; "g"] (Some ["int"; "arith"]) None [(KLong, OperAll)] [];
  mkRaw (Some "sra") None (Some "R") None (Some 0x40005033) [] [] [] None None None ["i"; "g"] (Some ["int"; "arith"]) None [(KLong, OperAll)] [];
  mkRaw (Some "or") None (Some "R") None (Some 0x6033) [] [] [] None None None ["i"; "g"] (Some ["int"; "arith"]) None [(KLong, OperAll)] [];
  mkRaw (Some "and") None (Some "R") None (Some 0x7033) [] [] [] None None None ["i"; "g"] (Some ["int"; "arith"]) None [(KLong, OperAll)] [];
  mkRaw (Some "lb") None (Some "I") (Some "I_load") (Some 0x3) [] [] [] None None None ["i"; "g"] (Some ["int"; "load"]) (Some 8) [(KLong, OperAll)] [];
  mkRaw (Some "lh") None (Some "I") (Some "I_load") (Some 0x1003) [] [] [] None None None ["i"; "g"] (Some ["int"; "load"]) (Some 16) [(KLong, OperAll)] [];
  mkRaw (Some "lw") None (Some "I") (Some "I_load") (Some 0x2003) [] [] [] None None None ["i"; "g"] (Some ["int"; "load"]) (Some 32) [(KLong, OperAll)] [];
  mkRaw (Some "lbu") None (Some "I") (Some "I_load") (Some 0x4003) [] [] [] None None None ["i"; "g"] (Some ["int"; "load"]) (Some 8) [(KLong, OperAll)] [];
  mkRaw (Some "lhu") None (Some "I") (Some "I_load") (Some 0x5003) [] [] [] None None None ["i"; "g"] (Some ["int"; "load"]) (Some 16) [(KLong, OperAll)] [];
  mkRaw (Some "sb") None (Some "S") None (Some 0x23) [] [] [] None None None ["i"; "g"] (Some ["int"; "store"]) (Some 8) [(KLong, OperAll)] [];
  mkRaw (Some "sh") None (Some "S") None (Some 0x1023) [] [] [] None None None ["i"; "g"] (Some ["int"; "store"]) (Some 16) [(KLong, OperAll)] [];
  mkRaw (Some "sw") None (Some "S") None (Some 0x2023) [] [] [] None None None ["i"; "g"] (Some ["int"; "store"]) (Some 32) [(KLong, OperAll)] [];
  mkRaw (Some "fence") None (Some "FENCE") None (Some 0xf) [] [] [] None None None ["i"; "g"] (Some ["fence"]) None [(KLong, OperAll)] [];
  mkRaw (Some "ecall") None (Some "R") None (Some 0x73) ["rs2"; "rs1"; "rd"] [] [] None None None ["i"; "g"] (Some ["int"; "system"]) None [(KLong, OperAll)] [];
  mkRaw (Some "ebreak") None (Some "R") None (Some 0x100073) ["rs2"; "rs1"; "rd"] [] [] None None None ["i"; "g"] (Some ["int"; "system"]) None [(KLong, OperAll)] [];
  mkRaw (Some "uret") None (Some "R") None (Some 0x200073) ["rs2"; "rs1"; "rd"] [] [] None None None ["i"; "g"] (Some ["system"]) None [] [];
  mkRaw (Some "sret") None (Some "R") None (Some 0x10200073) ["rs2"; "rs1"; "rd"] [] [] None None None ["i"; "g"] (Some ["system"]) None [] [];
  mkRaw (Some "mret") None (Some "R") None (Some 0x30200073) ["rs2"; "rs1"; "rd"] [] [] None None None ["i"; "g"] (Some ["system"]) None [] [];
  mkRaw (Some "dret") None (Some "R") None (Some 0x7b200073) ["rs2"; "rs1"; "rd"] [] [] None None None ["i"; "g"] (Some ["system"]) None [] [];
  mkRaw (Some "sfence.vma") None (Some "R") None (Some 0x12000073) ["rd"] [] [] None None None ["i"; "g"] (Some ["fence"; "system"]) None [(KLong, OperAll)] [];
  mkRaw (Some "wfi") None (Some "R") None (Some 0x10500073) ["rs2"; "rs1"; "rd"] [] [] None None None ["i"; "g"] (Some ["system"]) None [] [];
  mkRaw (Some "cflush.d.l1") None (Some "R") None (Some 0xfc000073) ["rd"; "rs2"] [] [] None None None ["i"; "g"] (Some ["cache"; "system"]) None [(KLong, (OperList ["rs1"]))] [];
  mkRaw (Some "cdiscard.d.l1") None (Some "R") None (Some 0xfc200073) ["rd"; "rs2"] [] [] None None None ["i"; "g"] (Some ["cache"; "system"]) None [] [];
  mkRaw (Some "cflush.i.l1") None (Some "R") None (Some 0xfc100073) ["rd"; "rs2"] [] [] None None None ["i"; "g"] (Some ["cache"; "system"]) None [] []
].

(** json/isa_rv32m.json *)
Definition isa_rv32m : list raw := [
  mkRaw (Some "mul") None (Some "R") None (Some 0x2000033) [] [] [] None None None ["m"; "g"] (Some ["int"; "mul"]) None [(KLong, OperAll)] [];
  mkRaw (Some "mulh") None (Some "R") None (Some 0x2001033) [] [] [] None None None ["m"; "g"] (Some ["int"; "mul"]) None [(KLong, OperAll)] [];
  mkRaw (Some "mulhsu") None (Some "R") None (Some 0x2002033) [] [] [] None None None ["m"; "g"] (Some ["int"; "mul"]) None [(KLong, OperAll)] [];
  mkRaw (Some "mulhu") None (Some "R") None (Some 0x2003033) [] [] [] None None None ["m"; "g"] (Some ["int"; "mul"]) None [(KLong, OperAll)] [];
  mkRaw (Some "div") None (Some "R") None (Some 0x2004033) [] [] [] None None None ["m"; "g"] (Some ["int"; "div"]) None [(KLong, OperAll)] [];
  mkRaw (Some "divu") None (Some "R") None (Some 0x2005033) [] [] [] None None None ["m"; "g"] (Some ["int"; "div"]) None [(KLong, OperAll)] [];
  mkRaw (Some "rem") None (Some "R") None (Some 0x2006033) [] [] [] None None None ["m"; "g"] (Some ["int"; "div"]) None [(KLong, OperAll)] [];
  mkRaw (Some "remu") None (Some "R") None (Some 0x2007033) [] [] [] None None None ["m"; "g"] (Some ["int"; "div"]) None [(KLong, OperAll)] []
].

(** json/isa_rv32zawrs.json *)
Definition isa_rv32zawrs : list raw := [
  mkRaw (Some "wrs.nto") None (Some "R") None (Some 0xd00073) ["rs2"; "rs1"; "rd"] [] [] None None None ["zawrs"] (Some ["system"]) None [] [];
  mkRaw (Some "wrs.sto") None (Some "R") None (Some 0x1d00073) ["rs2"; "rs1"; "rd"] [] [] None None None ["zawrs"] (Some ["system"]) None [] []
].

(** json/isa_rv32zba.json *)
Definition isa_rv32zba : list raw := [
  mkRaw (Some "sh1add") None (Some "R") None (Some 0x20002033) [] [] [] None None None ["zba"; "b"] (Some ["int"; "arith"]) None [(KLong, OperAll)] [(None, "B")];
  mkRaw (Some "sh2add") None (Some "R") None (Some 0x20004033) [] [] [] None None None ["zba"; "b"] (Some ["int"; "arith"]) None [(KLong, OperAll)] [(None, "B")];
  mkRaw (Some "sh3add") None (Some "R") None (Some 0x20006033) [] [] [] None None None ["zba"; "b"] (Some ["int"; "arith"]) None [(KLong, OperAll)] [(None, "B")]
].

(** json/isa_rv32zbb.json *)
Definition isa_rv32zbb : list raw := [
  mkRaw (Some "andn") None (Some "R") None (Some 0x40007033) [] [] [] None None None ["zbb"; "b"] (Some ["int"; "arith"]) None [(KLong, OperAll)] [(None, "B")];
  mkRaw (Some "orn") None (Some "R") None (Some 0x40006033) [] [] [] None None None ["zbb"; "b"] (Some ["int"; "arith"]) None [(KLong, OperAll)] [(None, "B")];
  mkRaw (Some "xnor") None (Some "R") None (Some 0x40004033) [] [] [] None None None ["zbb"; "b"] (Some ["int"; "arith"]) None [(KLong, OperAll)] [(None, "B")];
  mkRaw (Some "clz") None (Some "ISHW") None (Some 0x60001013) ["shamtw"] [] [] None None None ["zbb"; "b"] (Some ["int"; "arith"]) None [(KLong, OperAll)] [(None, "B")];
  mkRaw (Some "ctz") None (Some "ISHW") None (Some 0x60101013) ["shamtw"] [] [] None None None ["zbb"; "b"] (Some ["int"; "arith"]) None [(KLong, OperAll)] [(None, "B")];
  mkRaw (Some "cpop") None (Some "ISHW") None (Some 0x60201013) ["shamtw"] [] [] None None None ["zbb"; "b"] (Some ["int"; "arith"]) None [(KLong, OperAll)] [(None, "B")];
  mkRaw (Some "max") None (Some "R") None (Some 0xa006033) [] [] [] None None None ["zbb"; "b"] (Some ["int"; "arith"]) None [(KLong, OperAll)] [(None, "B")];
  mkRaw (Some "maxu") None (Some "R") None (Some 0xa007033) [] [] [] None None None ["zbb"; "b"] (Some ["int"; "arith"]) None [(KLong, OperAll)] [(None, "B")];
  mkRaw (Some "min") None (Some "R") None (Some 0xa004033) [] [] [] None None None ["zbb"; "b"] (Some ["int"; "arith"]) None [(KLong, OperAll)] [(None, "B")];
  mkRaw (Some "minu") None (Some "R") None (Some 0xa005033) [] [] [] None None None ["zbb"; "b"] (Some ["int"; "arith"]) None [(KLong, OperAll)] [(None, "B")];
  mkRaw (Some "sext.b") None (Some "ISHW") None (Some 0x60401013) ["shamtw"] [] [] None None None ["zbb"; "b"] (Some ["int"; "arith"]) None [(KLong, OperAll)] [(None, "B")];
  mkRaw (Some "sext.h") None (Some "ISHW") None (Some 0x60501013) ["shamtw"] [] [] None None None ["zbb"; "b"] (Some ["int"; "arith"]) None [(KLong, OperAll)] [(None, "B")];
  mkRaw (Some "pack") None (Some "R") None (Some 0x8004033) [] [] [] None None None ["zbb"; "b"] (Some ["int"; "arith"]) None [(KLong, OperAll)] [(None, "B")];
  mkRaw (Some "packw") None (Some "R") None (Some 0x800403b) [] [] [] None None None ["zbb"; "b"] (Some ["int"; "arith"]) None [(KLong, OperAll)] [(None, "B")];
  mkRaw (Some "packu") None (Some "R") None (Some 0x48004033) [] [] [] None None None ["zbb"; "b"] (Some ["int"; "arith"]) None [(KLong, OperAll)] [(None, "B")];
  mkRaw (Some "packuw") None (Some "R") None (Some 0x4800403b) [] [] [] None None None ["zbb"; "b"] (Some ["int"; "arith"]) None [(KLong, OperAll)] [(None, "B")];
  mkRaw (Some "rol") None (Some "R") None (Some 0x60001033) [] [] [] None None None ["zbb"; "b"] (Some ["int"; "arith"]) None [(KLong, OperAll)] [(None, "B")];
  mkRaw (Some "ror") None (Some "R") None (Some 0x60005033) [] [] [] None None None ["zbb"; "b"] (Some ["int"; "arith"]) None [(KLong, OperAll)] [(None, "B")];
  mkRaw (Some "rori") None (Some "ISHW") None (Some 0x60005013) [] [] [] None None None ["zbb"; "b"] (Some ["int"; "arith"]) None [(KLong, OperAll)] [(None, "B")];
  mkRaw (Some "gorci") None (Some "ISHW") None (Some 0x28005013) [] [] [] None None None ["zbb"; "b"] (Some ["int"; "arith"]) None [(KLong, OperAll)] [(None, "B")];
  mkRaw (Some "grevi") None (Some "ISHW") None (Some 0x68005013) [] [] [] None None None ["zbb"; "b"] (Some ["int"; "arith"]) None [(KLong, OperAll)] [(None, "B")]
].

(** json/isa_rv32zbc.json *)
Definition isa_rv32zbc : list raw := [
  mkRaw (Some "clmul") None (Some "R") None (Some 0xa001033) [] [] [] None None None ["zbc"; "b"] (Some ["int"; "arith"]) None [(KLong, OperAll)] [(None, "B")];
  mkRaw (Some "clmulh") None (Some "R") None (Some 0xa003033) [] [] [] None None None ["zbc"; "b"] (Some ["int"; "arith"]) None [(KLong, OperAll)] [(None, "B")];
  mkRaw (Some "clmulr") None (Some "R") None (Some 0xa002033) [] [] [] None None None ["zbc"; "b"] (Some ["int"; "arith"]) None [(KLong, OperAll)] [(None, "B")]
].

(** json/isa_rv32zbs.json *)
Definition isa_rv32zbs : list raw := [
  mkRaw (Some "bclr") None (Some "R") None (Some 0x48001033) [] [] [] None None None ["zbs"; "b"] (Some ["int"; "arith"]) None [(KLong, OperAll)] [(None, "B")];
  mkRaw (Some "bclri") None (Some "ISHW") None (Some 0x48001013) [] [] [] None None None ["zbs"; "b"] (Some ["int"; "arith"]) None [(KLong, OperAll)] [(None, "B")];
  mkRaw (Some "bext") None (Some "R") None (Some 0x48005033) [] [] [] None None None ["zbs"; "b"] (Some ["int"; "arith"]) None [(KLong, OperAll)] [(None, "B")];
  mkRaw (Some "bexti") None (Some "ISHW") None (Some 0x48005013) [] [] [] None None None ["zbs"; "b"] (Some ["int"; "arith"]) None [(KLong, OperAll)] [(None, "B")];
  mkRaw (Some "binv") None (Some "R") None (Some 0x68001033) [] [] [] None None None ["zbs"; "b"] (Some ["int"; "arith"]) None [(KLong, OperAll)] [(None, "B")];
  mkRaw (Some "binvi") None (Some "ISHW") None (Some 0x68001013) [] [] [] None None None ["zbs"; "b"] (Some ["int"; "arith"]) None [(KLong, OperAll)] [(None, "B")];
  mkRaw (Some "bset") None (Some "R") None (Some 0x28001033) [] [] [] None None None ["zbs"; "b"] (Some ["int"; "arith"]) None [(KLong, OperAll)] [(None, "B")];
  mkRaw (Some "bseti") None (Some "ISHW") None (Some 0x28001013) [] [] [] None None None ["zbs"; "b"] (Some ["int"; "arith"]) None [(KLong, OperAll)] [(None, "B")]
].

(** json/isa_rv32zcb.json *)
Definition isa_rv32zcb : list raw := [
  mkRaw (Some "c.lbu") None (Some "C0") (Some "C0_load_byte") (Some 0x8000) ["imm3"] ["func2A"] [] None (Some "lbu") None ["zcb"] None None [] [];
  mkRaw (Some "c.lh") None (Some "C0") (Some "C0_load_half") (Some 0x8440) ["imm3"] [] [] None (Some "lh") None ["zcb"] None None [] [];
  mkRaw (Some "c.lhu") None (Some "C0") (Some "C0_load_half") (Some 0x8400) ["imm3"] [] [] None (Some "lhu") None ["zcb"] None None [] [];
  mkRaw (Some "c.sb") None (Some "C0") (Some "C0_store_byte") (Some 0x8800) ["imm3"] ["func2A"] [] None (Some "sb") None ["zcb"] None None [] [];
  mkRaw (Some "c.sh") None (Some "C0") (Some "C0_store_half") (Some 0x8c00) ["imm3"] [] [] None (Some "sh") None ["zcb"] None None [] [];
  mkRaw (Some "c.zext.b") None (Some "C1") (Some "C1_rsd_I0xFF") (Some 0x9c61) ["rs2"] [] [] None (Some "andi") None ["zcb"] None None [] [];
  mkRaw (Some "c.sext.b") None (Some "C1") (Some "C1_rsd") (Some 0x9c65) ["rs2"] [] [] None (Some "sext.b") None ["zcb"] None None [] [];
  mkRaw (Some "c.zext.h") None (Some "C1") (Some "C1_rsd_zext_I0") (Some 0x9c69) ["rs2"] [] [] None (Some "packw") None ["zcb"] None None [] [];
  mkRaw (Some "c.sext.h") None (Some "C1") (Some "C1_rsd") (Some 0x9c6d) ["rs2"] [] [] None (Some "sext.h") None ["zcb"] None None [] [];
  mkRaw (Some "c.not") None (Some "C1") (Some "C1_rsd_Ineg1") (Some 0x9c75) ["rs2"] [] [] None (Some "xori") None ["zcb"] None None [] [];
  mkRaw (Some "c.mul") None (Some "C1") (Some "CA") (Some 0x9c41) [] [] [] None (Some "mul") None ["zcb"] None None [] []
].

(** json/isa_rv32zclsd.json *)
Definition isa_rv32zclsd : list raw := [
  mkRaw (Some "c.ld") None (Some "C0") (Some "C0_load_word_pair") (Some 0x6000) [] ["func2A"] [] None (Some "ld") None ["c"] None None [] [];
  mkRaw (Some "c.ldsp") None (Some "C2") (Some "C2_sp_load_word_pair") (Some 0x6002) [] ["func1"] [] None (Some "ld") None ["c"] None None [] [];
  mkRaw (Some "c.sd") None (Some "C0") (Some "C0_store_word_pair") (Some 0xe000) [] ["func2A"] [] None (Some "sd") None ["c"] None None [] [];
  mkRaw (Some "c.sdsp") None (Some "C2") (Some "C2_sp_store_word_pair") (Some 0xe002) [] ["func1"] [] None (Some "sd") None ["c"] None None [] []
].

(** json/isa_rv32zicond.json *)
Definition isa_rv32zicond : list raw := [
  mkRaw (Some "czero.eqz") None (Some "R") None (Some 0xe005033) [] [] [] None None None ["zicond"] (Some ["int"; "arith"]) None [(KLong, OperAll)] [];
  mkRaw (Some "czero.nez") None (Some "R") None (Some 0xe007033) [] [] [] None None None ["zicond"] (Some ["int"; "arith"]) None [(KLong, OperAll)] []
].

(** json/isa_rv32zicsr.json *)
Definition isa_rv32zicsr : list raw := [
  mkRaw (Some "csrrw") None (Some "R") (Some "CSR") (Some 0x1073) [] ["func7"] [] (Some "csr") None None ["zicsr"; "g"] (Some ["csr"; "system"]) None [(KLong, OperAll)] [];
  mkRaw (Some "csrrs") None (Some "R") (Some "CSR") (Some 0x2073) [] ["func7"] [] (Some "csr") None None ["zicsr"; "g"] (Some ["csr"; "system"]) None [(KLong, OperAll)] [];
  mkRaw (Some "csrrc") None (Some "R") (Some "CSR") (Some 0x3073) [] ["func7"] [] (Some "csr") None None ["zicsr"; "g"] (Some ["csr"; "system"]) None [(KLong, OperAll)] [];
  mkRaw (Some "csrrwi") None (Some "R") (Some "CSRI") (Some 0x5073) [] ["func7"] [] (Some "csr") None None ["zicsr"; "g"] (Some ["csr"; "system"]) None [(KLong, OperAll)] [];
  mkRaw (Some "csrrsi") None (Some "R") (Some "CSRI") (Some 0x6073) [] ["func7"] [] (Some "csr") None None ["zicsr"; "g"] (Some ["csr"; "system"]) None [(KLong, OperAll)] [];
  mkRaw (Some "csrrci") None (Some "R") (Some "CSRI") (Some 0x7073) [] ["func7"] [] (Some "csr") None None ["zicsr"; "g"] (Some ["csr"; "system"]) None [(KLong, OperAll)] []
].

(** json/isa_rv32zifencei.json *)
Definition isa_rv32zifencei : list raw := [
  mkRaw (Some "fence.i") None (Some "FENCE") (Some "I") (Some 0x100f) [] [] [] None None None ["zifencei"; "g"] (Some ["fence"]) None [(KLong, OperAll)] []
].

(** json/isa_rv32zihintpause.json *)
Definition isa_rv32zihintpause : list raw := [
  mkRaw (Some "pause") None (Some "FENCE") None (Some 0x100000f) ["rs1"; "rd"] [] [] None None (Some ((Some "fence"), (Some [0xffff8f80; 0x1000000]))) ["zihintpause"] (Some ["fence"]) None [] []
].

(** json/isa_rv32zilsd.json *)
Definition isa_rv32zilsd : list raw := [
  mkRaw (Some "ld") None (Some "I") (Some "I_load_pair") (Some 0x3003) [] [] [] None None None ["i"; "g"] (Some ["int"; "load"]) (Some 64) [(KLong, OperAll)] [];
  mkRaw (Some "sd") None (Some "S") (Some "S_pair") (Some 0x3023) [] [] [] None None None ["i"; "g"] (Some ["int"; "store"]) (Some 64) [(KLong, OperAll)] []
].

(** json/isa_rv64a.json *)
Definition isa_rv64a : list raw := [
  mkRaw (Some "amoadd.w") None (Some "AMO") None (Some 0x202f) [] [] [] None None None ["a"; "g"] (Some ["int"; "load"; "atomic"]) (Some 32) [(KLong, OperAll)] [];
  mkRaw (Some "amoxor.w") None (Some "AMO") None (Some 0x2000202f) [] [] [] None None None ["a"; "g"] (Some ["int"; "load"; "atomic"]) (Some 32) [(KLong, OperAll)] [];
  mkRaw (Some "amoor.w") None (Some "AMO") None (Some 0x4000202f) [] [] [] None None None ["a"; "g"] (Some ["int"; "load"; "atomic"]) (Some 32) [(KLong, OperAll)] [];
  mkRaw (Some "amoand.w") None (Some "AMO") None (Some 0x6000202f) [] [] [] None None None ["a"; "g"] (Some ["int"; "load"; "atomic"]) (Some 32) [(KLong, OperAll)] [];
  mkRaw (Some "amomin.w") None (Some "AMO") None (Some 0x8000202f) [] [] [] None None None ["a"; "g"] (Some ["int"; "load"; "atomic"]) (Some 32) [(KLong, OperAll)] [];
  mkRaw (Some "amomax.w") None (Some "AMO") None (Some 0xa000202f) [] [] [] None None None ["a"; "g"] (Some ["int"; "load"; "atomic"]) (Some 32) [(KLong, OperAll)] [];
  mkRaw (Some "amominu.w") None (Some "AMO") None (Some 0xc000202f) [] [] [] None None None ["a"; "g"] (Some ["int"; "load"; "atomic"]) (Some 32) [(KLong, OperAll)] [];
  mkRaw (Some "amomaxu.w") None (Some "AMO") None (Some 0xe000202f) [] [] [] None None None ["a"; "g"] (Some ["int"; "load"; "atomic"]) (Some 32) [(KLong, OperAll)] [];
  mkRaw (Some "amoswap.w") None (Some "AMO") None (Some 0x800202f) [] [] [] None None None ["a"; "g"] (Some ["int"; "load"; "atomic"]) (Some 32) [(KLong, OperAll)] [];
  mkRaw (Some "lr.w") None (Some "AMO") None (Some 0x1000202f) ["rs2"] [] [] None None None ["a"; "g"] (Some ["int"; "load"; "atomic"]) (Some 32) [(KLong, OperAll)] [];
  mkRaw (Some "sc.w") None (Some "AMO") None (Some 0x1800202f) [] [] [] None None None ["a"; "g"] (Some ["int"; "store"; "atomic"]) (Some 32) [(KLong, OperAll)] [];
  mkRaw (Some "amoadd.d") None (Some "AMO") None (Some 0x302f) [] [] [] None None None ["a"; "g"] (Some ["int"; "load"; "atomic"]) (Some 64) [(KLong, OperAll)] [];
  mkRaw (Some "amoxor.d") None (Some "AMO") None (Some 0x2000302f) [] [] [] None None None ["a"; "g"] (Some ["int"; "load"; "atomic"]) (Some 64) [(KLong, OperAll)] [];
  mkRaw (Some "amoor.d") None (Some "AMO") None (Some 0x4000302f) [] [] [] None None None ["a"; "g"] (Some ["int"; "load"; "atomic"]) (Some 64) [(KLong, OperAll)] [];
  mkRaw (Some "amoand.d") None (Some "AMO") None (Some 0x6000302f) [] [] [] None None None ["a"; "g"] (Some ["int"; "load"; "atomic"]) (Some 64) [(KLong, OperAll)] [];
  mkRaw (Some "amomin.d") None (Some "AMO") None (Some 0x8000302f) [] [] [] None None None ["a"; "g"] (Some ["int"; "load"; "atomic"]) (Some 64) [(KLong, OperAll)] [];
  mkRaw (Some "amomax.d") None (Some "AMO") None (Some 0xa000302f) [] [] [] None None None ["a"; "g"] (Some ["int"; "load"; "atomic"]) (Some 64) [(KLong, OperAll)] [];
  mkRaw (Some "amominu.d") None (Some "AMO") None (Some 0xc000302f) [] [] [] None None None ["a"; "g"] (Some ["int"; "load"; "atomic"]) (Some 64) [(KLong, OperAll)] [];
  mkRaw (Some "amomaxu.d") None (Some "AMO") None (Some 0xe000302f) [] [] [] None None None ["a"; "g"] (Some ["int"; "load"; "atomic"]) (Some 64) [(KLong, OperAll)] [];
  mkRaw (Some "amoswap.d") None (Some "AMO") None (Some 0x800302f) [] [] [] None None None ["a"; "g"] (Some ["int"; "load"; "atomic"]) (Some 64) [(KLong, OperAll)] [];
  mkRaw (Some "lr.d") None (Some "AMO") None (Some 0x1000302f) ["rs2"] [] [] None None None ["a"; "g"] (Some ["int"; "load"; "atomic"]) (Some 64) [(KLong, OperAll)] [];
  mkRaw (Some "sc.d") None (Some "AMO") None (Some 0x1800302f) [] [] [] None None None ["a"; "g"] (Some ["int"; "store"; "atomic"]) (Some 64) [(KLong, OperAll)] []
].

(** json/isa_rv64c.json *)
Definition isa_rv64c : list raw := [
  mkRaw (Some "c.addi4spn") None (Some "C0") (Some "CIW_sp") (Some 0x0) [] ["func2A"] [] None (Some "addi") None ["c"] None None [] [];
  mkRaw (Some "c.lw") None (Some "C0") (Some "C0_load_word") (Some 0x4000) [] ["func2A"] [] None (Some "lw") None ["c"] None None [] [];
  mkRaw (Some "c.ld") None (Some "C0") (Some "C0_load_double") (Some 0x6000) [] ["func2A"] [] None (Some "ld") None ["c"] None None [] [];
  mkRaw (Some "c.sw") None (Some "C0") (Some "C0_store_word") (Some 0xc000) [] ["func2A"] [] None (Some "sw") None ["c"] None None [] [];
  mkRaw (Some "c.sd") None (Some "C0") (Some "C0_store_double") (Some 0xe000) [] ["func2A"] [] None (Some "sd") None ["c"] None None [] [];
  mkRaw (Some "c.addi") None (Some "C1") (Some "CI_addi") (Some 0x1) [] ["func2"; "func1"; "func2b"] [] None (Some "addi") None ["c"] None None [] [];
  mkRaw (Some "c.nop") None (Some "C1") (Some "CI_addi") (Some 0x1) ["rs1"] ["func1"; "func2b"] [] None (Some "nop") None ["c"] None None [] [];
  mkRaw (Some "c.addi16sp") None (Some "C1") (Some "CI_sp") (Some 0x6101) ["rs1"] ["func1"; "func2b"] [] None (Some "addi") None ["c"] None None [] [];
  mkRaw (Some "c.jr") None (Some "C2") (Some "CJR") (Some 0x8002) ["rs2"] [] [] None (Some "jalr") None ["c"] None None [] [];
  mkRaw (Some "c.addiw") None (Some "C1") (Some "CI_addiw") (Some 0x2001) [] ["func2"; "func1"; "func2b"] [] None (Some "addiw") None ["c"] None None [] [];
  mkRaw (Some "c.jalr") None (Some "C2") (Some "CJALR") (Some 0x9002) ["rs2"] [] [] None (Some "jalr") None ["c"] None None [] [];
  mkRaw (Some "c.li") None (Some "C1") (Some "CI_rD_only") (Some 0x4001) [] ["func2"; "func1"; "func2b"] [] None (Some "li") None ["c"] None None [] [];
  mkRaw (Some "c.lui") None (Some "C1") (Some "CI_rD_shifted") (Some 0x6001) [] ["func2"; "func1"; "func2b"] [] None (Some "lui") None ["c"] None None [] [];
  mkRaw (Some "c.srli") None (Some "C1") (Some "CIX") (Some 0x8001) [] ["func1"; "func2b"] [] None (Some "srli") None ["c"] None None [] [];
  mkRaw (Some "c.srai") None (Some "C1") (Some "CIX") (Some 0x8401) [] ["func1"; "func2b"] [] None (Some "srai") None ["c"] None None [] [];
  mkRaw (Some "c.andi") None (Some "C1") (Some "CIX_andi") (Some 0x8801) [] ["func1"; "func2b"] [] None (Some "andi") None ["c"] None None [] [];
  mkRaw (Some "c.sub") None (Some "C1") (Some "CA") (Some 0x8c01) [] [] [] None (Some "sub") None ["c"] None None [] [];
  mkRaw (Some "c.xor") None (Some "C1") (Some "CA") (Some 0x8c21) [] [] [] None (Some "xor") None ["c"] None None [] [];
  mkRaw (Some "c.or") None (Some "C1") (Some "CA") (Some 0x8c41) [] [] [] None (Some "or") None ["c"] None None [] [];
  mkRaw (Some "c.and") None (Some "C1") (Some "CA") (Some 0x8c61) [] [] [] None (Some "and") None ["c"] None None [] [];
  mkRaw (Some "c.subw") None (Some "C1") (Some "CA") (Some 0x9c01) [] [] [] None (Some "subw") None ["c"] None None [] [];
  mkRaw (Some "c.addw") None (Some "C1") (Some "CA") (Some 0x9c21) [] [] [] None (Some "addw") None ["c"] None None [] [];
  mkRaw (Some "c.j") None (Some "C1") (Some "CJ") (Some 0xa001) [] ["func2"; "func1"; "func2b"] [] None (Some "jal") None ["c"] None None [] [];
  mkRaw (Some "c.beqz") None (Some "C1") (Some "CB") (Some 0xc001) [] ["func2"; "func1"; "func2b"] [] None (Some "beq") None ["c"] None None [] [];
  mkRaw (Some "c.bnez") None (Some "C1") (Some "CB") (Some 0xe001) [] ["func2"; "func1"; "func2b"] [] None (Some "bne") None ["c"] None None [] [];
  mkRaw (Some "c.slli") None (Some "C2") (Some "C2_slli") (Some 0x2) [] ["func1"] [] None (Some "slli") None ["c"] None None [] [];
  mkRaw (Some "c.lwsp") None (Some "C2") (Some "C2_sp_load_word") (Some 0x4002) [] ["func1"] [] None (Some "lw") None ["c"] None None [] [];
  mkRaw (Some "c.ldsp") None (Some "C2") (Some "C2_sp_load_double") (Some 0x6002) [] ["func1"] [] None (Some "ld") None ["c"] None None [] [];
  mkRaw (Some "c.mv") None (Some "C2") (Some "C2_mv") (Some 0x8002) [] [] [] None (Some "add") None ["c"] (Some ["move"]) None [] [];
  mkRaw (Some "c.ebreak") None (Some "C2") None (Some 0x9002) ["rs1"; "rs2"] [] [] None (Some "ebreak") None ["c"] None None [] [];
  mkRaw (Some "c.add") None (Some "C2") (Some "C2_add") (Some 0x9002) [] [] [] None (Some "add") None ["c"] None None [] [];
  mkRaw (Some "c.swsp") None (Some "C2") (Some "C2_sp_store_word") (Some 0xc002) [] ["func1"] [] None (Some "sw") None ["c"] None None [] [];
  mkRaw (Some "c.sdsp") None (Some "C2") (Some "C2_sp_store_double") (Some 0xe002) [] ["func1"] [] None (Some "sd") None ["c"] None None [] []
].

(** json/isa_rv64cd.json *)
Definition isa_rv64cd : list raw := [
  mkRaw (Some "c.fld") None (Some "C0") (Some "C0_load_double") (Some 0x2000) [] ["func2A"] [] None (Some "fld") None ["cd"] None None [] [];
  mkRaw (Some "c.fsd") None (Some "C0") (Some "C0_store_double") (Some 0xa000) [] ["func2A"] [] None (Some "fsd") None ["cd"] None None [] [];
  mkRaw (Some "c.fldsp") None (Some "C2") (Some "C2_sp_load_float_double") (Some 0x2002) [] ["func1"] [] None (Some "fld") None ["cd"] None None [] [];
  mkRaw (Some "c.fsdsp") None (Some "C2") (Some "C2_sp_store_double") (Some 0xa002) [] ["func1"] [] None (Some "fsd") None ["cd"] None None [] []
].

(** json/isa_rv64cf.json *)
Definition isa_rv64cf : list raw := [

].

(** json/isa_rv64d.json *)
Definition isa_rv64d : list raw := [
  mkRaw (Some "fadd.d") None (Some "Rfloat") None (Some 0x2000053) [] [] [] None None None ["d"; "g"] (Some ["float"; "arith"]) None [(KDouble, OperAll)] [];
  mkRaw (Some "fsub.d") None (Some "Rfloat") None (Some 0xa000053) [] [] [] None None None ["d"; "g"] (Some ["float"; "arith"]) None [(KDouble, OperAll)] [];
  mkRaw (Some "fmul.d") None (Some "Rfloat") None (Some 0x12000053) [] [] [] None None None ["d"; "g"] (Some ["float"; "mul"]) None [(KDouble, OperAll)] [];
  mkRaw (Some "fdiv.d") None (Some "Rfloat") None (Some 0x1a000053) [] [] [] None None None ["d"; "g"] (Some ["float"; "div"]) None [(KDouble, OperAll)] [];
  mkRaw (Some "fsgnj.d") None (Some "Rfloat") None (Some 0x22000053) ["rm"] [] [] None None None ["d"; "g"] (Some ["float"; "move"]) None [(KDouble, OperAll)] [];
  mkRaw (Some "fsgnjn.d") None (Some "Rfloat") None (Some 0x22001053) ["rm"] [] [] None None None ["d"; "g"] (Some ["float"; "arith"]) None [(KDouble, OperAll)] [];
  mkRaw (Some "fsgnjx.d") None (Some "Rfloat") None (Some 0x22002053) ["rm"] [] [] None None None ["d"; "g"] (Some ["float"; "arith"]) None [(KDouble, OperAll)] [];
  mkRaw (Some "fmin.d") None (Some "Rfloat") None (Some 0x2a000053) ["rm"] [] [] None None None ["d"; "g"] (Some ["float"; "arith"]) None [(KDouble, OperAll)] [];
  mkRaw (Some "fmax.d") None (Some "Rfloat") None (Some 0x2a001053) ["rm"] [] [] None None None ["d"; "g"] (Some ["float"; "arith"]) None [(KDouble, OperAll)] [];
  mkRaw (Some "fcvt.s.d") None (Some "Rfloat") None (Some 0x40100053) ["rs2"] [] [] None None None ["d"; "g"] (Some ["float"; "convert"]) None [(KSingle, (OperList ["rd"])); (KDouble, (OperList ["rs1"]))] [];
  mkRaw (Some "fcvt.d.s") None (Some "Rfloat") None (Some 0x42000053) ["rs2"] [] [] None None None ["d"; "g"] (Some ["float"; "convert"]) None [(KSingle, (OperList ["rs1"])); (KDouble, (OperList ["rd"]))] [];
  mkRaw (Some "fsqrt.d") None (Some "Rfloat") None (Some 0x5a000053) ["rs2"] [] [] None None None ["d"; "g"] (Some ["float"; "sqrt"]) None [(KDouble, OperAll)] [];
  mkRaw (Some "fle.d") None (Some "Rfloat") None (Some 0xa2000053) ["rm"] [] [] None None None ["d"; "g"] (Some ["float"; "compare"]) None [(KWord, (OperList ["rd"])); (KDouble, (OperList ["rs1"; "rs2"]))] [];
  mkRaw (Some "flt.d") None (Some "Rfloat") None (Some 0xa2001053) ["rm"] [] [] None None None ["d"; "g"] (Some ["float"; "compare"]) None [(KWord, (OperList ["rd"])); (KDouble, (OperList ["rs1"; "rs2"]))] [];
  mkRaw (Some "feq.d") None (Some "Rfloat") None (Some 0xa2002053) ["rm"] [] [] None None None ["d"; "g"] (Some ["float"; "compare"]) None [(KWord, (OperList ["rd"])); (KDouble, (OperList ["rs1"; "rs2"]))] [];
  mkRaw (Some "fcvt.w.d") None (Some "Rfloat") None (Some 0xc2000053) ["rs2"] [] [] None None None ["d"; "g"] (Some ["float"; "convert"]) None [(KWord, (OperList ["rd"])); (KDouble, (OperList ["rs1"]))] [];
  mkRaw (Some "fcvt.wu.d") None (Some "Rfloat") None (Some 0xc2100053) ["rs2"] [] [] None None None ["d"; "g"] (Some ["float"; "convert"]) None [(KWord, (OperList ["rd"])); (KDouble, (OperList ["rs1"]))] [];
  mkRaw (Some "fcvt.l.d") None (Some "Rfloat") None (Some 0xc2200053) ["rs2"] [] [] None None None ["d"; "g"] (Some ["float"; "convert"]) None [(KLong, (OperList ["rd"])); (KDouble, (OperList ["rs1"]))] [];
  mkRaw (Some "fcvt.lu.d") None (Some "Rfloat") None (Some 0xc2300053) ["rs2"] [] [] None None None ["d"; "g"] (Some ["float"; "convert"]) None [(KLong, (OperList ["rd"])); (KDouble, (OperList ["rs1"]))] [];
  mkRaw (Some "fmv.x.d") None (Some "Rfloat") None (Some 0xe2000053) ["rm"; "rs2"] [] [] None None None ["d"; "g"] (Some ["float"; "move"]) None [(KLong, (OperList ["rd"])); (KDouble, (OperList ["rs1"]))] [];
  mkRaw (Some "fclass.d") None (Some "Rfloat") None (Some 0xe2001053) ["rm"; "rs2"] [] [] None None None ["d"; "g"] (Some ["float"; "classify"]) None [(KLong, (OperList ["rd"])); (KDouble, (OperList ["rs1"]))] [];
  mkRaw (Some "fcvt.d.w") None (Some "Rfloat") None (Some 0xd2000053) ["rs2"] [] [] None None None ["d"; "g"] (Some ["float"; "convert"]) None [(KWord, (OperList ["rs1"])); (KDouble, (OperList ["rd"]))] [];
  mkRaw (Some "fcvt.d.wu") None (Some "Rfloat") None (Some 0xd2100053) ["rs2"] [] [] None None None ["d"; "g"] (Some ["float"; "convert"]) None [(KWord, (OperList ["rs1"])); (KDouble, (OperList ["rd"]))] [];
  mkRaw (Some "fcvt.d.l") None (Some "Rfloat") None (Some 0xd2200053) ["rs2"] [] [] None None None ["d"; "g"] (Some ["float"; "convert"]) None [(KLong, (OperList ["rs1"])); (KDouble, (OperList ["rd"]))] [];
  mkRaw (Some "fcvt.d.lu") None (Some "Rfloat") None (Some 0xd2300053) ["rs2"] [] [] None None None ["d"; "g"] (Some ["float"; "convert"]) None [(KLong, (OperList ["rs1"])); (KDouble, (OperList ["rd"]))] [];
  mkRaw (Some "fmv.d.x") None (Some "Rfloat") None (Some 0xf2000053) ["rm"; "rs2"] [] [] None None None ["d"; "g"] (Some ["float"; "move"]) None [(KLong, (OperList ["rs1"])); (KDouble, (OperList ["rd"]))] [];
  mkRaw (Some "fld") None (Some "VF_mem") (Some "I_load") (Some 0x3007) [] ["mewop"] [] None None None ["d"; "g"] (Some ["float"; "load"]) (Some 64) [(KLong, (OperList ["rs1"])); (KDouble, (OperList ["rd"]))] [];
  mkRaw (Some "fsd") None (Some "VF_mem") (Some "S") (Some 0x3027) [] ["mewop"] [] None None None ["d"; "g"] (Some ["float"; "store"]) (Some 64) [(KLong, (OperList ["rs1"])); (KDouble, (OperList ["rs2"]))] [];
  mkRaw (Some "fmadd.d") None (Some "R4") None (Some 0x2000043) [] [] [] None None None ["d"; "g"] (Some ["float"; "mac"]) None [(KDouble, OperAll)] [];
  mkRaw (Some "fmsub.d") None (Some "R4") None (Some 0x2000047) [] [] [] None None None ["d"; "g"] (Some ["float"; "mac"]) None [(KDouble, OperAll)] [];
  mkRaw (Some "fnmsub.d") None (Some "R4") None (Some 0x200004b) [] [] [] None None None ["d"; "g"] (Some ["float"; "mac"]) None [(KDouble, OperAll)] [];
  mkRaw (Some "fnmadd.d") None (Some "R4") None (Some 0x200004f) [] [] [] None None None ["d"; "g"] (Some ["float"; "mac"]) None [(KDouble, OperAll)] [];
  mkRaw (Some "fcvtmod.w.d") None (Some "Rfloat") None (Some 0xc2801053) ["rs2"; "rm"] [] [] None None None ["d"; "zfa"] (Some ["float"; "arith"]) None [(KDouble, OperAll)] [];
  mkRaw (Some "fleq.d") None (Some "Rfloat") None (Some 0xa2004053) ["rm"] [] [] None None None ["d"; "zfa"] (Some ["float"; "arith"]) None [(KDouble, OperAll)] [];
  mkRaw (Some "fli.d") None (Some "Rfloat") None (Some 0xf2100053) ["rs2"; "rm"] [] [] None None None ["d"; "zfa"] (Some ["float"; "arith"]) None [(KDouble, OperAll)] [];
  mkRaw (Some "fltq.d") None (Some "Rfloat") None (Some 0xa2005053) ["rm"] [] [] None None None ["d"; "zfa"] (Some ["float"; "arith"]) None [(KDouble, OperAll)] [];
  mkRaw (Some "fmaxm.d") None (Some "Rfloat") None (Some 0x2a003053) ["rm"] [] [] None None None ["d"; "zfa"] (Some ["float"; "arith"]) None [(KDouble, OperAll)] [];
  mkRaw (Some "fminm.d") None (Some "Rfloat") None (Some 0x2a002053) ["rm"] [] [] None None None ["d"; "zfa"] (Some ["float"; "arith"]) None [(KDouble, OperAll)] [];
  mkRaw (Some "fround.d") None (Some "Rfloat") None (Some 0x42400053) ["rs2"] [] [] None None None ["d"; "zfa"] (Some ["float"; "arith"]) None [(KDouble, OperAll)] [];
  mkRaw (Some "froundnx.d") None (Some "Rfloat") None (Some 0x42500053) ["rs2"] [] [] None None None ["d"; "zfa"] (Some ["float"; "arith"]) None [(KDouble, OperAll)] []
].

(** json/isa_rv64f.json *)
Definition isa_rv64f : list raw := [
  mkRaw (Some "fadd.s") None (Some "Rfloat") None (Some 0x53) [] [] [] None None None ["f"; "g"] (Some ["float"; "arith"]) None [(KSingle, OperAll)] [];
  mkRaw (Some "fsub.s") None (Some "Rfloat") None (Some 0x8000053) [] [] [] None None None ["f"; "g"] (Some ["float"; "arith"]) None [(KSingle, OperAll)] [];
  mkRaw (Some "fmul.s") None (Some "Rfloat") None (Some 0x10000053) [] [] [] None None None ["f"; "g"] (Some ["float"; "mul"]) None [(KSingle, OperAll)] [];
  mkRaw (Some "fdiv.s") None (Some "Rfloat") None (Some 0x18000053) [] [] [] None None None ["f"; "g"] (Some ["float"; "div"]) None [(KSingle, OperAll)] [];
  mkRaw (Some "fsgnj.s") None (Some "Rfloat") None (Some 0x20000053) ["rm"] [] [] None None None ["f"; "g"] (Some ["float"; "move"]) None [(KSingle, OperAll)] [];
  mkRaw (Some "fsgnjn.s") None (Some "Rfloat") None (Some 0x20001053) ["rm"] [] [] None None None ["f"; "g"] (Some ["float"; "arith"]) None [(KSingle, OperAll)] [];
  mkRaw (Some "fsgnjx.s") None (Some "Rfloat") None (Some 0x20002053) ["rm"] [] [] None None None ["f"; "g"] (Some ["float"; "arith"]) None [(KSingle, OperAll)] [];
  mkRaw (Some "fmin.s") None (Some "Rfloat") None (Some 0x28000053) ["rm"] [] [] None None None ["f"; "g"] (Some ["float"; "arith"]) None [(KSingle, OperAll)] [];
  mkRaw (Some "fmax.s") None (Some "Rfloat") None (Some 0x28001053) ["rm"] [] [] None None None ["f"; "g"] (Some ["float"; "arith"]) None [(KSingle, OperAll)] [];
  mkRaw (Some "fsqrt.s") None (Some "Rfloat") None (Some 0x58000053) ["rs2"] [] [] None None None ["f"; "g"] (Some ["float"; "sqrt"]) None [(KSingle, OperAll)] [];
  mkRaw (Some "fle.s") None (Some "Rfloat") None (Some 0xa0000053) ["rm"] [] [] None None None ["f"; "g"] (Some ["float"; "compare"]) None [(KWord, (OperList ["rd"])); (KSingle, (OperList ["rs1"; "rs2"]))] [];
  mkRaw (Some "flt.s") None (Some "Rfloat") None (Some 0xa0001053) ["rm"] [] [] None None None ["f"; "g"] (Some ["float"; "compare"]) None [(KWord, (OperList ["rd"])); (KSingle, (OperList ["rs1"; "rs2"]))] [];
  mkRaw (Some "feq.s") None (Some "Rfloat") None (Some 0xa0002053) ["rm"] [] [] None None None ["f"; "g"] (Some ["float"; "compare"]) None [(KWord, (OperList ["rd"])); (KSingle, (OperList ["rs1"; "rs2"]))] [];
  mkRaw (Some "fcvt.w.s") None (Some "Rfloat") None (Some 0xc0000053) ["rs2"] [] [] None None None ["f"; "g"] (Some ["float"; "convert"]) None [(KWord, (OperList ["rd"])); (KSingle, (OperList ["rs1"]))] [];
  mkRaw (Some "fcvt.wu.s") None (Some "Rfloat") None (Some 0xc0100053) ["rs2"] [] [] None None None ["f"; "g"] (Some ["float"; "convert"]) None [(KWord, (OperList ["rd"])); (KSingle, (OperList ["rs1"]))] [];
  mkRaw (Some "fcvt.l.s") None (Some "Rfloat") None (Some 0xc0200053) ["rs2"] [] [] None None None ["f"; "g"] (Some ["float"; "convert"]) None [(KLong, (OperList ["rd"])); (KSingle, (OperList ["rs1"]))] [];
  mkRaw (Some "fcvt.lu.s") None (Some "Rfloat") None (Some 0xc0300053) ["rs2"] [] [] None None None ["f"; "g"] (Some ["float"; "convert"]) None [(KLong, (OperList ["rd"])); (KSingle, (OperList ["rs1"]))] [];
  mkRaw (Some "fmv.x.w") None (Some "Rfloat") None (Some 0xe0000053) ["rm"; "rs2"] [] [] None None None ["f"; "g"] (Some ["float"; "move"]) None [(KLong, (OperList ["rd"])); (KSingle, (OperList ["rs1"]))] [];
  mkRaw (Some "fclass.s") None (Some "Rfloat") None (Some 0xe0001053) ["rm"; "rs2"] [] [] None None None ["f"; "g"] (Some ["float"; "classify"]) None [(KLong, (OperList ["rd"])); (KSingle, (OperList ["rs1"]))] [];
  mkRaw (Some "fcvt.s.w") None (Some "Rfloat") None (Some 0xd0000053) ["rs2"] [] [] None None None ["f"; "g"] (Some ["float"; "convert"]) None [(KWord, (OperList ["rs1"])); (KSingle, (OperList ["rd"]))] [];
  mkRaw (Some "fcvt.s.wu") None (Some "Rfloat") None (Some 0xd0100053) ["rs2"] [] [] None None None ["f"; "g"] (Some ["float"; "convert"]) None [(KWord, (OperList ["rs1"])); (KSingle, (OperList ["rd"]))] [];
  mkRaw (Some "fcvt.s.l") None (Some "Rfloat") None (Some 0xd0200053) ["rs2"] [] [] None None None ["f"; "g"] (Some ["float"; "convert"]) None [(KLong, (OperList ["rs1"])); (KSingle, (OperList ["rd"]))] [];
  mkRaw (Some "fcvt.s.lu") None (Some "Rfloat") None (Some 0xd0300053) ["rs2"] [] [] None None None ["f"; "g"] (Some ["float"; "convert"]) None [(KLong, (OperList ["rs1"])); (KSingle, (OperList ["rd"]))] [];
  mkRaw (Some "fmv.w.x") None (Some "Rfloat") None (Some 0xf0000053) ["rm"; "rs2"] [] [] None None None ["f"; "g"] (Some ["float"; "move"]) None [(KLong, (OperList ["rs1"])); (KSingle, (OperList ["rd"]))] [];
  mkRaw (Some "flw") None (Some "VF_mem") (Some "I_load") (Some 0x2007) [] ["mewop"] [] None None None ["f"; "g"] (Some ["float"; "load"]) (Some 32) [(KLong, (OperList ["rs1"])); (KSingle, (OperList ["rd"]))] [];
  mkRaw (Some "fsw") None (Some "VF_mem") (Some "S") (Some 0x2027) [] ["mewop"] [] None None None ["f"; "g"] (Some ["float"; "store"]) (Some 32) [(KLong, (OperList ["rs1"])); (KSingle, (OperList ["rs2"]))] [];
  mkRaw (Some "fmadd.s") None (Some "R4") None (Some 0x43) [] [] [] None None None ["f"; "g"] (Some ["float"; "mac"]) None [(KSingle, OperAll)] [];
  mkRaw (Some "fmsub.s") None (Some "R4") None (Some 0x47) [] [] [] None None None ["f"; "g"] (Some ["float"; "mac"]) None [(KSingle, OperAll)] [];
  mkRaw (Some "fnmsub.s") None (Some "R4") None (Some 0x4b) [] [] [] None None None ["f"; "g"] (Some ["float"; "mac"]) None [(KSingle, OperAll)] [];
  mkRaw (Some "fnmadd.s") None (Some "R4") None (Some 0x4f) [] [] [] None None None ["f"; "g"] (Some ["float"; "mac"]) None [(KSingle, OperAll)] [];
  mkRaw (Some "fleq.s") None (Some "Rfloat") None (Some 0xa0004053) ["rm"] [] [] None None None ["f"; "zfa"] (Some ["float"; "arith"]) None [(KSingle, OperAll)] [];
  mkRaw (Some "fli.s") None (Some "Rfloat") None (Some 0xf0100053) ["rs2"; "rm"] [] [] None None None ["f"; "zfa"] (Some ["float"; "arith"]) None [(KSingle, OperAll)] [];
  mkRaw (Some "fltq.s") None (Some "Rfloat") None (Some 0xa0005053) ["rm"] [] [] None None None ["f"; "zfa"] (Some ["float"; "arith"]) None [(KSingle, OperAll)] [];
  mkRaw (Some "fmaxm.s") None (Some "Rfloat") None (Some 0x28003053) ["rm"] [] [] None None None ["f"; "zfa"] (Some ["float"; "arith"]) None [(KSingle, OperAll)] [];
  mkRaw (Some "fminm.s") None (Some "Rfloat") None (Some 0x28002053) ["rm"] [] [] None None None ["f"; "zfa"] (Some ["float"; "arith"]) None [(KSingle, OperAll)] [];
  mkRaw (Some "fround.s") None (Some "Rfloat") None (Some 0x40400053) ["rs2"] [] [] None None None ["f"; "zfa"] (Some ["float"; "arith"]) None [(KSingle, OperAll)] [];
  mkRaw (Some "froundnx.s") None (Some "Rfloat") None (Some 0x40500053) ["rs2"] [] [] None None None ["f"; "zfa"] (Some ["float"; "arith"]) None [(KSingle, OperAll)] []
].

(** json/isa_rv64h.json *)
Definition isa_rv64h : list raw := [
  mkRaw (Some "hfence.vvma") None (Some "R") None (Some 0x22000073) ["rd"] [] [] None None None ["h"] (Some ["fence"; "system"; "hypervisor"]) None [(KLong, OperAll)] [];
  mkRaw (Some "hfence.gvma") None (Some "R") None (Some 0x62000073) ["rd"] [] [] None None None ["h"] (Some ["fence"; "system"; "hypervisor"]) None [(KLong, OperAll)] [];
  mkRaw (Some "hlv.b") None (Some "R") (Some "HV_load") (Some 0x60004073) ["rs2"] [] [] None None None ["h"] (Some ["load"; "system"; "hypervisor"]) (Some 8) [(KLong, OperAll)] [];
  mkRaw (Some "hlv.bu") None (Some "R") (Some "HV_load") (Some 0x60104073) ["rs2"] [] [] None None None ["h"] (Some ["load"; "system"; "hypervisor"]) (Some 8) [(KLong, OperAll)] [];
  mkRaw (Some "hlv.h") None (Some "R") (Some "HV_load") (Some 0x64004073) ["rs2"] [] [] None None None ["h"] (Some ["load"; "system"; "hypervisor"]) (Some 16) [(KLong, OperAll)] [];
  mkRaw (Some "hlv.hu") None (Some "R") (Some "HV_load") (Some 0x64104073) ["rs2"] [] [] None None None ["h"] (Some ["load"; "system"; "hypervisor"]) (Some 16) [(KLong, OperAll)] [];
  mkRaw (Some "hlvx.hu") None (Some "R") (Some "HV_load") (Some 0x64304073) ["rs2"] [] [] None None None ["h"] (Some ["load"; "system"; "hypervisor"]) (Some 16) [(KLong, OperAll)] [];
  mkRaw (Some "hlv.w") None (Some "R") (Some "HV_load") (Some 0x68004073) ["rs2"] [] [] None None None ["h"] (Some ["load"; "system"; "hypervisor"]) (Some 32) [(KLong, OperAll)] [];
  mkRaw (Some "hlvx.wu") None (Some "R") (Some "HV_load") (Some 0x68304073) ["rs2"] [] [] None None None ["h"] (Some ["load"; "system"; "hypervisor"]) (Some 32) [(KLong, OperAll)] [];
  mkRaw (Some "hsv.b") None (Some "R") (Some "HV_store") (Some 0x62004073) ["rd"] [] [] None None None ["h"] (Some ["store"; "system"; "hypervisor"]) (Some 8) [(KLong, OperAll)] [];
  mkRaw (Some "hsv.h") None (Some "R") (Some "HV_store") (Some 0x66004073) ["rd"] [] [] None None None ["h"] (Some ["store"; "system"; "hypervisor"]) (Some 16) [(KLong, OperAll)] [];
  mkRaw (Some "hsv.w") None (Some "R") (Some "HV_store") (Some 0x6a004073) ["rd"] [] [] None None None ["h"] (Some ["store"; "system"; "hypervisor"]) (Some 32) [(KLong, OperAll)] [];
  mkRaw (Some "hlv.wu") None (Some "R") (Some "HV_load") (Some 0x68104073) ["rs2"] [] [] None None None ["h"] (Some ["load"; "system"; "hypervisor"]) (Some 32) [(KLong, OperAll)] [];
  mkRaw (Some "hlv.d") None (Some "R") (Some "HV_load") (Some 0x6c004073) ["rs2"] [] [] None None None ["h"] (Some ["load"; "system"; "hypervisor"]) (Some 64) [(KLong, OperAll)] [];
  mkRaw (Some "hsv.d") None (Some "R") (Some "HV_store") (Some 0x6e004073) ["rd"] [] [] None None None ["h"] (Some ["store"; "system"; "hypervisor"]) (Some 64) [(KLong, OperAll)] []
].

(** json/isa_rv64i.json *)
Definition isa_rv64i : list raw := [
  mkRaw (Some "beq") None (Some "B") None (Some 0x63) [] [] [] None None None ["i"; "g"] (Some ["branch"; "cond"]) None [(KLong, OperAll)] [];
  mkRaw (Some "bne") None (Some "B") None (Some 0x1063) [] [] [] None None None ["i"; "g"] (Some ["branch"; "cond"]) None [(KLong, OperAll)] [];
  mkRaw (Some "blt") None (Some "B") None (Some 0x4063) [] [] [] None None None ["i"; "g"] (Some ["branch"; "cond"]) None [(KLong, OperAll)] [];
  mkRaw (Some "bge") None (Some "B") None (Some 0x5063) [] [] [] None None None ["i"; "g"] (Some ["branch"; "cond"]) None [(KLong, OperAll)] [];
  mkRaw (Some "bltu") None (Some "B") None (Some 0x6063) [] [] [] None None None ["i"; "g"] (Some ["branch"; "cond"]) None [(KLong, OperAll)] [];
  mkRaw (Some "bgeu") None (Some "B") None (Some 0x7063) [] [] [] None None None ["i"; "g"] (Some ["branch"; "cond"]) None [(KLong, OperAll)] [];
  mkRaw (Some "jalr") None (Some "I") None (Some 0x67) [] [] [] None None None ["i"; "g"] (Some ["branch"; "jalr"]) None [(KLong, OperAll)] [];
  mkRaw (Some "jal") None (Some "J") None (Some 0x6f) [] [] [] None None None ["i"; "g"] (Some ["branch"; "jal"]) None [(KLong, OperAll)] [];
  mkRaw (Some "lui") None (Some "U") None (Some 0x37) [] [] [] None None None ["i"; "g"] (Some ["int"; "arith"]) None [(KLong, OperAll)] [];
  mkRaw (Some "auipc") None (Some "U") None (Some 0x17) [] [] [] None None None ["i"; "g"] (Some ["int"; "arith"; "pc"]) None [(KLong, OperAll)] [];
  mkRaw (Some "addi") None (Some "ISH") (Some "I") (Some 0x13) [] ["func6"] [] None None None ["i"; "g"] (Some ["int"; "arith"]) None [(KLong, OperAll)] [];
  mkRaw (Some "li") None (Some "ISH") (Some "I") (Some 0x13) ["rs1"] ["func6"] [] None None None ["i"; "g"] (Some ["int"; "arith"]) None [(KLong, OperAll)] [];
  mkRaw (Some "nop") None None (Some "I") None [] [] [] None None (Some ((Some "li"), (Some [0xffffff80; 0x0]))) ["i"; "g"] (Some ["int"; "arith"]) None [] [];
  mkRaw (Some "mv") None None (Some "I_mv") None [] [] [] None None (Some ((Some "addi"), (Some [0xfff00000; 0x0]))) ["i"; "g"] (Some ["int"; "arith"; "move"]) None [] [];
  mkRaw (Some "slli") None (Some "ISH") None (Some 0x1013) [] [] [] None None None ["i"; "g"] (Some ["int"; "arith"]) None [(KLong, OperAll)] [];
  mkRaw (Some "slti") None (Some "ISH") (Some "I") (Some 0x2013) [] ["func6"] [] None None None ["i"; "g"] (Some ["int"; "arith"]) None [(KLong, OperAll)] [];
  mkRaw (Some "sltiu") None (Some "ISH") (Some "I") (Some 0x3013) [] ["func6"] [] None None None ["i"; "g"] (Some ["int"; "arith"]) None [(KLong, OperAll)] [];
  mkRaw (Some "xori") None (Some "ISH") (Some "I") (Some 0x4013) [] ["func6"] [] None None None ["i"; "g"] (Some ["int"; "arith"]) None [(KLong, OperAll)] [];
  mkRaw (Some "srli") None (Some "ISH") None (Some 0x5013) [] [] [] None None None ["i"; "g"] (Some ["int"; "arith"]) None [(KLong, OperAll)] [];
  mkRaw (Some "srai") None (Some "ISH") None (Some 0x40005013) [] [] [] None None None ["i"; "g"] (Some ["int"; "arith"]) None [(KLong, OperAll)] [];
  mkRaw (Some "ori") None (Some "ISH") (Some "I") (Some 0x6013) [] ["func6"] [] None None None ["i"; "g"] (Some ["int"; "arith"]) None [(KLong, OperAll)] [];
  mkRaw (Some "andi") None (Some "ISH") (Some "I") (Some 0x7013) [] ["func6"] [] None None None ["i"; "g"] (Some ["int"; "arith"]) None [(KLong, OperAll)] [];
  mkRaw (Some "add") None (Some "R") None (Some 0x33) [] [] [] None None None ["i"; "g"] (Some ["int"; "arith"]) None [(KLong, OperAll)] [];
  mkRaw (Some "sub") None (Some "R") None (Some 0x40000033) [] [] [] None None None ["i"; "g"] (Some ["int"; "arith"]) None [(KLong, OperAll)] [];
  mkRaw (Some "sll") None (Some "R") None (Some 0x1033) [] [] [] None None None ["i"; "g"] (Some ["int"; "arith"]) None [(KLong, OperAll)] [];
  mkRaw (Some "slt") None (Some "R") None (Some 0x2033) [] [] [] None None None ["i"; "g"] (Some ["int"; "arith"]) None [(KLong, OperAll)] [];
  mkRaw (Some "sltu") None (Some "R") None (Some 0x3033) [] [] [] None None None ["i"; "g"] (Some ["int"; "arith"]) None [(KLong, OperAll)] [];
  mkRaw (Some "xor") None (Some "R") None (Some 0x4033) [] [] [] None None None ["i"; "g"] (Some ["int"; "arith"]) None [(KLong, OperAll)] [];
  mkRaw (Some "srl") None (Some "R") None (Some 0x5033) [] [] [] None None None ["i"; "g"] (Some ["int"; "arith"]) None [(KLong, OperAll)] [];
  mkRaw (Some "sra") None (Some "R") None (Some 0x40005033) [] [] [] None None None ["i"; "g"] (Some ["int"; "arith"]) None [(KLong, OperAll)] [];
  mkRaw (Some "or") None (Some "R") None (Some 0x6033) [] [] [] None None None ["i"; "g"] (Some ["int"; "arith"]) None [(KLong, OperAll)] [];
  mkRaw (Some "and") None (Some "R") None (Some 0x7033) [] [] [] None None None ["i"; "g"] (Some ["int"; "arith"]) None [(KLong, OperAll)] [];
  mkRaw (Some "addiw") None (Some "ISHW") (Some "I") (Some 0x1b) [] ["func7"] [] None None None ["i"; "g"] (Some ["int"; "arith"]) None [(KWord, OperAll); (KLong, OperAll)] [];
  mkRaw (Some "slliw") None (Some "ISHW") None (Some 0x101b) [] [] [] None None None ["i"; "g"] (Some ["int"; "arith"]) None [(KLong, OperAll)] [];
  mkRaw (Some "srliw") None (Some "ISHW") None (Some 0x501b) [] [] [] None None None ["i"; "g"] (Some ["int"; "arith"]) None [(KLong, OperAll)] [];
  mkRaw (Some "sraiw") None (Some "ISHW") None (Some 0x4000501b) [] [] [] None None None ["i"; "g"] (Some ["int"; "arith"]) None [(KLong, OperAll)] [];
  mkRaw (Some "addw") None (Some "R") None (Some 0x3b) [] [] [] None None None ["i"; "g"] (Some ["int"; "arith"]) None [(KLong, OperAll)] [];
  mkRaw (Some "subw") None (Some "R") None (Some 0x4000003b) [] [] [] None None None ["i"; "g"] (Some ["int"; "arith"]) None [(KLong, OperAll)] [];
  mkRaw (Some "sllw") None (Some "R") None (Some 0x103b) [] [] [] None None None ["i"; "g"] (Some ["int"; "arith"]) None [(KLong, OperAll)] [];
  mkRaw (Some "srlw") None (Some "R") None (Some 0x503b) [] [] [] None None None ["i"; "g"] (Some ["int"; "arith"]) None [(KLong, OperAll)] [];
  mkRaw (Some "sraw") None (Some "R") None (Some 0x4000503b) [] [] [] None None None ["i"; "g"] (Some ["int"; "arith"]) None [(KLong, OperAll)] [];
  mkRaw (Some "lb") None (Some "I") (Some "I_load") (Some 0x3) [] [] [] None None None ["i"; "g"] (Some ["int"; "load"]) (Some 8) [(KLong, OperAll)] [];
  mkRaw (Some "lh") None (Some "I") (Some "I_load") (Some 0x1003) [] [] [] None None None ["i"; "g"] (Some ["int"; "load"]) (Some 16) [(KLong, OperAll)] [];
  mkRaw (Some "lw") None (Some "I") (Some "I_load") (Some 0x2003) [] [] [] None None None ["i"; "g"] (Some ["int"; "load"]) (Some 32) [(KLong, OperAll)] [];
  mkRaw (Some "ld") None (Some "I") (Some "I_load") (Some 0x3003) [] [] [] None None None ["i"; "g"] (Some ["int"; "load"]) (Some 64) [(KLong, OperAll)] [];
  mkRaw (Some "lbu") None (Some "I") (Some "I_load") (Some 0x4003) [] [] [] None None None ["i"; "g"] (Some ["int"; "load"]) (Some 8) [(KLong, OperAll)] [];
  mkRaw (Some "lhu") None (Some "I") (Some "I_load") (Some 0x5003) [] [] [] None None None ["i"; "g"] (Some ["int"; "load"]) (Some 16) [(KLong, OperAll)] [];
  mkRaw (Some "lwu") None (Some "I") (Some "I_load") (Some 0x6003) [] [] [] None None None ["i"; "g"] (Some ["int"; "load"]) (Some 32) [(KLong, OperAll)] [];
  mkRaw (Some "sb") None (Some "S") None (Some 0x23) [] [] [] None None None ["i"; "g"] (Some ["int"; "store"]) (Some 8) [(KLong, OperAll)] [];
  mkRaw (Some "sh") None (Some "S") None (Some 0x1023) [] [] [] None None None ["i"; "g"] (Some ["int"; "store"]) (Some 16) [(KLong, OperAll)] [];
  mkRaw (Some "sw") None (Some "S") None (Some 0x2023) [] [] [] None None None ["i"; "g"] (Some ["int"; "store"]) (Some 32) [(KLong, OperAll)] [];
  mkRaw (Some "sd") None (Some "S") None (Some 0x3023) [] [] [] None None None ["i"; "g"] (Some ["int"; "store"]) (Some 64) [(KLong, OperAll)] [];
  mkRaw (Some "fence") None (Some "FENCE") None (Some 0xf) [] [] [] None None None ["i"; "g"] (Some ["fence"]) None [(KLong, OperAll)] [];
  mkRaw (Some "ecall") None (Some "R") None (Some 0x73) ["rs2"; "rs1"; "rd"] [] [] None None None ["i"; "g"] (Some ["int"; "system"]) None [(KLong, OperAll)] [];
  mkRaw (Some "ebreak") None (Some "R") None (Some 0x100073) ["rs2"; "rs1"; "rd"] [] [] None None None ["i"; "g"] (Some ["int"; "system"]) None [(KLong, OperAll)] [];
  mkRaw (Some "uret") None (Some "R") None (Some 0x200073) ["rs2"; "rs1"; "rd"] [] [] None None None ["i"; "g"] (Some ["system"]) None [] [];
  mkRaw (Some "sret") None (Some "R") None (Some 0x10200073) ["rs2"; "rs1"; "rd"] [] [] None None None ["i"; "g"] (Some ["system"]) None [] [];
  mkRaw (Some "mret") None (Some "R") None (Some 0x30200073) ["rs2"; "rs1"; "rd"] [] [] None None None ["i"; "g"] (Some ["system"]) None [] [];
  mkRaw (Some "dret") None (Some "R") None (Some 0x7b200073) ["rs2"; "rs1"; "rd"] [] [] None None None ["i"; "g"] (Some ["system"]) None [] [];
  mkRaw (Some "sfence.vma") None (Some "R") None (Some 0x12000073) ["rd"] [] [] None None None ["i"; "g"] (Some ["fence"; "system"]) None [(KLong, OperAll)] [];
  mkRaw (Some "wfi") None (Some "R") None (Some 0x10500073) ["rs2"; "rs1"; "rd"] [] [] None None None ["i"; "g"] (Some ["system"]) None [] [];
  mkRaw (Some "cflush.d.l1") None (Some "R") None (Some 0xfc000073) ["rd"; "rs2"] [] [] None None None ["i"; "g"] (Some ["cache"; "system"]) None [(KLong, (OperList ["rs1"]))] [];
  mkRaw (Some "cdiscard.d.l1") None (Some "R") None (Some 0xfc200073) ["rd"; "rs2"] [] [] None None None ["i"; "g"] (Some ["cache"; "system"]) None [] [];
  mkRaw (Some "cflush.i.l1") None (Some "R") None (Some 0xfc100073) ["rd"; "rs2"] [] [] None None None ["i"; "g"] (Some ["cache"; "system"]) None [] []
].

(** json/isa_rv64m.json *)
Definition isa_rv64m : list raw := [
  mkRaw (Some "mul") None (Some "R") None (Some 0x2000033) [] [] [] None None None ["m"; "g"] (Some ["int"; "mul"]) None [(KLong, OperAll)] [];
  mkRaw (Some "mulh") None (Some "R") None (Some 0x2001033) [] [] [] None None None ["m"; "g"] (Some ["int"; "mul"]) None [(KLong, OperAll)] [];
  mkRaw (Some "mulhsu") None (Some "R") None (Some 0x2002033) [] [] [] None None None ["m"; "g"] (Some ["int"; "mul"]) None [(KLong, OperAll)] [];
  mkRaw (Some "mulhu") None (Some "R") None (Some 0x2003033) [] [] [] None None None ["m"; "g"] (Some ["int"; "mul"]) None [(KLong, OperAll)] [];
  mkRaw (Some "div") None (Some "R") None (Some 0x2004033) [] [] [] None None None ["m"; "g"] (Some ["int"; "div"]) None [(KLong, OperAll)] [];
  mkRaw (Some "divu") None (Some "R") None (Some 0x2005033) [] [] [] None None None ["m"; "g"] (Some ["int"; "div"]) None [(KLong, OperAll)] [];
  mkRaw (Some "rem") None (Some "R") None (Some 0x2006033) [] [] [] None None None ["m"; "g"] (Some ["int"; "div"]) None [(KLong, OperAll)] [];
  mkRaw (Some "remu") None (Some "R") None (Some 0x2007033) [] [] [] None None None ["m"; "g"] (Some ["int"; "div"]) None [(KLong, OperAll)] [];
  mkRaw (Some "mulw") None (Some "R") None (Some 0x200003b) [] [] [] None None None ["m"; "g"] (Some ["int"; "mul"]) None [(KLong, OperAll)] [];
  mkRaw (Some "divw") None (Some "R") None (Some 0x200403b) [] [] [] None None None ["m"; "g"] (Some ["int"; "div"]) None [(KLong, OperAll)] [];
  mkRaw (Some "divuw") None (Some "R") None (Some 0x200503b) [] [] [] None None None ["m"; "g"] (Some ["int"; "div"]) None [(KLong, OperAll)] [];
  mkRaw (Some "remw") None (Some "R") None (Some 0x200603b) [] [] [] None None None ["m"; "g"] (Some ["int"; "div"]) None [(KLong, OperAll)] [];
  mkRaw (Some "remuw") None (Some "R") None (Some 0x200703b) [] [] [] None None None ["m"; "g"] (Some ["int"; "div"]) None [(KLong, OperAll)] []
].

(** json/isa_rv64q.json *)
Definition isa_rv64q : list raw := [
  mkRaw (Some "fadd.q") None (Some "Rfloat") None (Some 0x6000053) [] [] [] None None None ["q"] (Some ["float"; "arith"]) None [(KQuad, OperAll)] [];
  mkRaw (Some "fsub.q") None (Some "Rfloat") None (Some 0xe000053) [] [] [] None None None ["q"] (Some ["float"; "arith"]) None [(KQuad, OperAll)] [];
  mkRaw (Some "fmul.q") None (Some "Rfloat") None (Some 0x16000053) [] [] [] None None None ["q"] (Some ["float"; "mul"]) None [(KQuad, OperAll)] [];
  mkRaw (Some "fdiv.q") None (Some "Rfloat") None (Some 0x1e000053) [] [] [] None None None ["q"] (Some ["float"; "div"]) None [(KQuad, OperAll)] [];
  mkRaw (Some "fsgnj.q") None (Some "Rfloat") None (Some 0x26000053) ["rm"] [] [] None None None ["q"] (Some ["float"; "arith"]) None [(KQuad, OperAll)] [];
  mkRaw (Some "fsgnjn.q") None (Some "Rfloat") None (Some 0x26001053) ["rm"] [] [] None None None ["q"] (Some ["float"; "arith"]) None [(KQuad, OperAll)] [];
  mkRaw (Some "fsgnjx.q") None (Some "Rfloat") None (Some 0x26002053) ["rm"] [] [] None None None ["q"] (Some ["float"; "arith"]) None [(KQuad, OperAll)] [];
  mkRaw (Some "fmin.q") None (Some "Rfloat") None (Some 0x2e000053) ["rm"] [] [] None None None ["q"] (Some ["float"; "arith"]) None [(KQuad, OperAll)] [];
  mkRaw (Some "fmax.q") None (Some "Rfloat") None (Some 0x2e001053) ["rm"] [] [] None None None ["q"] (Some ["float"; "arith"]) None [(KQuad, OperAll)] [];
  mkRaw (Some "fcvt.s.q") None (Some "Rfloat") None (Some 0x40300053) ["rs2"] [] [] None None None ["q"] (Some ["float"; "convert"]) None [(KSingle, (OperList ["rd"])); (KQuad, (OperList ["rs1"]))] [];
  mkRaw (Some "fcvt.q.s") None (Some "Rfloat") None (Some 0x46000053) ["rs2"] [] [] None None None ["q"] (Some ["float"; "convert"]) None [(KSingle, (OperList ["rs1"])); (KQuad, (OperList ["rd"]))] [];
  mkRaw (Some "fcvt.d.q") None (Some "Rfloat") None (Some 0x42300053) ["rs2"] [] [] None None None ["q"] (Some ["float"; "convert"]) None [(KDouble, (OperList ["rd"])); (KQuad, (OperList ["rs1"]))] [];
  mkRaw (Some "fcvt.q.d") None (Some "Rfloat") None (Some 0x46100053) ["rs2"] [] [] None None None ["q"] (Some ["float"; "convert"]) None [(KDouble, (OperList ["rs1"])); (KQuad, (OperList ["rd"]))] [];
  mkRaw (Some "fsqrt.q") None (Some "Rfloat") None (Some 0x5e000053) ["rs2"] [] [] None None None ["q"] (Some ["float"; "sqrt"]) None [(KQuad, OperAll)] [];
  mkRaw (Some "fle.q") None (Some "Rfloat") None (Some 0xa6000053) ["rm"] [] [] None None None ["q"] (Some ["float"; "compare"]) None [(KQuad, OperAll)] [];
  mkRaw (Some "flt.q") None (Some "Rfloat") None (Some 0xa6001053) ["rm"] [] [] None None None ["q"] (Some ["float"; "compare"]) None [(KQuad, OperAll)] [];
  mkRaw (Some "feq.q") None (Some "Rfloat") None (Some 0xa6002053) ["rm"] [] [] None None None ["q"] (Some ["float"; "compare"]) None [(KQuad, OperAll)] [];
  mkRaw (Some "fcvt.w.q") None (Some "Rfloat") None (Some 0xc6000053) ["rs2"] [] [] None None None ["q"] (Some ["float"; "convert"]) None [(KWord, (OperList ["rd"])); (KQuad, (OperList ["rs1"]))] [];
  mkRaw (Some "fcvt.wu.q") None (Some "Rfloat") None (Some 0xc6100053) ["rs2"] [] [] None None None ["q"] (Some ["float"; "convert"]) None [(KWord, (OperList ["rd"])); (KQuad, (OperList ["rs1"]))] [];
  mkRaw (Some "fcvt.l.q") None (Some "Rfloat") None (Some 0xc6200053) ["rs2"] [] [] None None None ["q"] (Some ["float"; "convert"]) None [(KLong, (OperList ["rd"])); (KQuad, (OperList ["rs1"]))] [];
  mkRaw (Some "fcvt.lu.q") None (Some "Rfloat") None (Some 0xc6300053) ["rs2"] [] [] None None None ["q"] (Some ["float"; "convert"]) None [(KLong, (OperList ["rd"])); (KQuad, (OperList ["rs1"]))] [];
  mkRaw (Some "fmv.x.q") None (Some "Rfloat") None (Some 0xe6000053) ["rm"; "rs2"] [] [] None None None ["q"] (Some ["float"; "move"]) None [(KLong, (OperList ["rd"])); (KQuad, (OperList ["rs1"]))] [];
  mkRaw (Some "fclass.q") None (Some "Rfloat") None (Some 0xe6001053) ["rm"; "rs2"] [] [] None None None ["q"] (Some ["float"; "classify"]) None [(KLong, (OperList ["rd"])); (KQuad, (OperList ["rs1"]))] [];
  mkRaw (Some "fcvt.q.w") None (Some "Rfloat") None (Some 0xd6000053) ["rs2"] [] [] None None None ["q"] (Some ["float"; "convert"]) None [(KWord, (OperList ["rs1"])); (KQuad, (OperList ["rd"]))] [];
  mkRaw (Some "fcvt.q.wu") None (Some "Rfloat") None (Some 0xd6100053) ["rs2"] [] [] None None None ["q"] (Some ["float"; "convert"]) None [(KWord, (OperList ["rs1"])); (KQuad, (OperList ["rd"]))] [];
  mkRaw (Some "fcvt.q.l") None (Some "Rfloat") None (Some 0xd6200053) ["rs2"] [] [] None None None ["q"] (Some ["float"; "convert"]) None [(KLong, (OperList ["rs1"])); (KQuad, (OperList ["rd"]))] [];
  mkRaw (Some "fcvt.q.lu") None (Some "Rfloat") None (Some 0xd6300053) ["rs2"] [] [] None None None ["q"] (Some ["float"; "convert"]) None [(KLong, (OperList ["rs1"])); (KQuad, (OperList ["rd"]))] [];
  mkRaw (Some "fmv.q.x") None (Some "Rfloat") None (Some 0xf6000053) ["rm"; "rs2"] [] [] None None None ["q"] (Some ["float"; "move"]) None [(KLong, (OperList ["rs1"])); (KQuad, (OperList ["rd"]))] [];
  mkRaw (Some "flq") None (Some "VF_mem") (Some "I_load") (Some 0x4007) [] ["mewop"] [] None None None ["q"] (Some ["float"; "load"]) (Some 128) [(KLong, (OperList ["rs1"])); (KQuad, (OperList ["rd"]))] [];
  mkRaw (Some "fsq") None (Some "VF_mem") (Some "S") (Some 0x4027) [] ["mewop"] [] None None None ["q"] (Some ["float"; "store"]) (Some 128) [(KLong, (OperList ["rs1"])); (KQuad, (OperList ["rs2"]))] [];
  mkRaw (Some "fmadd.q") None (Some "R4") None (Some 0x6000043) [] [] [] None None None ["q"] (Some ["float"; "mac"]) None [(KQuad, OperAll)] [];
  mkRaw (Some "fmsub.q") None (Some "R4") None (Some 0x6000047) [] [] [] None None None ["q"] (Some ["float"; "mac"]) None [(KQuad, OperAll)] [];
  mkRaw (Some "fnmsub.q") None (Some "R4") None (Some 0x600004b) [] [] [] None None None ["q"] (Some ["float"; "mac"]) None [(KQuad, OperAll)] [];
  mkRaw (Some "fnmadd.q") None (Some "R4") None (Some 0x600004f) [] [] [] None None None ["q"] (Some ["float"; "mac"]) None [(KQuad, OperAll)] [];
  mkRaw (Some "fleq.q") None (Some "Rfloat") None (Some 0xa6004053) ["rm"] [] [] None None None ["q"; "zfa"] (Some ["float"; "arith"]) None [(KQuad, OperAll)] [];
  mkRaw (Some "fli.q") None (Some "Rfloat") None (Some 0xf6100053) ["rs2"; "rm"] [] [] None None None ["q"; "zfa"] (Some ["float"; "arith"]) None [(KQuad, OperAll)] [];
  mkRaw (Some "fltq.q") None (Some "Rfloat") None (Some 0xa6005053) ["rm"] [] [] None None None ["q"; "zfa"] (Some ["float"; "arith"]) None [(KQuad, OperAll)] [];
  mkRaw (Some "fmaxm.q") None (Some "Rfloat") None (Some 0x2e003053) ["rm"] [] [] None None None ["q"; "zfa"] (Some ["float"; "arith"]) None [(KQuad, OperAll)] [];
  mkRaw (Some "fminm.q") None (Some "Rfloat") None (Some 0x2e002053) ["rm"] [] [] None None None ["q"; "zfa"] (Some ["float"; "arith"]) None [(KQuad, OperAll)] [];
  mkRaw (Some "fround.q") None (Some "Rfloat") None (Some 0x46400053) ["rs2"] [] [] None None None ["q"; "zfa"] (Some ["float"; "arith"]) None [(KQuad, OperAll)] [];
  mkRaw (Some "froundnx.q") None (Some "Rfloat") None (Some 0x46500053) ["rs2"] [] [] None None None ["q"; "zfa"] (Some ["float"; "arith"]) None [(KQuad, OperAll)] [];
  mkRaw (Some "fmvh.x.q") None (Some "Rfloat") None (Some 0xe6100053) ["rs2"; "rm"] [] [] None None None ["q"; "zfa"] (Some ["float"; "arith"]) None [(KLong, (OperList ["rd"])); (KQuad, (OperList ["rs1"]))] [];
  mkRaw (Some "fmvp.q.x") None (Some "Rfloat") None (Some 0xb6000053) ["rm"] [] [] None None None ["q"; "zfa"] (Some ["float"; "arith"]) None [(KLong, (OperList ["rs1"])); (KQuad, (OperList ["rd"]))] []
].

(** json/isa_rv64v.json *)
Definition isa_rv64v : list raw := [
  mkRaw (Some "vsetvli") None (Some "V") (Some "V_vsetvli") (Some 0x7057) [] ["func1b"; "func3a"; "func1c"] [] None None None ["v"] None None [(KLong, OperAll)] [];
  mkRaw (Some "vsetvl") None (Some "V") (Some "V_vsetvl") (Some 0x80007057) ["vm"] [] [] None None None ["v"] None None [(KLong, OperAll)] [];
  mkRaw (Some "vlm.v") None (Some "VF_mem") (Some "V_load") (Some 0x2b00007) ["nf"; "vm"; "rs2"] [] [] None None None ["v"] (Some ["vector"; "mask"; "unit_stride"; "load"]) (Some 8) [(KLong, (OperList ["rs1"])); (KVector, (OperList ["rd"]))] [];
  mkRaw (Some "vsetivli") None (Some "V") (Some "V_vsetivli") (Some 0xc0007057) [] ["func3a"; "func1c"] [] None None None ["v"] None None [(KLong, OperAll)] [];
  mkRaw (Some "vle8.v") None (Some "VF_mem") (Some "V_load") (Some 0x7) ["rs2"] [] [] None None None ["v"] (Some ["vector"; "maskable"; "unit_stride"; "segment"; "load"]) (Some 8) [(KLong, (OperList ["rs1"])); (KVector, (OperList ["rd"]))] [];
  mkRaw (Some "vle16.v") None (Some "VF_mem") (Some "V_load") (Some 0x5007) ["rs2"] [] [] None None None ["v"] (Some ["vector"; "maskable"; "unit_stride"; "segment"; "load"]) (Some 16) [(KLong, (OperList ["rs1"])); (KVector, (OperList ["rd"]))] [];
  mkRaw (Some "vle32.v") None (Some "VF_mem") (Some "V_load") (Some 0x6007) ["rs2"] [] [] None None None ["v"] (Some ["vector"; "maskable"; "unit_stride"; "segment"; "load"]) (Some 32) [(KLong, (OperList ["rs1"])); (KVector, (OperList ["rd"]))] [];
  mkRaw (Some "vle64.v") None (Some "VF_mem") (Some "V_load") (Some 0x7007) ["rs2"] [] [] None None None ["v"] (Some ["vector"; "maskable"; "unit_stride"; "segment"; "load"]) (Some 64) [(KLong, (OperList ["rs1"])); (KVector, (OperList ["rd"]))] [];
  mkRaw (Some "vsm.v") None (Some "VF_mem") (Some "V_store") (Some 0x2b00027) ["nf"; "vm"; "rs2"] [] [] None None None ["v"] (Some ["vector"; "mask"; "unit_stride"; "store"]) (Some 8) [(KLong, (OperList ["rs1"])); (KVector, (OperList ["rs3"]))] [];
  mkRaw (Some "vse8.v") None (Some "VF_mem") (Some "V_store") (Some 0x27) ["rs2"] [] [] None None None ["v"] (Some ["vector"; "maskable"; "unit_stride"; "segment"; "store"]) (Some 8) [(KLong, (OperList ["rs1"])); (KVector, (OperList ["rs3"]))] [];
  mkRaw (Some "vse16.v") None (Some "VF_mem") (Some "V_store") (Some 0x5027) ["rs2"] [] [] None None None ["v"] (Some ["vector"; "maskable"; "unit_stride"; "segment"; "store"]) (Some 16) [(KLong, (OperList ["rs1"])); (KVector, (OperList ["rs3"]))] [];
  mkRaw (Some "vse32.v") None (Some "VF_mem") (Some "V_store") (Some 0x6027) ["rs2"] [] [] None None None ["v"] (Some ["vector"; "maskable"; "unit_stride"; "segment"; "store"]) (Some 32) [(KLong, (OperList ["rs1"])); (KVector, (OperList ["rs3"]))] [];
  mkRaw (Some "vse64.v") None (Some "VF_mem") (Some "V_store") (Some 0x7027) ["rs2"] [] [] None None None ["v"] (Some ["vector"; "maskable"; "unit_stride"; "segment"; "store"]) (Some 64) [(KLong, (OperList ["rs1"])); (KVector, (OperList ["rs3"]))] [];
  mkRaw (Some "vlse8.v") None (Some "VF_mem") (Some "V_load") (Some 0x8000007) [] [] [] None None None ["v"] (Some ["vector"; "maskable"; "stride"; "segment"; "load"]) (Some 8) [(KLong, (OperList ["rs2"; "rs1"])); (KVector, (OperList ["rd"]))] [];
  mkRaw (Some "vlse16.v") None (Some "VF_mem") (Some "V_load") (Some 0x8005007) [] [] [] None None None ["v"] (Some ["vector"; "maskable"; "stride"; "segment"; "load"]) (Some 16) [(KLong, (OperList ["rs2"; "rs1"])); (KVector, (OperList ["rd"]))] [];
  mkRaw (Some "vlse32.v") None (Some "VF_mem") (Some "V_load") (Some 0x8006007) [] [] [] None None None ["v"] (Some ["vector"; "maskable"; "stride"; "segment"; "load"]) (Some 32) [(KLong, (OperList ["rs2"; "rs1"])); (KVector, (OperList ["rd"]))] [];
  mkRaw (Some "vlse64.v") None (Some "VF_mem") (Some "V_load") (Some 0x8007007) [] [] [] None None None ["v"] (Some ["vector"; "maskable"; "stride"; "segment"; "load"]) (Some 64) [(KLong, (OperList ["rs2"; "rs1"])); (KVector, (OperList ["rd"]))] [];
  mkRaw (Some "vsse8.v") None (Some "VF_mem") (Some "V_store") (Some 0x8000027) [] [] [] None None None ["v"] (Some ["vector"; "maskable"; "stride"; "segment"; "store"]) (Some 8) [(KLong, (OperList ["rs2"; "rs1"])); (KVector, (OperList ["rs3"]))] [];
  mkRaw (Some "vsse16.v") None (Some "VF_mem") (Some "V_store") (Some 0x8005027) [] [] [] None None None ["v"] (Some ["vector"; "maskable"; "stride"; "segment"; "store"]) (Some 16) [(KLong, (OperList ["rs2"; "rs1"])); (KVector, (OperList ["rs3"]))] [];
  mkRaw (Some "vsse32.v") None (Some "VF_mem") (Some "V_store") (Some 0x8006027) [] [] [] None None None ["v"] (Some ["vector"; "maskable"; "stride"; "segment"; "store"]) (Some 32) [(KLong, (OperList ["rs2"; "rs1"])); (KVector, (OperList ["rs3"]))] [];
  mkRaw (Some "vsse64.v") None (Some "VF_mem") (Some "V_store") (Some 0x8007027) [] [] [] None None None ["v"] (Some ["vector"; "maskable"; "stride"; "segment"; "store"]) (Some 64) [(KLong, (OperList ["rs2"; "rs1"])); (KVector, (OperList ["rs3"]))] [];
  mkRaw (Some "vloxei8.v") None (Some "VF_mem") (Some "V_load") (Some 0xc000007) [] [] [] None None None ["v"] (Some ["vector"; "maskable"; "ordered_indexed"; "segment"; "load"]) (Some 8) [(KLong, (OperList ["rs1"])); (KVector, (OperList ["rs2"; "rd"]))] [];
  mkRaw (Some "vloxei16.v") None (Some "VF_mem") (Some "V_load") (Some 0xc005007) [] [] [] None None None ["v"] (Some ["vector"; "maskable"; "ordered_indexed"; "segment"; "load"]) (Some 16) [(KLong, (OperList ["rs1"])); (KVector, (OperList ["rs2"; "rd"]))] [];
  mkRaw (Some "vloxei32.v") None (Some "VF_mem") (Some "V_load") (Some 0xc006007) [] [] [] None None None ["v"] (Some ["vector"; "maskable"; "ordered_indexed"; "segment"; "load"]) (Some 32) [(KLong, (OperList ["rs1"])); (KVector, (OperList ["rs2"; "rd"]))] [];
  mkRaw (Some "vloxei64.v") None (Some "VF_mem") (Some "V_load") (Some 0xc007007) [] [] [] None None None ["v"] (Some ["vector"; "maskable"; "ordered_indexed"; "segment"; "load"]) (Some 64) [(KLong, (OperList ["rs1"])); (KVector, (OperList ["rs2"; "rd"]))] [];
  mkRaw (Some "vluxei8.v") None (Some "VF_mem") (Some "V_load") (Some 0x4000007) [] [] [] None None None ["v"] (Some ["vector"; "maskable"; "unordered_indexed"; "segment"; "load"]) (Some 8) [(KLong, (OperList ["rs1"])); (KVector, (OperList ["rs2"; "rd"]))] [];
  mkRaw (Some "vluxei16.v") None (Some "VF_mem") (Some "V_load") (Some 0x4005007) [] [] [] None None None ["v"] (Some ["vector"; "maskable"; "unordered_indexed"; "segment"; "load"]) (Some 16) [(KLong, (OperList ["rs1"])); (KVector, (OperList ["rs2"; "rd"]))] [];
  mkRaw (Some "vluxei32.v") None (Some "VF_mem") (Some "V_load") (Some 0x4006007) [] [] [] None None None ["v"] (Some ["vector"; "maskable"; "unordered_indexed"; "segment"; "load"]) (Some 32) [(KLong, (OperList ["rs1"])); (KVector, (OperList ["rs2"; "rd"]))] [];
  mkRaw (Some "vluxei64.v") None (Some "VF_mem") (Some "V_load") (Some 0x4007007) [] [] [] None None None ["v"] (Some ["vector"; "maskable"; "unordered_indexed"; "segment"; "load"]) (Some 64) [(KLong, (OperList ["rs1"])); (KVector, (OperList ["rs2"; "rd"]))] [];
  mkRaw (Some "vsoxei8.v") None (Some "VF_mem") (Some "V_store") (Some 0xc000027) [] [] [] None None None ["v"] (Some ["vector"; "maskable"; "ordered_indexed"; "segment"; "store"]) (Some 8) [(KLong, (OperList ["rs1"])); (KVector, (OperList ["rs2"; "rs3"]))] [];
  mkRaw (Some "vsoxei16.v") None (Some "VF_mem") (Some "V_store") (Some 0xc005027) [] [] [] None None None ["v"] (Some ["vector"; "maskable"; "ordered_indexed"; "segment"; "store"]) (Some 16) [(KLong, (OperList ["rs1"])); (KVector, (OperList ["rs2"; "rs3"]))] [];
  mkRaw (Some "vsoxei32.v") None (Some "VF_mem") (Some "V_store") (Some 0xc006027) [] [] [] None None None ["v"] (Some ["vector"; "maskable"; "ordered_indexed"; "segment"; "store"]) (Some 32) [(KLong, (OperList ["rs1"])); (KVector, (OperList ["rs2"; "rs3"]))] [];
  mkRaw (Some "vsoxei64.v") None (Some "VF_mem") (Some "V_store") (Some 0xc007027) [] [] [] None None None ["v"] (Some ["vector"; "maskable"; "ordered_indexed"; "segment"; "store"]) (Some 64) [(KLong, (OperList ["rs1"])); (KVector, (OperList ["rs2"; "rs3"]))] [];
  mkRaw (Some "vsuxei8.v") None (Some "VF_mem") (Some "V_store") (Some 0x4000027) [] [] [] None None None ["v"] (Some ["vector"; "maskable"; "unordered_indexed"; "segment"; "store"]) (Some 8) [(KLong, (OperList ["rs1"])); (KVector, (OperList ["rs2"; "rs3"]))] [];
  mkRaw (Some "vsuxei16.v") None (Some "VF_mem") (Some "V_store") (Some 0x4005027) [] [] [] None None None ["v"] (Some ["vector"; "maskable"; "unordered_indexed"; "segment"; "store"]) (Some 16) [(KLong, (OperList ["rs1"])); (KVector, (OperList ["rs2"; "rs3"]))] [];
  mkRaw (Some "vsuxei32.v") None (Some "VF_mem") (Some "V_store") (Some 0x4006027) [] [] [] None None None ["v"] (Some ["vector"; "maskable"; "unordered_indexed"; "segment"; "store"]) (Some 32) [(KLong, (OperList ["rs1"])); (KVector, (OperList ["rs2"; "rs3"]))] [];
  mkRaw (Some "vsuxei64.v") None (Some "VF_mem") (Some "V_store") (Some 0x4007027) [] [] [] None None None ["v"] (Some ["vector"; "maskable"; "unordered_indexed"; "segment"; "store"]) (Some 64) [(KLong, (OperList ["rs1"])); (KVector, (OperList ["rs2"; "rs3"]))] [];
  mkRaw (Some "vle8ff.v") None (Some "VF_mem") (Some "V_load") (Some 0x1000007) ["rs2"] [] [] None None None ["v"] (Some ["vector"; "maskable"; "unit_stride"; "segment"; "faultfirst"; "load"]) (Some 8) [(KLong, (OperList ["rs1"])); (KVector, (OperList ["rd"]))] [];
  mkRaw (Some "vle16ff.v") None (Some "VF_mem") (Some "V_load") (Some 0x1005007) ["rs2"] [] [] None None None ["v"] (Some ["vector"; "maskable"; "unit_stride"; "segment"; "faultfirst"; "load"]) (Some 16) [(KLong, (OperList ["rs1"])); (KVector, (OperList ["rd"]))] [];
  mkRaw (Some "vle32ff.v") None (Some "VF_mem") (Some "V_load") (Some 0x1006007) ["rs2"] [] [] None None None ["v"] (Some ["vector"; "maskable"; "unit_stride"; "segment"; "faultfirst"; "load"]) (Some 32) [(KLong, (OperList ["rs1"])); (KVector, (OperList ["rd"]))] [];
  mkRaw (Some "vle64ff.v") None (Some "VF_mem") (Some "V_load") (Some 0x1007007) ["rs2"] [] [] None None None ["v"] (Some ["vector"; "maskable"; "unit_stride"; "segment"; "faultfirst"; "load"]) (Some 64) [(KLong, (OperList ["rs1"])); (KVector, (OperList ["rd"]))] [];
  mkRaw (Some "vl1re8.v") None (Some "VF_mem") (Some "V_load") (Some 0x2800007) ["nf"; "vm"; "rs2"] [] [] None None None ["v"] (Some ["vector"; "load"; "whole"]) (Some 8) [(KLong, (OperList ["rs1"])); (KVector, (OperList ["rd"]))] [];
  mkRaw (Some "vl1re16.v") None (Some "VF_mem") (Some "V_load") (Some 0x2805007) ["nf"; "vm"; "rs2"] [] [] None None None ["v"] (Some ["vector"; "load"; "whole"]) (Some 16) [(KLong, (OperList ["rs1"])); (KVector, (OperList ["rd"]))] [];
  mkRaw (Some "vl1re32.v") None (Some "VF_mem") (Some "V_load") (Some 0x2806007) ["nf"; "vm"; "rs2"] [] [] None None None ["v"] (Some ["vector"; "load"; "whole"]) (Some 32) [(KLong, (OperList ["rs1"])); (KVector, (OperList ["rd"]))] [];
  mkRaw (Some "vl1re64.v") None (Some "VF_mem") (Some "V_load") (Some 0x2807007) ["nf"; "vm"; "rs2"] [] [] None None None ["v"] (Some ["vector"; "load"; "whole"]) (Some 64) [(KLong, (OperList ["rs1"])); (KVector, (OperList ["rd"]))] [];
  mkRaw (Some "vl2re8.v") None (Some "VF_mem") (Some "V_load") (Some 0x22800007) ["nf"; "vm"; "rs2"] [] [] None None None ["v"] (Some ["vector"; "load"; "whole"]) (Some 8) [(KLong, (OperList ["rs1"])); (KVector, (OperList ["rd"]))] [];
  mkRaw (Some "vl2re16.v") None (Some "VF_mem") (Some "V_load") (Some 0x22805007) ["nf"; "vm"; "rs2"] [] [] None None None ["v"] (Some ["vector"; "load"; "whole"]) (Some 16) [(KLong, (OperList ["rs1"])); (KVector, (OperList ["rd"]))] [];
  mkRaw (Some "vl2re32.v") None (Some "VF_mem") (Some "V_load") (Some 0x22806007) ["nf"; "vm"; "rs2"] [] [] None None None ["v"] (Some ["vector"; "load"; "whole"]) (Some 32) [(KLong, (OperList ["rs1"])); (KVector, (OperList ["rd"]))] [];
  mkRaw (Some "vl2re64.v") None (Some "VF_mem") (Some "V_load") (Some 0x22807007) ["nf"; "vm"; "rs2"] [] [] None None None ["v"] (Some ["vector"; "load"; "whole"]) (Some 64) [(KLong, (OperList ["rs1"])); (KVector, (OperList ["rd"]))] [];
  mkRaw (Some "vl4re8.v") None (Some "VF_mem") (Some "V_load") (Some 0x62800007) ["nf"; "vm"; "rs2"] [] [] None None None ["v"] (Some ["vector"; "load"; "whole"]) (Some 8) [(KLong, (OperList ["rs1"])); (KVector, (OperList ["rd"]))] [];
  mkRaw (Some "vl4re16.v") None (Some "VF_mem") (Some "V_load") (Some 0x62805007) ["nf"; "vm"; "rs2"] [] [] None None None ["v"] (Some ["vector"; "load"; "whole"]) (Some 16) [(KLong, (OperList ["rs1"])); (KVector, (OperList ["rd"]))] [];
  mkRaw (Some "vl4re32.v") None (Some "VF_mem") (Some "V_load") (Some 0x62806007) ["nf"; "vm"; "rs2"] [] [] None None None ["v"] (Some ["vector"; "load"; "whole"]) (Some 32) [(KLong, (OperList ["rs1"])); (KVector, (OperList ["rd"]))] [];
  mkRaw (Some "vl4re64.v") None (Some "VF_mem") (Some "V_load") (Some 0x62807007) ["nf"; "vm"; "rs2"] [] [] None None None ["v"] (Some ["vector"; "load"; "whole"]) (Some 64) [(KLong, (OperList ["rs1"])); (KVector, (OperList ["rd"]))] [];
  mkRaw (Some "vl8re8.v") None (Some "VF_mem") (Some "V_load") (Some 0xe2800007) ["nf"; "vm"; "rs2"] [] [] None None None ["v"] (Some ["vector"; "load"; "whole"]) (Some 8) [(KLong, (OperList ["rs1"])); (KVector, (OperList ["rd"]))] [];
  mkRaw (Some "vl8re16.v") None (Some "VF_mem") (Some "V_load") (Some 0xe2805007) ["nf"; "vm"; "rs2"] [] [] None None None ["v"] (Some ["vector"; "load"; "whole"]) (Some 16) [(KLong, (OperList ["rs1"])); (KVector, (OperList ["rd"]))] [];
  mkRaw (Some "vl8re32.v") None (Some "VF_mem") (Some "V_load") (Some 0xe2806007) ["nf"; "vm"; "rs2"] [] [] None None None ["v"] (Some ["vector"; "load"; "whole"]) (Some 32) [(KLong, (OperList ["rs1"])); (KVector, (OperList ["rd"]))] [];
  mkRaw (Some "vl8re64.v") None (Some "VF_mem") (Some "V_load") (Some 0xe2807007) ["nf"; "vm"; "rs2"] [] [] None None None ["v"] (Some ["vector"; "load"; "whole"]) (Some 64) [(KLong, (OperList ["rs1"])); (KVector, (OperList ["rd"]))] [];
  mkRaw (Some "vs1r.v") None (Some "VF_mem") (Some "V_store") (Some 0x2800027) ["nf"; "vm"; "rs2"] [] [] None None None ["v"] (Some ["vector"; "store"; "whole"]) (Some 8) [(KLong, (OperList ["rs1"])); (KVector, (OperList ["rs3"]))] [];
  mkRaw (Some "vs2r.v") None (Some "VF_mem") (Some "V_store") (Some 0x22800027) ["nf"; "vm"; "rs2"] [] [] None None None ["v"] (Some ["vector"; "store"; "whole"]) (Some 8) [(KLong, (OperList ["rs1"])); (KVector, (OperList ["rs3"]))] [];
  mkRaw (Some "vs4r.v") None (Some "VF_mem") (Some "V_store") (Some 0x62800027) ["nf"; "vm"; "rs2"] [] [] None None None ["v"] (Some ["vector"; "store"; "whole"]) (Some 8) [(KLong, (OperList ["rs1"])); (KVector, (OperList ["rs3"]))] [];
  mkRaw (Some "vs8r.v") None (Some "VF_mem") (Some "V_store") (Some 0xe2800027) ["nf"; "vm"; "rs2"] [] [] None None None ["v"] (Some ["vector"; "store"; "whole"]) (Some 8) [(KLong, (OperList ["rs1"])); (KVector, (OperList ["rs3"]))] [];
  mkRaw (Some "vadd.vx") None (Some "V") (Some "V_op") (Some 0x4057) [] [] [] None None None ["v"] (Some ["vector"; "maskable"]) None [(KLong, (OperList ["rs1"])); (KVector, (OperList ["rs2"; "rd"]))] [];
  mkRaw (Some "vsub.vx") None (Some "V") (Some "V_op") (Some 0x8004057) [] [] [] None None None ["v"] (Some ["vector"; "maskable"]) None [(KLong, (OperList ["rs1"])); (KVector, (OperList ["rs2"; "rd"]))] [];
  mkRaw (Some "vrsub.vx") None (Some "V") (Some "V_op") (Some 0xc004057) [] [] [] None None None ["v"] (Some ["vector"; "maskable"]) None [(KLong, (OperList ["rs1"])); (KVector, (OperList ["rs2"; "rd"]))] [];
  mkRaw (Some "vminu.vx") None (Some "V") (Some "V_op") (Some 0x10004057) [] [] [] None None None ["v"] (Some ["vector"; "maskable"]) None [(KLong, (OperList ["rs1"])); (KVector, (OperList ["rs2"; "rd"]))] [];
  mkRaw (Some "vmin.vx") None (Some "V") (Some "V_op") (Some 0x14004057) [] [] [] None None None ["v"] (Some ["vector"; "maskable"]) None [(KLong, (OperList ["rs1"])); (KVector, (OperList ["rs2"; "rd"]))] [];
  mkRaw (Some "vmaxu.vx") None (Some "V") (Some "V_op") (Some 0x18004057) [] [] [] None None None ["v"] (Some ["vector"; "maskable"]) None [(KLong, (OperList ["rs1"])); (KVector, (OperList ["rs2"; "rd"]))] [];
  mkRaw (Some "vmax.vx") None (Some "V") (Some "V_op") (Some 0x1c004057) [] [] [] None None None ["v"] (Some ["vector"; "maskable"]) None [(KLong, (OperList ["rs1"])); (KVector, (OperList ["rs2"; "rd"]))] [];
  mkRaw (Some "vand.vx") None (Some "V") (Some "V_op") (Some 0x24004057) [] [] [] None None None ["v"] (Some ["vector"; "maskable"]) None [(KLong, (OperList ["rs1"])); (KVector, (OperList ["rs2"; "rd"]))] [];
  mkRaw (Some "vor.vx") None (Some "V") (Some "V_op") (Some 0x28004057) [] [] [] None None None ["v"] (Some ["vector"; "maskable"]) None [(KLong, (OperList ["rs1"])); (KVector, (OperList ["rs2"; "rd"]))] [];
  mkRaw (Some "vxor.vx") None (Some "V") (Some "V_op") (Some 0x2c004057) [] [] [] None None None ["v"] (Some ["vector"; "maskable"]) None [(KLong, (OperList ["rs1"])); (KVector, (OperList ["rs2"; "rd"]))] [];
  mkRaw (Some "vrgather.vx") None (Some "V") (Some "V_op") (Some 0x30004057) [] [] [] None None None ["v"] (Some ["vector"; "maskable"]) None [(KLong, (OperList ["rs1"])); (KVector, (OperList ["rs2"; "rd"]))] [];
  mkRaw (Some "vslideup.vx") None (Some "V") (Some "V_op") (Some 0x38004057) [] [] [] None None None ["v"] (Some ["vector"; "maskable"]) None [(KLong, (OperList ["rs1"])); (KVector, (OperList ["rs2"; "rd"]))] [];
  mkRaw (Some "vslidedown.vx") None (Some "V") (Some "V_op") (Some 0x3c004057) [] [] [] None None None ["v"] (Some ["vector"; "maskable"]) None [(KLong, (OperList ["rs1"])); (KVector, (OperList ["rs2"; "rd"]))] [];
  mkRaw (Some "vadc.vxm") None (Some "V") None (Some 0x40004057) ["vm"] [] [] None None None ["v"] (Some ["vector"]) None [(KLong, (OperList ["rs1"])); (KVector, (OperList ["rs2"; "rd"]))] [];
  mkRaw (Some "vmadc.vxm") None (Some "V") None (Some 0x44004057) [] [] [] None None None ["v"] (Some ["vector"; "mask"; "maskable"]) None [(KLong, (OperList ["rs1"])); (KVector, (OperList ["rs2"; "rd"]))] [];
  mkRaw (Some "vsbc.vxm") None (Some "V") None (Some 0x48004057) ["vm"] [] [] None None None ["v"] (Some ["vector"]) None [(KLong, (OperList ["rs1"])); (KVector, (OperList ["rs2"; "rd"]))] [];
  mkRaw (Some "vmsbc.vxm") None (Some "V") None (Some 0x4c004057) [] [] [] None None None ["v"] (Some ["vector"; "mask"; "maskable"]) None [(KLong, (OperList ["rs1"])); (KVector, (OperList ["rs2"; "rd"]))] [];
  mkRaw (Some "vmerge.vxm") None (Some "V") None (Some 0x5c004057) ["vm"] [] [] None None None ["v"] (Some ["vector"]) None [(KLong, (OperList ["rs1"])); (KVector, (OperList ["rs2"; "rd"]))] [];
  mkRaw (Some "vmv.v.x") None (Some "V") None (Some 0x5e004057) ["vm"; "rs2"] [] [] None None None ["v"] (Some ["vector"; "move"]) None [(KLong, (OperList ["rs1"])); (KVector, (OperList ["rd"]))] [];
  mkRaw (Some "vmseq.vx") None (Some "V") (Some "V_op") (Some 0x60004057) [] [] [] None None None ["v"] (Some ["vector"; "mask"; "maskable"]) None [(KLong, (OperList ["rs1"])); (KVector, (OperList ["rs2"; "rd"]))] [];
  mkRaw (Some "vmsne.vx") None (Some "V") (Some "V_op") (Some 0x64004057) [] [] [] None None None ["v"] (Some ["vector"; "mask"; "maskable"]) None [(KLong, (OperList ["rs1"])); (KVector, (OperList ["rs2"; "rd"]))] [];
  mkRaw (Some "vmsltu.vx") None (Some "V") (Some "V_op") (Some 0x68004057) [] [] [] None None None ["v"] (Some ["vector"; "mask"; "maskable"]) None [(KLong, (OperList ["rs1"])); (KVector, (OperList ["rs2"; "rd"]))] [];
  mkRaw (Some "vmslt.vx") None (Some "V") (Some "V_op") (Some 0x6c004057) [] [] [] None None None ["v"] (Some ["vector"; "mask"; "maskable"]) None [(KLong, (OperList ["rs1"])); (KVector, (OperList ["rs2"; "rd"]))] [];
  mkRaw (Some "vmsleu.vx") None (Some "V") (Some "V_op") (Some 0x70004057) [] [] [] None None None ["v"] (Some ["vector"; "mask"; "maskable"]) None [(KLong, (OperList ["rs1"])); (KVector, (OperList ["rs2"; "rd"]))] [];
  mkRaw (Some "vmsle.vx") None (Some "V") (Some "V_op") (Some 0x74004057) [] [] [] None None None ["v"] (Some ["vector"; "mask"; "maskable"]) None [(KLong, (OperList ["rs1"])); (KVector, (OperList ["rs2"; "rd"]))] [];
  mkRaw (Some "vmsgtu.vx") None (Some "V") (Some "V_op") (Some 0x78004057) [] [] [] None None None ["v"] (Some ["vector"; "mask"; "maskable"]) None [(KLong, (OperList ["rs1"])); (KVector, (OperList ["rs2"; "rd"]))] [];
  mkRaw (Some "vmsgt.vx") None (Some "V") (Some "V_op") (Some 0x7c004057) [] [] [] None None None ["v"] (Some ["vector"; "mask"; "maskable"]) None [(KLong, (OperList ["rs1"])); (KVector, (OperList ["rs2"; "rd"]))] [];
  mkRaw (Some "vsaddu.vx") None (Some "V") (Some "V_op") (Some 0x80004057) [] [] [] None None None ["v"] (Some ["vector"; "maskable"]) None [(KLong, (OperList ["rs1"])); (KVector, (OperList ["rs2"; "rd"]))] [];
  mkRaw (Some "vsadd.vx") None (Some "V") (Some "V_op") (Some 0x84004057) [] [] [] None None None ["v"] (Some ["vector"; "maskable"]) None [(KLong, (OperList ["rs1"])); (KVector, (OperList ["rs2"; "rd"]))] [];
  mkRaw (Some "vssubu.vx") None (Some "V") (Some "V_op") (Some 0x88004057) [] [] [] None None None ["v"] (Some ["vector"; "maskable"]) None [(KLong, (OperList ["rs1"])); (KVector, (OperList ["rs2"; "rd"]))] [];
  mkRaw (Some "vssub.vx") None (Some "V") (Some "V_op") (Some 0x8c004057) [] [] [] None None None ["v"] (Some ["vector"; "maskable"]) None [(KLong, (OperList ["rs1"])); (KVector, (OperList ["rs2"; "rd"]))] [];
  mkRaw (Some "vsll.vx") None (Some "V") (Some "V_op") (Some 0x94004057) [] [] [] None None None ["v"] (Some ["vector"; "maskable"]) None [(KLong, (OperList ["rs1"])); (KVector, (OperList ["rs2"; "rd"]))] [];
  mkRaw (Some "vsmul.vx") None (Some "V") (Some "V_op") (Some 0x9c004057) [] [] [] None None None ["v"] (Some ["vector"; "maskable"]) None [(KLong, (OperList ["rs1"])); (KVector, (OperList ["rs2"; "rd"]))] [];
  mkRaw (Some "vsrl.vx") None (Some "V") (Some "V_op") (Some 0xa0004057) [] [] [] None None None ["v"] (Some ["vector"; "maskable"]) None [(KLong, (OperList ["rs1"])); (KVector, (OperList ["rs2"; "rd"]))] [];
  mkRaw (Some "vsra.vx") None (Some "V") (Some "V_op") (Some 0xa4004057) [] [] [] None None None ["v"] (Some ["vector"; "maskable"]) None [(KLong, (OperList ["rs1"])); (KVector, (OperList ["rs2"; "rd"]))] [];
  mkRaw (Some "vssrl.vx") None (Some "V") (Some "V_op") (Some 0xa8004057) [] [] [] None None None ["v"] (Some ["vector"; "maskable"]) None [(KLong, (OperList ["rs1"])); (KVector, (OperList ["rs2"; "rd"]))] [];
  mkRaw (Some "vssra.vx") None (Some "V") (Some "V_op") (Some 0xac004057) [] [] [] None None None ["v"] (Some ["vector"; "maskable"]) None [(KLong, (OperList ["rs1"])); (KVector, (OperList ["rs2"; "rd"]))] [];
  mkRaw (Some "vnsrl.wx") None (Some "V") None (Some 0xb0004057) [] [] [] None None None ["v"] (Some ["vector"; "maskable"]) None [(KLong, (OperList ["rs1"])); (KVector, (OperList ["rs2"; "rd"]))] [];
  mkRaw (Some "vnsra.wx") None (Some "V") None (Some 0xb4004057) [] [] [] None None None ["v"] (Some ["vector"; "maskable"]) None [(KLong, (OperList ["rs1"])); (KVector, (OperList ["rs2"; "rd"]))] [];
  mkRaw (Some "vnclipu.wx") None (Some "V") None (Some 0xb8004057) [] [] [] None None None ["v"] (Some ["vector"; "maskable"]) None [(KLong, (OperList ["rs1"])); (KVector, (OperList ["rs2"; "rd"]))] [];
  mkRaw (Some "vnclip.wx") None (Some "V") None (Some 0xbc004057) [] [] [] None None None ["v"] (Some ["vector"; "maskable"]) None [(KLong, (OperList ["rs1"])); (KVector, (OperList ["rs2"; "rd"]))] [];
  mkRaw (Some "vadd.vv") None (Some "V") (Some "V_op") (Some 0x57) [] [] [] None None None ["v"] (Some ["vector"; "maskable"]) None [(KVector, OperAll)] [];
  mkRaw (Some "vsub.vv") None (Some "V") (Some "V_op") (Some 0x8000057) [] [] [] None None None ["v"] (Some ["vector"; "maskable"]) None [(KVector, OperAll)] [];
  mkRaw (Some "vminu.vv") None (Some "V") (Some "V_op") (Some 0x10000057) [] [] [] None None None ["v"] (Some ["vector"; "maskable"]) None [(KVector, OperAll)] [];
  mkRaw (Some "vmin.vv") None (Some "V") (Some "V_op") (Some 0x14000057) [] [] [] None None None ["v"] (Some ["vector"; "maskable"]) None [(KVector, OperAll)] [];
  mkRaw (Some "vmaxu.vv") None (Some "V") (Some "V_op") (Some 0x18000057) [] [] [] None None None ["v"] (Some ["vector"; "maskable"]) None [(KVector, OperAll)] [];
  mkRaw (Some "vmax.vv") None (Some "V") (Some "V_op") (Some 0x1c000057) [] [] [] None None None ["v"] (Some ["vector"; "maskable"]) None [(KVector, OperAll)] [];
  mkRaw (Some "vand.vv") None (Some "V") (Some "V_op") (Some 0x24000057) [] [] [] None None None ["v"] (Some ["vector"; "maskable"]) None [(KVector, OperAll)] [];
  mkRaw (Some "vor.vv") None (Some "V") (Some "V_op") (Some 0x28000057) [] [] [] None None None ["v"] (Some ["vector"; "maskable"]) None [(KVector, OperAll)] [];
  mkRaw (Some "vxor.vv") None (Some "V") (Some "V_op") (Some 0x2c000057) [] [] [] None None None ["v"] (Some ["vector"; "maskable"]) None [(KVector, OperAll)] [];
  mkRaw (Some "vrgather.vv") None (Some "V") (Some "V_op") (Some 0x30000057) [] [] [] None None None ["v"] (Some ["vector"; "maskable"]) None [(KVector, OperAll)] [];
  mkRaw (Some "vrgatherei16.vv") None (Some "V") (Some "V_op") (Some 0x38000057) [] [] [] None None None ["v"] (Some ["vector"; "maskable"]) None [(KVector, OperAll)] [];
  mkRaw (Some "vadc.vvm") None (Some "V") None (Some 0x40000057) ["vm"] [] [] None None None ["v"] (Some ["vector"]) None [(KVector, OperAll)] [];
  mkRaw (Some "vmadc.vvm") None (Some "V") None (Some 0x44000057) [] [] [] None None None ["v"] (Some ["vector"; "mask"; "maskable"]) None [(KVector, OperAll)] [];
  mkRaw (Some "vsbc.vvm") None (Some "V") None (Some 0x48000057) ["vm"] [] [] None None None ["v"] (Some ["vector"]) None [(KVector, OperAll)] [];
  mkRaw (Some "vmsbc.vvm") None (Some "V") None (Some 0x4c000057) [] [] [] None None None ["v"] (Some ["vector"; "mask"; "maskable"]) None [(KVector, OperAll)] [];
  mkRaw (Some "vmerge.vvm") None (Some "V") None (Some 0x5c000057) ["vm"] [] [] None None None ["v"] (Some ["vector"]) None [(KVector, OperAll)] [];
  mkRaw (Some "vmv.v.v") None (Some "V") None (Some 0x5e000057) ["vm"; "rs2"] [] [] None None None ["v"] (Some ["vector"; "move"]) None [(KVector, (OperList ["rs1"; "rd"]))] [];
  mkRaw (Some "vmseq.vv") None (Some "V") (Some "V_op") (Some 0x60000057) [] [] [] None None None ["v"] (Some ["vector"; "mask"; "maskable"]) None [(KVector, OperAll)] [];
  mkRaw (Some "vmsne.vv") None (Some "V") (Some "V_op") (Some 0x64000057) [] [] [] None None None ["v"] (Some ["vector"; "mask"; "maskable"]) None [(KVector, OperAll)] [];
  mkRaw (Some "vmsltu.vv") None (Some "V") (Some "V_op") (Some 0x68000057) [] [] [] None None None ["v"] (Some ["vector"; "mask"; "maskable"]) None [(KVector, OperAll)] [];
  mkRaw (Some "vmslt.vv") None (Some "V") (Some "V_op") (Some 0x6c000057) [] [] [] None None None ["v"] (Some ["vector"; "mask"; "maskable"]) None [(KVector, OperAll)] [];
  mkRaw (Some "vmsleu.vv") None (Some "V") (Some "V_op") (Some 0x70000057) [] [] [] None None None ["v"] (Some ["vector"; "mask"; "maskable"]) None [(KVector, OperAll)] [];
  mkRaw (Some "vmsle.vv") None (Some "V") (Some "V_op") (Some 0x74000057) [] [] [] None None None ["v"] (Some ["vector"; "mask"; "maskable"]) None [(KVector, OperAll)] [];
  mkRaw (Some "vsaddu.vv") None (Some "V") (Some "V_op") (Some 0x80000057) [] [] [] None None None ["v"] (Some ["vector"; "maskable"]) None [(KVector, OperAll)] [];
  mkRaw (Some "vsadd.vv") None (Some "V") (Some "V_op") (Some 0x84000057) [] [] [] None None None ["v"] (Some ["vector"; "maskable"]) None [(KVector, OperAll)] [];
  mkRaw (Some "vssubu.vv") None (Some "V") (Some "V_op") (Some 0x88000057) [] [] [] None None None ["v"] (Some ["vector"; "maskable"]) None [(KVector, OperAll)] [];
  mkRaw (Some "vssub.vv") None (Some "V") (Some "V_op") (Some 0x8c000057) [] [] [] None None None ["v"] (Some ["vector"; "maskable"]) None [(KVector, OperAll)] [];
  mkRaw (Some "vsll.vv") None (Some "V") (Some "V_op") (Some 0x94000057) [] [] [] None None None ["v"] (Some ["vector"; "maskable"]) None [(KVector, OperAll)] [];
  mkRaw (Some "vsmul.vv") None (Some "V") (Some "V_op") (Some 0x9c000057) [] [] [] None None None ["v"] (Some ["vector"; "maskable"]) None [(KVector, OperAll)] [];
  mkRaw (Some "vsrl.vv") None (Some "V") (Some "V_op") (Some 0xa0000057) [] [] [] None None None ["v"] (Some ["vector"; "maskable"]) None [(KVector, OperAll)] [];
  mkRaw (Some "vsra.vv") None (Some "V") (Some "V_op") (Some 0xa4000057) [] [] [] None None None ["v"] (Some ["vector"; "maskable"]) None [(KVector, OperAll)] [];
  mkRaw (Some "vssrl.vv") None (Some "V") (Some "V_op") (Some 0xa8000057) [] [] [] None None None ["v"] (Some ["vector"; "maskable"]) None [(KVector, OperAll)] [];
  mkRaw (Some "vssra.vv") None (Some "V") (Some "V_op") (Some 0xac000057) [] [] [] None None None ["v"] (Some ["vector"; "maskable"]) None [(KVector, OperAll)] [];
  mkRaw (Some "vnsrl.wv") None (Some "V") None (Some 0xb0000057) [] [] [] None None None ["v"] (Some ["vector"; "maskable"]) None [(KVector, OperAll)] [];
  mkRaw (Some "vnsra.wv") None (Some "V") None (Some 0xb4000057) [] [] [] None None None ["v"] (Some ["vector"; "maskable"]) None [(KVector, OperAll)] [];
  mkRaw (Some "vnclipu.wv") None (Some "V") None (Some 0xb8000057) [] [] [] None None None ["v"] (Some ["vector"; "maskable"]) None [(KVector, OperAll)] [];
  mkRaw (Some "vnclip.wv") None (Some "V") None (Some 0xbc000057) [] [] [] None None None ["v"] (Some ["vector"; "maskable"]) None [(KVector, OperAll)] [];
  mkRaw (Some "vwredsumu.vs") None (Some "V") (Some "V_op") (Some 0xc0000057) [] [] [] None None None ["v"] (Some ["vector"; "maskable"; "widening"]) None [(KVector, OperAll)] [];
  mkRaw (Some "vwredsum.vs") None (Some "V") (Some "V_op") (Some 0xc4000057) [] [] [] None None None ["v"] (Some ["vector"; "maskable"; "widening"]) None [(KVector, OperAll)] [];
  mkRaw (Some "vadd.vi") None (Some "V") (Some "V_simm") (Some 0x3057) [] [] [] None None None ["v"] (Some ["vector"; "maskable"]) None [(KVector, (OperList ["rs2"; "rd"]))] [];
  mkRaw (Some "vrsub.vi") None (Some "V") (Some "V_simm") (Some 0xc003057) [] [] [] None None None ["v"] (Some ["vector"; "maskable"]) None [(KVector, (OperList ["rs2"; "rd"]))] [];
  mkRaw (Some "vand.vi") None (Some "V") (Some "V_simm") (Some 0x24003057) [] [] [] None None None ["v"] (Some ["vector"; "maskable"]) None [(KVector, (OperList ["rs2"; "rd"]))] [];
  mkRaw (Some "vor.vi") None (Some "V") (Some "V_simm") (Some 0x28003057) [] [] [] None None None ["v"] (Some ["vector"; "maskable"]) None [(KVector, (OperList ["rs2"; "rd"]))] [];
  mkRaw (Some "vxor.vi") None (Some "V") (Some "V_simm") (Some 0x2c003057) [] [] [] None None None ["v"] (Some ["vector"; "maskable"]) None [(KVector, (OperList ["rs2"; "rd"]))] [];
  mkRaw (Some "vrgather.vi") None (Some "V") (Some "V_uimm") (Some 0x30003057) [] [] [] None None None ["v"] (Some ["vector"; "maskable"]) None [(KVector, (OperList ["rs2"; "rd"]))] [];
  mkRaw (Some "vslideup.vi") None (Some "V") (Some "V_uimm") (Some 0x38003057) [] [] [] None None None ["v"] (Some ["vector"; "maskable"]) None [(KVector, (OperList ["rs2"; "rd"]))] [];
  mkRaw (Some "vslidedown.vi") None (Some "V") (Some "V_uimm") (Some 0x3c003057) [] [] [] None None None ["v"] (Some ["vector"; "maskable"]) None [(KVector, (OperList ["rs2"; "rd"]))] [];
  mkRaw (Some "vadc.vim") None (Some "V") (Some "V_simm") (Some 0x40003057) ["vm"] [] [] None None None ["v"] (Some ["vector"]) None [(KVector, (OperList ["rs2"; "rd"]))] [];
  mkRaw (Some "vmadc.vim") None (Some "V") (Some "V_simm") (Some 0x44003057) [] [] [] None None None ["v"] (Some ["vector"; "mask"; "maskable"]) None [(KVector, (OperList ["rs2"; "rd"]))] [];
  mkRaw (Some "vmerge.vim") None (Some "V") (Some "V_simm") (Some 0x5c003057) ["vm"] [] [] None None None ["v"] (Some ["vector"]) None [(KVector, (OperList ["rs2"; "rd"]))] [];
  mkRaw (Some "vmv.v.i") None (Some "V") (Some "V_simm") (Some 0x5e003057) ["vm"; "rs2"] [] [] None None None ["v"] (Some ["vector"; "move"]) None [(KVector, (OperList ["rd"]))] [];
  mkRaw (Some "vmseq.vi") None (Some "V") (Some "V_simm") (Some 0x60003057) [] [] [] None None None ["v"] (Some ["vector"; "mask"; "maskable"]) None [(KVector, (OperList ["rs2"; "rd"]))] [];
  mkRaw (Some "vmsne.vi") None (Some "V") (Some "V_simm") (Some 0x64003057) [] [] [] None None None ["v"] (Some ["vector"; "mask"; "maskable"]) None [(KVector, (OperList ["rs2"; "rd"]))] [];
  mkRaw (Some "vmsleu.vi") None (Some "V") (Some "V_simm") (Some 0x70003057) [] [] [] None None None ["v"] (Some ["vector"; "mask"; "maskable"]) None [(KVector, (OperList ["rs2"; "rd"]))] [];
  mkRaw (Some "vmsle.vi") None (Some "V") (Some "V_simm") (Some 0x74003057) [] [] [] None None None ["v"] (Some ["vector"; "mask"; "maskable"]) None [(KVector, (OperList ["rs2"; "rd"]))] [];
  mkRaw (Some "vmsgtu.vi") None (Some "V") (Some "V_simm") (Some 0x78003057) [] [] [] None None None ["v"] (Some ["vector"; "mask"; "maskable"]) None [(KVector, (OperList ["rs2"; "rd"]))] [];
  mkRaw (Some "vmsgt.vi") None (Some "V") (Some "V_simm") (Some 0x7c003057) [] [] [] None None None ["v"] (Some ["vector"; "mask"; "maskable"]) None [(KVector, (OperList ["rs2"; "rd"]))] [];
  mkRaw (Some "vsaddu.vi") None (Some "V") (Some "V_simm") (Some 0x80003057) [] [] [] None None None ["v"] (Some ["vector"; "maskable"]) None [(KVector, (OperList ["rs2"; "rd"]))] [];
  mkRaw (Some "vsadd.vi") None (Some "V") (Some "V_simm") (Some 0x84003057) [] [] [] None None None ["v"] (Some ["vector"; "maskable"]) None [(KVector, (OperList ["rs2"; "rd"]))] [];
  mkRaw (Some "vsll.vi") None (Some "V") (Some "V_uimm") (Some 0x94003057) [] [] [] None None None ["v"] (Some ["vector"; "maskable"]) None [(KVector, (OperList ["rs2"; "rd"]))] [];
  mkRaw (Some "vmv1r.v") None (Some "V") None (Some 0x9e003057) ["vm"; "rs1"] [] [] None None None ["v"] (Some ["vector"; "whole"; "move"]) None [(KVector, (OperList ["rs2"; "rd"]))] [];
  mkRaw (Some "vmv2r.v") None (Some "V") None (Some 0x9e00b057) ["vm"; "rs1"] [] [] None None None ["v"] (Some ["vector"; "whole"; "move"]) None [(KVector, (OperList ["rs2"; "rd"]))] [];
  mkRaw (Some "vmv4r.v") None (Some "V") None (Some 0x9e01b057) ["vm"; "rs1"] [] [] None None None ["v"] (Some ["vector"; "whole"; "move"]) None [(KVector, (OperList ["rs2"; "rd"]))] [];
  mkRaw (Some "vmv8r.v") None (Some "V") None (Some 0x9e03b057) ["vm"; "rs1"] [] [] None None None ["v"] (Some ["vector"; "whole"; "move"]) None [(KVector, (OperList ["rs2"; "rd"]))] [];
  mkRaw (Some "vsrl.vi") None (Some "V") (Some "V_uimm") (Some 0xa0003057) [] [] [] None None None ["v"] (Some ["vector"; "maskable"]) None [(KVector, (OperList ["rs2"; "rd"]))] [];
  mkRaw (Some "vsra.vi") None (Some "V") (Some "V_uimm") (Some 0xa4003057) [] [] [] None None None ["v"] (Some ["vector"; "maskable"]) None [(KVector, (OperList ["rs2"; "rd"]))] [];
  mkRaw (Some "vssrl.vi") None (Some "V") (Some "V_uimm") (Some 0xa8003057) [] [] [] None None None ["v"] (Some ["vector"; "maskable"]) None [(KVector, (OperList ["rs2"; "rd"]))] [];
  mkRaw (Some "vssra.vi") None (Some "V") (Some "V_uimm") (Some 0xac003057) [] [] [] None None None ["v"] (Some ["vector"; "maskable"]) None [(KVector, (OperList ["rs2"; "rd"]))] [];
  mkRaw (Some "vnsrl.wi") None (Some "V") (Some "V_uimm") (Some 0xb0003057) [] [] [] None None None ["v"] (Some ["vector"; "maskable"]) None [(KVector, (OperList ["rs2"; "rd"]))] [];
  mkRaw (Some "vnsra.wi") None (Some "V") (Some "V_uimm") (Some 0xb4003057) [] [] [] None None None ["v"] (Some ["vector"; "maskable"]) None [(KVector, (OperList ["rs2"; "rd"]))] [];
  mkRaw (Some "vnclipu.wi") None (Some "V") (Some "V_uimm") (Some 0xb8003057) [] [] [] None None None ["v"] (Some ["vector"; "maskable"]) None [(KVector, (OperList ["rs2"; "rd"]))] [];
  mkRaw (Some "vnclip.wi") None (Some "V") (Some "V_uimm") (Some 0xbc003057) [] [] [] None None None ["v"] (Some ["vector"; "maskable"]) None [(KVector, (OperList ["rs2"; "rd"]))] [];
  mkRaw (Some "vredsum.vs") None (Some "V") (Some "V_op") (Some 0x2057) [] [] [] None None None ["v"] (Some ["vector"; "maskable"]) None [(KVector, OperAll)] [];
  mkRaw (Some "vredand.vs") None (Some "V") (Some "V_op") (Some 0x4002057) [] [] [] None None None ["v"] (Some ["vector"; "maskable"]) None [(KVector, OperAll)] [];
  mkRaw (Some "vredor.vs") None (Some "V") (Some "V_op") (Some 0x8002057) [] [] [] None None None ["v"] (Some ["vector"; "maskable"]) None [(KVector, OperAll)] [];
  mkRaw (Some "vredxor.vs") None (Some "V") (Some "V_op") (Some 0xc002057) [] [] [] None None None ["v"] (Some ["vector"; "maskable"]) None [(KVector, OperAll)] [];
  mkRaw (Some "vredminu.vs") None (Some "V") (Some "V_op") (Some 0x10002057) [] [] [] None None None ["v"] (Some ["vector"; "maskable"]) None [(KVector, OperAll)] [];
  mkRaw (Some "vredmin.vs") None (Some "V") (Some "V_op") (Some 0x14002057) [] [] [] None None None ["v"] (Some ["vector"; "maskable"]) None [(KVector, OperAll)] [];
  mkRaw (Some "vredmaxu.vs") None (Some "V") (Some "V_op") (Some 0x18002057) [] [] [] None None None ["v"] (Some ["vector"; "maskable"]) None [(KVector, OperAll)] [];
  mkRaw (Some "vredmax.vs") None (Some "V") (Some "V_op") (Some 0x1c002057) [] [] [] None None None ["v"] (Some ["vector"; "maskable"]) None [(KVector, OperAll)] [];
  mkRaw (Some "vaaddu.vv") None (Some "V") (Some "V_op") (Some 0x20002057) [] [] [] None None None ["v"] (Some ["vector"; "maskable"]) None [(KVector, OperAll)] [];
  mkRaw (Some "vaadd.vv") None (Some "V") (Some "V_op") (Some 0x24002057) [] [] [] None None None ["v"] (Some ["vector"; "maskable"]) None [(KVector, OperAll)] [];
  mkRaw (Some "vasubu.vv") None (Some "V") (Some "V_op") (Some 0x28002057) [] [] [] None None None ["v"] (Some ["vector"; "maskable"]) None [(KVector, OperAll)] [];
  mkRaw (Some "vasub.vv") None (Some "V") (Some "V_op") (Some 0x2c002057) [] [] [] None None None ["v"] (Some ["vector"; "maskable"]) None [(KVector, OperAll)] [];
  mkRaw (Some "vmv.x.s") None (Some "V") None (Some 0x42002057) ["vm"; "rs1"] [] [] None None None ["v"] (Some ["vector"; "move"]) None [(KLong, (OperList ["rd"])); (KVector, (OperList ["rs2"]))] [];
  mkRaw (Some "vzext.vf8") None (Some "V") None (Some 0x48012057) ["rs1"] [] [] None None None ["v"] (Some ["vector"; "maskable"]) None [(KVector, (OperList ["rs2"; "rd"]))] [];
  mkRaw (Some "vsext.vf8") None (Some "V") None (Some 0x4801a057) ["rs1"] [] [] None None None ["v"] (Some ["vector"; "maskable"]) None [(KVector, (OperList ["rs2"; "rd"]))] [];
  mkRaw (Some "vzext.vf4") None (Some "V") None (Some 0x48022057) ["rs1"] [] [] None None None ["v"] (Some ["vector"; "maskable"]) None [(KVector, (OperList ["rs2"; "rd"]))] [];
  mkRaw (Some "vsext.vf4") None (Some "V") None (Some 0x4802a057) ["rs1"] [] [] None None None ["v"] (Some ["vector"; "maskable"]) None [(KVector, (OperList ["rs2"; "rd"]))] [];
  mkRaw (Some "vzext.vf2") None (Some "V") None (Some 0x48032057) ["rs1"] [] [] None None None ["v"] (Some ["vector"; "maskable"]) None [(KVector, (OperList ["rs2"; "rd"]))] [];
  mkRaw (Some "vsext.vf2") None (Some "V") None (Some 0x4803a057) ["rs1"] [] [] None None None ["v"] (Some ["vector"; "maskable"]) None [(KVector, (OperList ["rs2"; "rd"]))] [];
  mkRaw (Some "vcompress.vm") None (Some "V") None (Some 0x5e002057) ["vm"] [] [] None None None ["v"] (Some ["vector"]) None [(KVector, OperAll)] [];
  mkRaw (Some "vmandn.mm") None (Some "V") None (Some 0x60002057) [] [] [] None None None ["v"] (Some ["vector"; "maskable"; "mask"]) None [(KVector, OperAll)] [];
  mkRaw (Some "vmand.mm") None (Some "V") None (Some 0x64002057) [] [] [] None None None ["v"] (Some ["vector"; "maskable"; "mask"]) None [(KVector, OperAll)] [];
  mkRaw (Some "vmor.mm") None (Some "V") None (Some 0x68002057) [] [] [] None None None ["v"] (Some ["vector"; "maskable"; "mask"]) None [(KVector, OperAll)] [];
  mkRaw (Some "vmxor.mm") None (Some "V") None (Some 0x6c002057) [] [] [] None None None ["v"] (Some ["vector"; "maskable"; "mask"]) None [(KVector, OperAll)] [];
  mkRaw (Some "vmorn.mm") None (Some "V") None (Some 0x70002057) [] [] [] None None None ["v"] (Some ["vector"; "maskable"; "mask"]) None [(KVector, OperAll)] [];
  mkRaw (Some "vmnand.mm") None (Some "V") None (Some 0x74002057) [] [] [] None None None ["v"] (Some ["vector"; "maskable"; "mask"]) None [(KVector, OperAll)] [];
  mkRaw (Some "vmnor.mm") None (Some "V") None (Some 0x78002057) [] [] [] None None None ["v"] (Some ["vector"; "maskable"; "mask"]) None [(KVector, OperAll)] [];
  mkRaw (Some "vmxnor.mm") None (Some "V") None (Some 0x7c002057) [] [] [] None None None ["v"] (Some ["vector"; "maskable"; "mask"]) None [(KVector, OperAll)] [];
  mkRaw (Some "vmsbf.m") None (Some "V") None (Some 0x5000a057) ["rs1"] [] [] None None None ["v"] (Some ["vector"; "maskable"; "mask"]) None [(KVector, (OperList ["rs2"; "rd"]))] [];
  mkRaw (Some "vmsof.m") None (Some "V") None (Some 0x50012057) ["rs1"] [] [] None None None ["v"] (Some ["vector"; "maskable"; "mask"]) None [(KVector, (OperList ["rs2"; "rd"]))] [];
  mkRaw (Some "vmsif.m") None (Some "V") None (Some 0x5001a057) ["rs1"] [] [] None None None ["v"] (Some ["vector"; "maskable"; "mask"]) None [(KVector, (OperList ["rs2"; "rd"]))] [];
  mkRaw (Some "viota.m") None (Some "V") None (Some 0x50082057) ["rs1"] [] [] None None None ["v"] (Some ["vector"; "maskable"]) None [(KVector, (OperList ["rs2"; "rd"]))] [];
  mkRaw (Some "vid.v") None (Some "V") None (Some 0x5008a057) ["rs2"; "rs1"] [] [] None None None ["v"] (Some ["vector"; "maskable"]) None [(KVector, (OperList ["rd"]))] [];
  mkRaw (Some "vpopc.m") None (Some "V") None (Some 0x40082057) ["rs1"] [] [] None None None ["v"] (Some ["vector"; "maskable"]) None [(KLong, (OperList ["rd"])); (KVector, (OperList ["rs2"]))] [];
  mkRaw (Some "vfirst.m") None (Some "V") None (Some 0x4008a057) ["rs1"] [] [] None None None ["v"] (Some ["vector"; "maskable"]) None [(KLong, (OperList ["rd"])); (KVector, (OperList ["rs2"]))] [];
  mkRaw (Some "vdivu.vv") None (Some "V") (Some "V_op") (Some 0x80002057) [] [] [] None None None ["v"] (Some ["vector"; "maskable"; "div"]) None [(KVector, OperAll)] [];
  mkRaw (Some "vdiv.vv") None (Some "V") (Some "V_op") (Some 0x84002057) [] [] [] None None None ["v"] (Some ["vector"; "maskable"; "div"]) None [(KVector, OperAll)] [];
  mkRaw (Some "vremu.vv") None (Some "V") (Some "V_op") (Some 0x88002057) [] [] [] None None None ["v"] (Some ["vector"; "maskable"; "div"]) None [(KVector, OperAll)] [];
  mkRaw (Some "vrem.vv") None (Some "V") (Some "V_op") (Some 0x8c002057) [] [] [] None None None ["v"] (Some ["vector"; "maskable"; "div"]) None [(KVector, OperAll)] [];
  mkRaw (Some "vmulhu.vv") None (Some "V") (Some "V_op") (Some 0x90002057) [] [] [] None None None ["v"] (Some ["vector"; "maskable"]) None [(KVector, OperAll)] [];
  mkRaw (Some "vmul.vv") None (Some "V") (Some "V_op") (Some 0x94002057) [] [] [] None None None ["v"] (Some ["vector"; "maskable"]) None [(KVector, OperAll)] [];
  mkRaw (Some "vmulhsu.vv") None (Some "V") (Some "V_op") (Some 0x98002057) [] [] [] None None None ["v"] (Some ["vector"; "maskable"]) None [(KVector, OperAll)] [];
  mkRaw (Some "vmulh.vv") None (Some "V") (Some "V_op") (Some 0x9c002057) [] [] [] None None None ["v"] (Some ["vector"; "maskable"]) None [(KVector, OperAll)] [];
  mkRaw (Some "vmadd.vv") None (Some "V") (Some "V_implied") (Some 0xa4002057) [] [] [] None None None ["v"] (Some ["vector"; "maskable"; "int"; "mac"]) None [(KVector, OperAll)] [];
  mkRaw (Some "vnmsub.vv") None (Some "V") (Some "V_implied") (Some 0xac002057) [] [] [] None None None ["v"] (Some ["vector"; "maskable"; "int"; "mac"]) None [(KVector, OperAll)] [];
  mkRaw (Some "vmacc.vv") None (Some "V") (Some "V_implied") (Some 0xb4002057) [] [] [] None None None ["v"] (Some ["vector"; "maskable"; "int"; "mac"]) None [(KVector, OperAll)] [];
  mkRaw (Some "vnmsac.vv") None (Some "V") (Some "V_implied") (Some 0xbc002057) [] [] [] None None None ["v"] (Some ["vector"; "maskable"; "int"; "mac"]) None [(KVector, OperAll)] [];
  mkRaw (Some "vwaddu.vv") None (Some "V") (Some "V_op") (Some 0xc0002057) [] [] [] None None None ["v"] (Some ["vector"; "maskable"; "widening"]) None [(KVector, OperAll)] [];
  mkRaw (Some "vwadd.vv") None (Some "V") (Some "V_op") (Some 0xc4002057) [] [] [] None None None ["v"] (Some ["vector"; "maskable"; "widening"]) None [(KVector, OperAll)] [];
  mkRaw (Some "vwsubu.vv") None (Some "V") (Some "V_op") (Some 0xc8002057) [] [] [] None None None ["v"] (Some ["vector"; "maskable"; "widening"]) None [(KVector, OperAll)] [];
  mkRaw (Some "vwsub.vv") None (Some "V") (Some "V_op") (Some 0xcc002057) [] [] [] None None None ["v"] (Some ["vector"; "maskable"; "widening"]) None [(KVector, OperAll)] [];
  mkRaw (Some "vwaddu.wv") None (Some "V") (Some "V_op") (Some 0xd0002057) [] [] [] None None None ["v"] (Some ["vector"; "maskable"; "widening"]) None [(KVector, OperAll)] [];
  mkRaw (Some "vwadd.wv") None (Some "V") (Some "V_op") (Some 0xd4002057) [] [] [] None None None ["v"] (Some ["vector"; "maskable"; "widening"]) None [(KVector, OperAll)] [];
  mkRaw (Some "vwsubu.wv") None (Some "V") (Some "V_op") (Some 0xd8002057) [] [] [] None None None ["v"] (Some ["vector"; "maskable"; "widening"]) None [(KVector, OperAll)] [];
  mkRaw (Some "vwsub.wv") None (Some "V") (Some "V_op") (Some 0xdc002057) [] [] [] None None None ["v"] (Some ["vector"; "maskable"; "widening"]) None [(KVector, OperAll)] [];
  mkRaw (Some "vwmulu.vv") None (Some "V") (Some "V_op") (Some 0xe0002057) [] [] [] None None None ["v"] (Some ["vector"; "maskable"; "widening"]) None [(KVector, OperAll)] [];
  mkRaw (Some "vwmulsu.vv") None (Some "V") (Some "V_op") (Some 0xe8002057) [] [] [] None None None ["v"] (Some ["vector"; "maskable"; "widening"]) None [(KVector, OperAll)] [];
  mkRaw (Some "vwmul.vv") None (Some "V") (Some "V_op") (Some 0xec002057) [] [] [] None None None ["v"] (Some ["vector"; "maskable"; "widening"]) None [(KVector, OperAll)] [];
  mkRaw (Some "vwmaccu.vv") None (Some "V") (Some "V_implied") (Some 0xf0002057) [] [] [] None None None ["v"] (Some ["vector"; "maskable"; "widening"; "int"; "mac"]) None [(KVector, OperAll)] [];
  mkRaw (Some "vwmacc.vv") None (Some "V") (Some "V_implied") (Some 0xf4002057) [] [] [] None None None ["v"] (Some ["vector"; "maskable"; "widening"; "int"; "mac"]) None [(KVector, OperAll)] [];
  mkRaw (Some "vwmaccsu.vv") None (Some "V") (Some "V_implied") (Some 0xfc002057) [] [] [] None None None ["v"] (Some ["vector"; "maskable"; "widening"; "int"; "mac"]) None [(KVector, OperAll)] [];
  mkRaw (Some "vaaddu.vx") None (Some "V") (Some "V_op") (Some 0x20006057) [] [] [] None None None ["v"] (Some ["vector"; "maskable"]) None [(KLong, (OperList ["rs1"])); (KVector, (OperList ["rs2"; "rd"]))] [];
  mkRaw (Some "vaadd.vx") None (Some "V") (Some "V_op") (Some 0x24006057) [] [] [] None None None ["v"] (Some ["vector"; "maskable"]) None [(KLong, (OperList ["rs1"])); (KVector, (OperList ["rs2"; "rd"]))] [];
  mkRaw (Some "vasubu.vx") None (Some "V") (Some "V_op") (Some 0x28006057) [] [] [] None None None ["v"] (Some ["vector"; "maskable"]) None [(KLong, (OperList ["rs1"])); (KVector, (OperList ["rs2"; "rd"]))] [];
  mkRaw (Some "vasub.vx") None (Some "V") (Some "V_op") (Some 0x2c006057) [] [] [] None None None ["v"] (Some ["vector"; "maskable"]) None [(KLong, (OperList ["rs1"])); (KVector, (OperList ["rs2"; "rd"]))] [];
  mkRaw (Some "vmv.s.x") None (Some "V") None (Some 0x42006057) ["vm"; "rs2"] [] [] None None None ["v"] (Some ["vector"; "move"]) None [(KLong, (OperList ["rs1"])); (KVector, (OperList ["rd"]))] [];
  mkRaw (Some "vslide1up.vx") None (Some "V") (Some "V_op") (Some 0x38006057) [] [] [] None None None ["v"] (Some ["vector"; "maskable"]) None [(KLong, (OperList ["rs1"])); (KVector, (OperList ["rs2"; "rd"]))] [];
  mkRaw (Some "vslide1down.vx") None (Some "V") (Some "V_op") (Some 0x3c006057) [] [] [] None None None ["v"] (Some ["vector"; "maskable"]) None [(KLong, (OperList ["rs1"])); (KVector, (OperList ["rs2"; "rd"]))] [];
  mkRaw (Some "vdivu.vx") None (Some "V") (Some "V_op") (Some 0x80006057) [] [] [] None None None ["v"] (Some ["vector"; "maskable"; "div"]) None [(KLong, (OperList ["rs1"])); (KVector, (OperList ["rs2"; "rd"]))] [];
  mkRaw (Some "vdiv.vx") None (Some "V") (Some "V_op") (Some 0x84006057) [] [] [] None None None ["v"] (Some ["vector"; "maskable"; "div"]) None [(KLong, (OperList ["rs1"])); (KVector, (OperList ["rs2"; "rd"]))] [];
  mkRaw (Some "vremu.vx") None (Some "V") (Some "V_op") (Some 0x88006057) [] [] [] None None None ["v"] (Some ["vector"; "maskable"; "div"]) None [(KLong, (OperList ["rs1"])); (KVector, (OperList ["rs2"; "rd"]))] [];
  mkRaw (Some "vrem.vx") None (Some "V") (Some "V_op") (Some 0x8c006057) [] [] [] None None None ["v"] (Some ["vector"; "maskable"; "div"]) None [(KLong, (OperList ["rs1"])); (KVector, (OperList ["rs2"; "rd"]))] [];
  mkRaw (Some "vmulhu.vx") None (Some "V") (Some "V_op") (Some 0x90006057) [] [] [] None None None ["v"] (Some ["vector"; "maskable"]) None [(KLong, (OperList ["rs1"])); (KVector, (OperList ["rs2"; "rd"]))] [];
  mkRaw (Some "vmul.vx") None (Some "V") (Some "V_op") (Some 0x94006057) [] [] [] None None None ["v"] (Some ["vector"; "maskable"]) None [(KLong, (OperList ["rs1"])); (KVector, (OperList ["rs2"; "rd"]))] [];
  mkRaw (Some "vmulhsu.vx") None (Some "V") (Some "V_op") (Some 0x98006057) [] [] [] None None None ["v"] (Some ["vector"; "maskable"]) None [(KLong, (OperList ["rs1"])); (KVector, (OperList ["rs2"; "rd"]))] [];
  mkRaw (Some "vmulh.vx") None (Some "V") (Some "V_op") (Some 0x9c006057) [] [] [] None None None ["v"] (Some ["vector"; "maskable"]) None [(KLong, (OperList ["rs1"])); (KVector, (OperList ["rs2"; "rd"]))] [];
  mkRaw (Some "vmadd.vx") None (Some "V") (Some "V_implied") (Some 0xa4006057) [] [] [] None None None ["v"] (Some ["vector"; "maskable"; "int"; "mac"]) None [(KLong, (OperList ["rs1"])); (KVector, (OperList ["rs2"; "rd"]))] [];
  mkRaw (Some "vnmsub.vx") None (Some "V") (Some "V_implied") (Some 0xac006057) [] [] [] None None None ["v"] (Some ["vector"; "maskable"; "int"; "mac"]) None [(KLong, (OperList ["rs1"])); (KVector, (OperList ["rs2"; "rd"]))] [];
  mkRaw (Some "vmacc.vx") None (Some "V") (Some "V_implied") (Some 0xb4006057) [] [] [] None None None ["v"] (Some ["vector"; "maskable"; "int"; "mac"]) None [(KLong, (OperList ["rs1"])); (KVector, (OperList ["rs2"; "rd"]))] [];
  mkRaw (Some "vnmsac.vx") None (Some "V") (Some "V_implied") (Some 0xbc006057) [] [] [] None None None ["v"] (Some ["vector"; "maskable"; "int"; "mac"]) None [(KLong, (OperList ["rs1"])); (KVector, (OperList ["rs2"; "rd"]))] [];
  mkRaw (Some "vwaddu.vx") None (Some "V") (Some "V_op") (Some 0xc0006057) [] [] [] None None None ["v"] (Some ["vector"; "maskable"; "widening"]) None [(KLong, (OperList ["rs1"])); (KVector, (OperList ["rs2"; "rd"]))] [];
  mkRaw (Some "vwadd.vx") None (Some "V") (Some "V_op") (Some 0xc4006057) [] [] [] None None None ["v"] (Some ["vector"; "maskable"; "widening"]) None [(KLong, (OperList ["rs1"])); (KVector, (OperList ["rs2"; "rd"]))] [];
  mkRaw (Some "vwsubu.vx") None (Some "V") (Some "V_op") (Some 0xc8006057) [] [] [] None None None ["v"] (Some ["vector"; "maskable"; "widening"]) None [(KLong, (OperList ["rs1"])); (KVector, (OperList ["rs2"; "rd"]))] [];
  mkRaw (Some "vwsub.vx") None (Some "V") (Some "V_op") (Some 0xcc006057) [] [] [] None None None ["v"] (Some ["vector"; "maskable"; "widening"]) None [(KLong, (OperList ["rs1"])); (KVector, (OperList ["rs2"; "rd"]))] [];
  mkRaw (Some "vwaddu.wx") None (Some "V") (Some "V_op") (Some 0xd0006057) [] [] [] None None None ["v"] (Some ["vector"; "maskable"; "widening"]) None [(KLong, (OperList ["rs1"])); (KVector, (OperList ["rs2"; "rd"]))] [];
  mkRaw (Some "vwadd.wx") None (Some "V") (Some "V_op") (Some 0xd4006057) [] [] [] None None None ["v"] (Some ["vector"; "maskable"; "widening"]) None [(KLong, (OperList ["rs1"])); (KVector, (OperList ["rs2"; "rd"]))] [];
  mkRaw (Some "vwsubu.wx") None (Some "V") (Some "V_op") (Some 0xd8006057) [] [] [] None None None ["v"] (Some ["vector"; "maskable"; "widening"]) None [(KLong, (OperList ["rs1"])); (KVector, (OperList ["rs2"; "rd"]))] [];
  mkRaw (Some "vwsub.wx") None (Some "V") (Some "V_op") (Some 0xdc006057) [] [] [] None None None ["v"] (Some ["vector"; "maskable"; "widening"]) None [(KLong, (OperList ["rs1"])); (KVector, (OperList ["rs2"; "rd"]))] [];
  mkRaw (Some "vwmulu.vx") None (Some "V") (Some "V_op") (Some 0xe0006057) [] [] [] None None None ["v"] (Some ["vector"; "maskable"; "widening"]) None [(KLong, (OperList ["rs1"])); (KVector, (OperList ["rs2"; "rd"]))] [];
  mkRaw (Some "vwmulsu.vx") None (Some "V") (Some "V_op") (Some 0xe8006057) [] [] [] None None None ["v"] (Some ["vector"; "maskable"; "widening"]) None [(KLong, (OperList ["rs1"])); (KVector, (OperList ["rs2"; "rd"]))] [];
  mkRaw (Some "vwmul.vx") None (Some "V") (Some "V_op") (Some 0xec006057) [] [] [] None None None ["v"] (Some ["vector"; "maskable"; "widening"]) None [(KLong, (OperList ["rs1"])); (KVector, (OperList ["rs2"; "rd"]))] [];
  mkRaw (Some "vwmaccu.vx") None (Some "V") (Some "V_implied") (Some 0xf0006057) [] [] [] None None None ["v"] (Some ["vector"; "maskable"; "widening"; "int"; "mac"]) None [(KLong, (OperList ["rs1"])); (KVector, (OperList ["rs2"; "rd"]))] [];
  mkRaw (Some "vwmacc.vx") None (Some "V") (Some "V_implied") (Some 0xf4006057) [] [] [] None None None ["v"] (Some ["vector"; "maskable"; "widening"; "int"; "mac"]) None [(KLong, (OperList ["rs1"])); (KVector, (OperList ["rs2"; "rd"]))] [];
  mkRaw (Some "vwmaccus.vx") None (Some "V") (Some "V_implied") (Some 0xf8006057) [] [] [] None None None ["v"] (Some ["vector"; "maskable"; "widening"; "int"; "mac"]) None [(KLong, (OperList ["rs1"])); (KVector, (OperList ["rs2"; "rd"]))] [];
  mkRaw (Some "vwmaccsu.vx") None (Some "V") (Some "V_implied") (Some 0xfc006057) [] [] [] None None None ["v"] (Some ["vector"; "maskable"; "widening"; "int"; "mac"]) None [(KLong, (OperList ["rs1"])); (KVector, (OperList ["rs2"; "rd"]))] []
].

(** json/isa_rv64vf.json *)
Definition isa_rv64vf : list raw := [
  mkRaw (Some "vfadd.vf") None (Some "V") (Some "V_op") (Some 0x5057) [] [] [] None None None ["v"] (Some ["vector"; "float"; "maskable"]) None [(KDouble, (OperList ["rs1"])); (KVector, (OperList ["rs2"; "rd"]))] [];
  mkRaw (Some "vfsub.vf") None (Some "V") (Some "V_op") (Some 0x8005057) [] [] [] None None None ["v"] (Some ["vector"; "float"; "maskable"]) None [(KDouble, (OperList ["rs1"])); (KVector, (OperList ["rs2"; "rd"]))] [];
  mkRaw (Some "vfmin.vf") None (Some "V") (Some "V_op") (Some 0x10005057) [] [] [] None None None ["v"] (Some ["vector"; "float"; "maskable"]) None [(KDouble, (OperList ["rs1"])); (KVector, (OperList ["rs2"; "rd"]))] [];
  mkRaw (Some "vfmax.vf") None (Some "V") (Some "V_op") (Some 0x18005057) [] [] [] None None None ["v"] (Some ["vector"; "float"; "maskable"]) None [(KDouble, (OperList ["rs1"])); (KVector, (OperList ["rs2"; "rd"]))] [];
  mkRaw (Some "vfsgnj.vf") None (Some "V") (Some "V_op") (Some 0x20005057) [] [] [] None None None ["v"] (Some ["vector"; "float"; "maskable"]) None [(KDouble, (OperList ["rs1"])); (KVector, (OperList ["rs2"; "rd"]))] [];
  mkRaw (Some "vfsgnjn.vf") None (Some "V") (Some "V_op") (Some 0x24005057) [] [] [] None None None ["v"] (Some ["vector"; "float"; "maskable"]) None [(KDouble, (OperList ["rs1"])); (KVector, (OperList ["rs2"; "rd"]))] [];
  mkRaw (Some "vfsgnjx.vf") None (Some "V") (Some "V_op") (Some 0x28005057) [] [] [] None None None ["v"] (Some ["vector"; "float"; "maskable"]) None [(KDouble, (OperList ["rs1"])); (KVector, (OperList ["rs2"; "rd"]))] [];
  mkRaw (Some "vfslide1up.vf") None (Some "V") (Some "V_op") (Some 0x38005057) [] [] [] None None None ["v"] (Some ["vector"; "float"; "maskable"]) None [(KDouble, (OperList ["rs1"])); (KVector, (OperList ["rs2"; "rd"]))] [];
  mkRaw (Some "vfslide1down.vf") None (Some "V") (Some "V_op") (Some 0x3c005057) [] [] [] None None None ["v"] (Some ["vector"; "float"; "maskable"]) None [(KDouble, (OperList ["rs1"])); (KVector, (OperList ["rs2"; "rd"]))] [];
  mkRaw (Some "vfmv.s.f") None (Some "V") None (Some 0x42005057) ["vm"; "rs2"] [] [] None None None ["v"] (Some ["vector"; "float"]) None [(KDouble, (OperList ["rs1"])); (KVector, (OperList ["rd"]))] [];
  mkRaw (Some "vfmerge.vfm") None (Some "V") None (Some 0x5c005057) ["vm"] [] [] None None None ["v"] (Some ["vector"; "float"]) None [(KDouble, (OperList ["rs1"])); (KVector, (OperList ["rs2"; "rd"]))] [];
  mkRaw (Some "vfmv.v.f") None (Some "V") None (Some 0x5e005057) ["vm"; "rs2"] [] [] None None None ["v"] (Some ["vector"; "float"]) None [(KDouble, (OperList ["rs1"])); (KVector, (OperList ["rd"]))] [];
  mkRaw (Some "vmfeq.vf") None (Some "V") (Some "V_op") (Some 0x60005057) [] [] [] None None None ["v"] (Some ["vector"; "float"; "mask"; "maskable"]) None [(KDouble, (OperList ["rs1"])); (KVector, (OperList ["rs2"; "rd"]))] [];
  mkRaw (Some "vmfle.vf") None (Some "V") (Some "V_op") (Some 0x64005057) [] [] [] None None None ["v"] (Some ["vector"; "float"; "mask"; "maskable"]) None [(KDouble, (OperList ["rs1"])); (KVector, (OperList ["rs2"; "rd"]))] [];
  mkRaw (Some "vmflt.vf") None (Some "V") (Some "V_op") (Some 0x6c005057) [] [] [] None None None ["v"] (Some ["vector"; "float"; "mask"; "maskable"]) None [(KDouble, (OperList ["rs1"])); (KVector, (OperList ["rs2"; "rd"]))] [];
  mkRaw (Some "vmfne.vf") None (Some "V") (Some "V_op") (Some 0x70005057) [] [] [] None None None ["v"] (Some ["vector"; "float"; "mask"; "maskable"]) None [(KDouble, (OperList ["rs1"])); (KVector, (OperList ["rs2"; "rd"]))] [];
  mkRaw (Some "vmfgt.vf") None (Some "V") (Some "V_op") (Some 0x74005057) [] [] [] None None None ["v"] (Some ["vector"; "float"; "mask"; "maskable"]) None [(KDouble, (OperList ["rs1"])); (KVector, (OperList ["rs2"; "rd"]))] [];
  mkRaw (Some "vmfge.vf") None (Some "V") (Some "V_op") (Some 0x7c005057) [] [] [] None None None ["v"] (Some ["vector"; "float"; "mask"; "maskable"]) None [(KDouble, (OperList ["rs1"])); (KVector, (OperList ["rs2"; "rd"]))] [];
  mkRaw (Some "vfdiv.vf") None (Some "V") (Some "V_op") (Some 0x80005057) [] [] [] None None None ["v"] (Some ["vector"; "float"; "maskable"; "div"]) None [(KDouble, (OperList ["rs1"])); (KVector, (OperList ["rs2"; "rd"]))] [];
  mkRaw (Some "vfrdiv.vf") None (Some "V") (Some "V_op") (Some 0x84005057) [] [] [] None None None ["v"] (Some ["vector"; "float"; "maskable"; "div"]) None [(KDouble, (OperList ["rs1"])); (KVector, (OperList ["rs2"; "rd"]))] [];
  mkRaw (Some "vfmul.vf") None (Some "V") (Some "V_op") (Some 0x90005057) [] [] [] None None None ["v"] (Some ["vector"; "float"; "maskable"]) None [(KDouble, (OperList ["rs1"])); (KVector, (OperList ["rs2"; "rd"]))] [];
  mkRaw (Some "vfrsub.vf") None (Some "V") (Some "V_op") (Some 0x9c005057) [] [] [] None None None ["v"] (Some ["vector"; "float"; "maskable"]) None [(KDouble, (OperList ["rs1"])); (KVector, (OperList ["rs2"; "rd"]))] [];
  mkRaw (Some "vfmadd.vf") None (Some "V") (Some "V_implied") (Some 0xa0005057) [] [] [] None None None ["v"] (Some ["vector"; "float"; "maskable"; "mac"]) None [(KDouble, (OperList ["rs1"])); (KVector, (OperList ["rs2"; "rd"]))] [];
  mkRaw (Some "vfnmadd.vf") None (Some "V") (Some "V_implied") (Some 0xa4005057) [] [] [] None None None ["v"] (Some ["vector"; "float"; "maskable"; "mac"]) None [(KDouble, (OperList ["rs1"])); (KVector, (OperList ["rs2"; "rd"]))] [];
  mkRaw (Some "vfmsub.vf") None (Some "V") (Some "V_implied") (Some 0xa8005057) [] [] [] None None None ["v"] (Some ["vector"; "float"; "maskable"; "mac"]) None [(KDouble, (OperList ["rs1"])); (KVector, (OperList ["rs2"; "rd"]))] [];
  mkRaw (Some "vfnmsub.vf") None (Some "V") (Some "V_implied") (Some 0xac005057) [] [] [] None None None ["v"] (Some ["vector"; "float"; "maskable"; "mac"]) None [(KDouble, (OperList ["rs1"])); (KVector, (OperList ["rs2"; "rd"]))] [];
  mkRaw (Some "vfmacc.vf") None (Some "V") (Some "V_implied") (Some 0xb0005057) [] [] [] None None None ["v"] (Some ["vector"; "float"; "maskable"; "mac"]) None [(KDouble, (OperList ["rs1"])); (KVector, (OperList ["rs2"; "rd"]))] [];
  mkRaw (Some "vfnmacc.vf") None (Some "V") (Some "V_implied") (Some 0xb4005057) [] [] [] None None None ["v"] (Some ["vector"; "float"; "maskable"; "mac"]) None [(KDouble, (OperList ["rs1"])); (KVector, (OperList ["rs2"; "rd"]))] [];
  mkRaw (Some "vfmsac.vf") None (Some "V") (Some "V_implied") (Some 0xb8005057) [] [] [] None None None ["v"] (Some ["vector"; "float"; "maskable"; "mac"]) None [(KDouble, (OperList ["rs1"])); (KVector, (OperList ["rs2"; "rd"]))] [];
  mkRaw (Some "vfnmsac.vf") None (Some "V") (Some "V_implied") (Some 0xbc005057) [] [] [] None None None ["v"] (Some ["vector"; "float"; "maskable"; "mac"]) None [(KDouble, (OperList ["rs1"])); (KVector, (OperList ["rs2"; "rd"]))] [];
  mkRaw (Some "vfwadd.vf") None (Some "V") (Some "V_op") (Some 0xc0005057) [] [] [] None None None ["v"] (Some ["vector"; "float"; "maskable"; "widening"]) None [(KDouble, (OperList ["rs1"])); (KVector, (OperList ["rs2"; "rd"]))] [];
  mkRaw (Some "vfwsub.vf") None (Some "V") (Some "V_op") (Some 0xc8005057) [] [] [] None None None ["v"] (Some ["vector"; "float"; "maskable"; "widening"]) None [(KDouble, (OperList ["rs1"])); (KVector, (OperList ["rs2"; "rd"]))] [];
  mkRaw (Some "vfwadd.wf") None (Some "V") None (Some 0xd0005057) [] [] [] None None None ["v"] (Some ["vector"; "float"; "maskable"; "widening"]) None [(KDouble, (OperList ["rs1"])); (KVector, (OperList ["rs2"; "rd"]))] [];
  mkRaw (Some "vfwsub.wf") None (Some "V") None (Some 0xd8005057) [] [] [] None None None ["v"] (Some ["vector"; "float"; "maskable"; "widening"]) None [(KDouble, (OperList ["rs1"])); (KVector, (OperList ["rs2"; "rd"]))] [];
  mkRaw (Some "vfwmul.vf") None (Some "V") (Some "V_op") (Some 0xe0005057) [] [] [] None None None ["v"] (Some ["vector"; "float"; "maskable"; "widening"]) None [(KDouble, (OperList ["rs1"])); (KVector, (OperList ["rs2"; "rd"]))] [];
  mkRaw (Some "vfwmacc.vf") None (Some "V") (Some "V_implied") (Some 0xf0005057) [] [] [] None None None ["v"] (Some ["vector"; "float"; "maskable"; "widening"; "mac"]) None [(KDouble, (OperList ["rs1"])); (KVector, (OperList ["rs2"; "rd"]))] [];
  mkRaw (Some "vfwnmacc.vf") None (Some "V") (Some "V_implied") (Some 0xf4005057) [] [] [] None None None ["v"] (Some ["vector"; "float"; "maskable"; "widening"; "mac"]) None [(KDouble, (OperList ["rs1"])); (KVector, (OperList ["rs2"; "rd"]))] [];
  mkRaw (Some "vfwmsac.vf") None (Some "V") (Some "V_implied") (Some 0xf8005057) [] [] [] None None None ["v"] (Some ["vector"; "float"; "maskable"; "widening"; "mac"]) None [(KDouble, (OperList ["rs1"])); (KVector, (OperList ["rs2"; "rd"]))] [];
  mkRaw (Some "vfwnmsac.vf") None (Some "V") (Some "V_implied") (Some 0xfc005057) [] [] [] None None None ["v"] (Some ["vector"; "float"; "maskable"; "widening"; "mac"]) None [(KDouble, (OperList ["rs1"])); (KVector, (OperList ["rs2"; "rd"]))] [];
  mkRaw (Some "vfadd.vv") None (Some "V") (Some "V_op") (Some 0x1057) [] [] [] None None None ["v"] (Some ["vector"; "float"; "maskable"]) None [(KVector, OperAll)] [];
  mkRaw (Some "vfredusum.vs") None (Some "V") (Some "V_op") (Some 0x4001057) [] [] [] None None None ["v"] (Some ["vector"; "float"; "maskable"]) None [(KVector, OperAll)] [];
  mkRaw (Some "vfsub.vv") None (Some "V") (Some "V_op") (Some 0x8001057) [] [] [] None None None ["v"] (Some ["vector"; "float"; "maskable"]) None [(KVector, OperAll)] [];
  mkRaw (Some "vfredosum.vs") None (Some "V") (Some "V_op") (Some 0xc001057) [] [] [] None None None ["v"] (Some ["vector"; "float"; "maskable"]) None [(KVector, OperAll)] [];
  mkRaw (Some "vfmin.vv") None (Some "V") (Some "V_op") (Some 0x10001057) [] [] [] None None None ["v"] (Some ["vector"; "float"; "maskable"]) None [(KVector, OperAll)] [];
  mkRaw (Some "vfredmin.vs") None (Some "V") (Some "V_op") (Some 0x14001057) [] [] [] None None None ["v"] (Some ["vector"; "float"; "maskable"]) None [(KVector, OperAll)] [];
  mkRaw (Some "vfmax.vv") None (Some "V") (Some "V_op") (Some 0x18001057) [] [] [] None None None ["v"] (Some ["vector"; "float"; "maskable"]) None [(KVector, OperAll)] [];
  mkRaw (Some "vfredmax.vs") None (Some "V") (Some "V_op") (Some 0x1c001057) [] [] [] None None None ["v"] (Some ["vector"; "float"; "maskable"]) None [(KVector, OperAll)] [];
  mkRaw (Some "vfsgnj.vv") None (Some "V") (Some "V_op") (Some 0x20001057) [] [] [] None None None ["v"] (Some ["vector"; "float"; "maskable"]) None [(KVector, OperAll)] [];
  mkRaw (Some "vfsgnjn.vv") None (Some "V") (Some "V_op") (Some 0x24001057) [] [] [] None None None ["v"] (Some ["vector"; "float"; "maskable"]) None [(KVector, OperAll)] [];
  mkRaw (Some "vfsgnjx.vv") None (Some "V") (Some "V_op") (Some 0x28001057) [] [] [] None None None ["v"] (Some ["vector"; "float"; "maskable"]) None [(KVector, OperAll)] [];
  mkRaw (Some "vfmv.f.s") None (Some "V") None (Some 0x42001057) ["vm"; "rs1"] [] [] None None None ["v"] (Some ["vector"; "float"]) None [(KDouble, (OperList ["rd"])); (KVector, (OperList ["rs2"]))] [];
  mkRaw (Some "vmfeq.vv") None (Some "V") (Some "V_op") (Some 0x60001057) [] [] [] None None None ["v"] (Some ["vector"; "float"; "mask"; "maskable"]) None [(KVector, OperAll)] [];
  mkRaw (Some "vmfle.vv") None (Some "V") (Some "V_op") (Some 0x64001057) [] [] [] None None None ["v"] (Some ["vector"; "float"; "mask"; "maskable"]) None [(KVector, OperAll)] [];
  mkRaw (Some "vmflt.vv") None (Some "V") (Some "V_op") (Some 0x6c001057) [] [] [] None None None ["v"] (Some ["vector"; "float"; "mask"; "maskable"]) None [(KVector, OperAll)] [];
  mkRaw (Some "vmfne.vv") None (Some "V") (Some "V_op") (Some 0x70001057) [] [] [] None None None ["v"] (Some ["vector"; "float"; "mask"; "maskable"]) None [(KVector, OperAll)] [];
  mkRaw (Some "vfdiv.vv") None (Some "V") (Some "V_op") (Some 0x80001057) [] [] [] None None None ["v"] (Some ["vector"; "float"; "maskable"; "div"]) None [(KVector, OperAll)] [];
  mkRaw (Some "vfmul.vv") None (Some "V") (Some "V_op") (Some 0x90001057) [] [] [] None None None ["v"] (Some ["vector"; "float"; "maskable"]) None [(KVector, OperAll)] [];
  mkRaw (Some "vfmadd.vv") None (Some "V") (Some "V_implied") (Some 0xa0001057) [] [] [] None None None ["v"] (Some ["vector"; "float"; "maskable"; "mac"]) None [(KVector, OperAll)] [];
  mkRaw (Some "vfnmadd.vv") None (Some "V") (Some "V_implied") (Some 0xa4001057) [] [] [] None None None ["v"] (Some ["vector"; "float"; "maskable"; "mac"]) None [(KVector, OperAll)] [];
  mkRaw (Some "vfmsub.vv") None (Some "V") (Some "V_implied") (Some 0xa8001057) [] [] [] None None None ["v"] (Some ["vector"; "float"; "maskable"; "mac"]) None [(KVector, OperAll)] [];
  mkRaw (Some "vfnmsub.vv") None (Some "V") (Some "V_implied") (Some 0xac001057) [] [] [] None None None ["v"] (Some ["vector"; "float"; "maskable"; "mac"]) None [(KVector, OperAll)] [];
  mkRaw (Some "vfmacc.vv") None (Some "V") (Some "V_implied") (Some 0xb0001057) [] [] [] None None None ["v"] (Some ["vector"; "float"; "maskable"; "mac"]) None [(KVector, OperAll)] [];
  mkRaw (Some "vfnmacc.vv") None (Some "V") (Some "V_implied") (Some 0xb4001057) [] [] [] None None None ["v"] (Some ["vector"; "float"; "maskable"; "mac"]) None [(KVector, OperAll)] [];
  mkRaw (Some "vfmsac.vv") None (Some "V") (Some "V_implied") (Some 0xb8001057) [] [] [] None None None ["v"] (Some ["vector"; "float"; "maskable"; "mac"]) None [(KVector, OperAll)] [];
  mkRaw (Some "vfnmsac.vv") None (Some "V") (Some "V_implied") (Some 0xbc001057) [] [] [] None None None ["v"] (Some ["vector"; "float"; "maskable"; "mac"]) None [(KVector, OperAll)] [];
  mkRaw (Some "vfcvt.xu.f.v") None (Some "V") None (Some 0x48001057) ["rs1"] [] [] None None None ["v"] (Some ["vector"; "float"; "maskable"]) None [(KVector, (OperList ["rs2"; "rd"]))] [];
  mkRaw (Some "vfcvt.x.f.v") None (Some "V") None (Some 0x48009057) ["rs1"] [] [] None None None ["v"] (Some ["vector"; "float"; "maskable"]) None [(KVector, (OperList ["rs2"; "rd"]))] [];
  mkRaw (Some "vfcvt.f.xu.v") None (Some "V") None (Some 0x48011057) ["rs1"] [] [] None None None ["v"] (Some ["vector"; "float"; "maskable"]) None [(KVector, (OperList ["rs2"; "rd"]))] [];
  mkRaw (Some "vfcvt.f.x.v") None (Some "V") None (Some 0x48019057) ["rs1"] [] [] None None None ["v"] (Some ["vector"; "float"; "maskable"]) None [(KVector, (OperList ["rs2"; "rd"]))] [];
  mkRaw (Some "vfcvt.rtz.xu.f.v") None (Some "V") None (Some 0x48031057) ["rs1"] [] [] None None None ["v"] (Some ["vector"; "float"; "maskable"]) None [(KVector, (OperList ["rs2"; "rd"]))] [];
  mkRaw (Some "vfcvt.rtz.x.f.v") None (Some "V") None (Some 0x48039057) ["rs1"] [] [] None None None ["v"] (Some ["vector"; "float"; "maskable"]) None [(KVector, (OperList ["rs2"; "rd"]))] [];
  mkRaw (Some "vfwcvt.xu.f.v") None (Some "V") None (Some 0x48041057) ["rs1"] [] [] None None None ["v"] (Some ["vector"; "float"; "maskable"; "widening"]) None [(KVector, (OperList ["rs2"; "rd"]))] [];
  mkRaw (Some "vfwcvt.x.f.v") None (Some "V") None (Some 0x48049057) ["rs1"] [] [] None None None ["v"] (Some ["vector"; "float"; "maskable"; "widening"]) None [(KVector, (OperList ["rs2"; "rd"]))] [];
  mkRaw (Some "vfwcvt.f.xu.v") None (Some "V") None (Some 0x48051057) ["rs1"] [] [] None None None ["v"] (Some ["vector"; "float"; "maskable"; "widening"]) None [(KVector, (OperList ["rs2"; "rd"]))] [];
  mkRaw (Some "vfwcvt.f.x.v") None (Some "V") None (Some 0x48059057) ["rs1"] [] [] None None None ["v"] (Some ["vector"; "float"; "maskable"; "widening"]) None [(KVector, (OperList ["rs2"; "rd"]))] [];
  mkRaw (Some "vfwcvt.f.f.v") None (Some "V") None (Some 0x48061057) ["rs1"] [] [] None None None ["v"] (Some ["vector"; "float"; "maskable"; "widening"]) None [(KVector, (OperList ["rs2"; "rd"]))] [];
  mkRaw (Some "vfwcvt.rtz.xu.f.v") None (Some "V") None (Some 0x48071057) ["rs1"] [] [] None None None ["v"] (Some ["vector"; "float"; "maskable"; "widening"]) None [(KVector, (OperList ["rs2"; "rd"]))] [];
  mkRaw (Some "vfwcvt.rtz.x.f.v") None (Some "V") None (Some 0x48079057) ["rs1"] [] [] None None None ["v"] (Some ["vector"; "float"; "maskable"; "widening"]) None [(KVector, (OperList ["rs2"; "rd"]))] [];
  mkRaw (Some "vfncvt.xu.f.w") None (Some "V") None (Some 0x48081057) ["rs1"] [] [] None None None ["v"] (Some ["vector"; "float"; "maskable"]) None [(KVector, (OperList ["rs2"; "rd"]))] [];
  mkRaw (Some "vfncvt.x.f.w") None (Some "V") None (Some 0x48089057) ["rs1"] [] [] None None None ["v"] (Some ["vector"; "float"; "maskable"]) None [(KVector, (OperList ["rs2"; "rd"]))] [];
  mkRaw (Some "vfncvt.f.xu.w") None (Some "V") None (Some 0x48091057) ["rs1"] [] [] None None None ["v"] (Some ["vector"; "float"; "maskable"]) None [(KVector, (OperList ["rs2"; "rd"]))] [];
  mkRaw (Some "vfncvt.f.x.w") None (Some "V") None (Some 0x48099057) ["rs1"] [] [] None None None ["v"] (Some ["vector"; "float"; "maskable"]) None [(KVector, (OperList ["rs2"; "rd"]))] [];
  mkRaw (Some "vfncvt.f.f.w") None (Some "V") None (Some 0x480a1057) ["rs1"] [] [] None None None ["v"] (Some ["vector"; "float"; "maskable"]) None [(KVector, (OperList ["rs2"; "rd"]))] [];
  mkRaw (Some "vfncvt.rod.f.f.w") None (Some "V") None (Some 0x480a9057) ["rs1"] [] [] None None None ["v"] (Some ["vector"; "float"; "maskable"]) None [(KVector, (OperList ["rs2"; "rd"]))] [];
  mkRaw (Some "vfncvt.rtz.xu.f.w") None (Some "V") None (Some 0x480b1057) ["rs1"] [] [] None None None ["v"] (Some ["vector"; "float"; "maskable"]) None [(KVector, (OperList ["rs2"; "rd"]))] [];
  mkRaw (Some "vfncvt.rtz.x.f.w") None (Some "V") None (Some 0x480b9057) ["rs1"] [] [] None None None ["v"] (Some ["vector"; "float"; "maskable"]) None [(KVector, (OperList ["rs2"; "rd"]))] [];
  mkRaw (Some "vfsqrt.v") None (Some "V") None (Some 0x4c001057) ["rs1"] [] [] None None None ["v"] (Some ["vector"; "float"; "maskable"; "sqrt"]) None [(KVector, (OperList ["rs2"; "rd"]))] [];
  mkRaw (Some "vfrsqrt7.v") None (Some "V") None (Some 0x4c021057) ["rs1"] [] [] None None None ["v"] (Some ["vector"; "float"; "maskable"; "sqrt"]) None [(KVector, (OperList ["rs2"; "rd"]))] [];
  mkRaw (Some "vfrec7.v") None (Some "V") None (Some 0x4c029057) ["rs1"] [] [] None None None ["v"] (Some ["vector"; "float"; "maskable"]) None [(KVector, (OperList ["rs2"; "rd"]))] [];
  mkRaw (Some "vfclass.v") None (Some "V") None (Some 0x4c081057) ["rs1"] [] [] None None None ["v"] (Some ["vector"; "float"; "maskable"]) None [(KVector, (OperList ["rs2"; "rd"]))] [];
  mkRaw (Some "vfwadd.vv") None (Some "V") (Some "V_op") (Some 0xc0001057) [] [] [] None None None ["v"] (Some ["vector"; "float"; "maskable"; "widening"]) None [(KVector, OperAll)] [];
  mkRaw (Some "vfwredusum.vs") None (Some "V") (Some "V_op") (Some 0xc4001057) [] [] [] None None None ["v"] (Some ["vector"; "float"; "maskable"; "widening"]) None [(KVector, OperAll)] [];
  mkRaw (Some "vfwsub.vv") None (Some "V") (Some "V_op") (Some 0xc8001057) [] [] [] None None None ["v"] (Some ["vector"; "float"; "maskable"; "widening"]) None [(KVector, OperAll)] [];
  mkRaw (Some "vfwredosum.vs") None (Some "V") (Some "V_op") (Some 0xcc001057) [] [] [] None None None ["v"] (Some ["vector"; "float"; "maskable"; "widening"]) None [(KVector, OperAll)] [];
  mkRaw (Some "vfwadd.wv") None (Some "V") None (Some 0xd0001057) [] [] [] None None None ["v"] (Some ["vector"; "float"; "maskable"; "widening"]) None [(KVector, OperAll)] [];
  mkRaw (Some "vfwsub.wv") None (Some "V") None (Some 0xd8001057) [] [] [] None None None ["v"] (Some ["vector"; "float"; "maskable"; "widening"]) None [(KVector, OperAll)] [];
  mkRaw (Some "vfwmul.vv") None (Some "V") (Some "V_op") (Some 0xe0001057) [] [] [] None None None ["v"] (Some ["vector"; "float"; "maskable"; "widening"]) None [(KVector, OperAll)] [];
  mkRaw (Some "vfdot.vv") None (Some "V") (Some "V_op") (Some 0xe4001057) [] [] [] None None None ["v"] (Some ["vector"; "float"; "maskable"]) None [(KVector, OperAll)] [];
  mkRaw (Some "vfwmacc.vv") None (Some "V") (Some "V_implied") (Some 0xf0001057) [] [] [] None None None ["v"] (Some ["vector"; "float"; "maskable"; "widening"; "mac"]) None [(KVector, OperAll)] [];
  mkRaw (Some "vfwnmacc.vv") None (Some "V") (Some "V_implied") (Some 0xf4001057) [] [] [] None None None ["v"] (Some ["vector"; "float"; "maskable"; "widening"; "mac"]) None [(KVector, OperAll)] [];
  mkRaw (Some "vfwmsac.vv") None (Some "V") (Some "V_implied") (Some 0xf8001057) [] [] [] None None None ["v"] (Some ["vector"; "float"; "maskable"; "widening"; "mac"]) None [(KVector, OperAll)] [];
  mkRaw (Some "vfwnmsac.vv") None (Some "V") (Some "V_implied") (Some 0xfc001057) [] [] [] None None None ["v"] (Some ["vector"; "float"; "maskable"; "widening"; "mac"]) None [(KVector, OperAll)] []
].

(** json/isa_rv64zawrs.json *)
Definition isa_rv64zawrs : list raw := [
  mkRaw (Some "wrs.nto") None (Some "R") None (Some 0xd00073) ["rs2"; "rs1"; "rd"] [] [] None None None ["zawrs"] (Some ["system"]) None [] [];
  mkRaw (Some "wrs.sto") None (Some "R") None (Some 0x1d00073) ["rs2"; "rs1"; "rd"] [] [] None None None ["zawrs"] (Some ["system"]) None [] []
].

(** json/isa_rv64zba.json *)
Definition isa_rv64zba : list raw := [
  mkRaw (Some "add.uw") None (Some "R") None (Some 0x800003b) [] [] [] None None None ["zba"; "b"] (Some ["int"; "arith"]) None [(KLong, OperAll)] [(None, "B")];
  mkRaw (Some "sh1add") None (Some "R") None (Some 0x20002033) [] [] [] None None None ["zba"; "b"] (Some ["int"; "arith"]) None [(KLong, OperAll)] [(None, "B")];
  mkRaw (Some "sh1add.uw") None (Some "R") None (Some 0x2000203b) [] [] [] None None None ["zba"; "b"] (Some ["int"; "arith"]) None [(KLong, OperAll)] [(None, "B")];
  mkRaw (Some "sh2add") None (Some "R") None (Some 0x20004033) [] [] [] None None None ["zba"; "b"] (Some ["int"; "arith"]) None [(KLong, OperAll)] [(None, "B")];
  mkRaw (Some "sh2add.uw") None (Some "R") None (Some 0x2000403b) [] [] [] None None None ["zba"; "b"] (Some ["int"; "arith"]) None [(KLong, OperAll)] [(None, "B")];
  mkRaw (Some "sh3add") None (Some "R") None (Some 0x20006033) [] [] [] None None None ["zba"; "b"] (Some ["int"; "arith"]) None [(KLong, OperAll)] [(None, "B")];
  mkRaw (Some "sh3add.uw") None (Some "R") None (Some 0x2000603b) [] [] [] None None None ["zba"; "b"] (Some ["int"; "arith"]) None [(KLong, OperAll)] [(None, "B")];
  mkRaw (Some "slli.uw") None (Some "ISHW") (Some "ISH") (Some 0x800101b) [] [] [0xa00101b] None None None ["zba"; "b"] (Some ["int"; "arith"]) None [(KLong, OperAll)] [(None, "B")]
].

(** json/isa_rv64zbb.json *)
Definition isa_rv64zbb : list raw := [
  mkRaw (Some "andn") None (Some "R") None (Some 0x40007033) [] [] [] None None None ["zbb"; "b"] (Some ["int"; "arith"]) None [(KLong, OperAll)] [(None, "B")];
  mkRaw (Some "orn") None (Some "R") None (Some 0x40006033) [] [] [] None None None ["zbb"; "b"] (Some ["int"; "arith"]) None [(KLong, OperAll)] [(None, "B")];
  mkRaw (Some "xnor") None (Some "R") None (Some 0x40004033) [] [] [] None None None ["zbb"; "b"] (Some ["int"; "arith"]) None [(KLong, OperAll)] [(None, "B")];
  mkRaw (Some "clz") None (Some "ISH") None (Some 0x60001013) ["shamt"] [] [] None None None ["zbb"; "b"] (Some ["int"; "arith"]) None [(KLong, OperAll)] [(None, "B")];
  mkRaw (Some "clzw") None (Some "ISHW") None (Some 0x6000101b) ["shamtw"] [] [] None None None ["zbb"; "b"] (Some ["int"; "arith"]) None [(KLong, OperAll)] [(None, "B")];
  mkRaw (Some "ctz") None (Some "ISH") None (Some 0x60101013) ["shamt"] [] [] None None None ["zbb"; "b"] (Some ["int"; "arith"]) None [(KLong, OperAll)] [(None, "B")];
  mkRaw (Some "ctzw") None (Some "ISHW") None (Some 0x6010101b) ["shamtw"] [] [] None None None ["zbb"; "b"] (Some ["int"; "arith"]) None [(KLong, OperAll)] [(None, "B")];
  mkRaw (Some "cpop") None (Some "ISH") None (Some 0x60201013) ["shamt"] [] [] None None None ["zbb"; "b"] (Some ["int"; "arith"]) None [(KLong, OperAll)] [(None, "B")];
  mkRaw (Some "cpopw") None (Some "ISHW") None (Some 0x6020101b) ["shamtw"] [] [] None None None ["zbb"; "b"] (Some ["int"; "arith"]) None [(KLong, OperAll)] [(None, "B")];
  mkRaw (Some "max") None (Some "R") None (Some 0xa006033) [] [] [] None None None ["zbb"; "b"] (Some ["int"; "arith"]) None [(KLong, OperAll)] [(None, "B")];
  mkRaw (Some "maxu") None (Some "R") None (Some 0xa007033) [] [] [] None None None ["zbb"; "b"] (Some ["int"; "arith"]) None [(KLong, OperAll)] [(None, "B")];
  mkRaw (Some "min") None (Some "R") None (Some 0xa004033) [] [] [] None None None ["zbb"; "b"] (Some ["int"; "arith"]) None [(KLong, OperAll)] [(None, "B")];
  mkRaw (Some "minu") None (Some "R") None (Some 0xa005033) [] [] [] None None None ["zbb"; "b"] (Some ["int"; "arith"]) None [(KLong, OperAll)] [(None, "B")];
  mkRaw (Some "sext.b") None (Some "ISH") None (Some 0x60401013) ["shamt"] [] [] None None None ["zbb"; "b"] (Some ["int"; "arith"]) None [(KLong, OperAll)] [(None, "B")];
  mkRaw (Some "sext.h") None (Some "ISH") None (Some 0x60501013) ["shamt"] [] [] None None None ["zbb"; "b"] (Some ["int"; "arith"]) None [(KLong, OperAll)] [(None, "B")];
  mkRaw (Some "pack") None (Some "R") None (Some 0x8004033) [] [] [] None None None ["zbb"; "b"] (Some ["int"; "arith"]) None [(KLong, OperAll)] [(None, "B")];
  mkRaw (Some "packw") None (Some "R") None (Some 0x800403b) [] [] [] None None None ["zbb"; "b"] (Some ["int"; "arith"]) None [(KLong, OperAll)] [(None, "B")];
  mkRaw (Some "packu") None (Some "R") None (Some 0x48004033) [] [] [] None None None ["zbb"; "b"] (Some ["int"; "arith"]) None [(KLong, OperAll)] [(None, "B")];
  mkRaw (Some "packuw") None (Some "R") None (Some 0x4800403b) [] [] [] None None None ["zbb"; "b"] (Some ["int"; "arith"]) None [(KLong, OperAll)] [(None, "B")];
  mkRaw (Some "rol") None (Some "R") None (Some 0x60001033) [] [] [] None None None ["zbb"; "b"] (Some ["int"; "arith"]) None [(KLong, OperAll)] [(None, "B")];
  mkRaw (Some "rolw") None (Some "R") None (Some 0x6000103b) [] [] [] None None None ["zbb"; "b"] (Some ["int"; "arith"]) None [(KLong, OperAll)] [(None, "B")];
  mkRaw (Some "ror") None (Some "R") None (Some 0x60005033) [] [] [] None None None ["zbb"; "b"] (Some ["int"; "arith"]) None [(KLong, OperAll)] [(None, "B")];
  mkRaw (Some "rori") None (Some "ISH") None (Some 0x60005013) [] [] [] None None None ["zbb"; "b"] (Some ["int"; "arith"]) None [(KLong, OperAll)] [(None, "B")];
  mkRaw (Some "roriw") None (Some "ISHW") None (Some 0x6000501b) [] [] [] None None None ["zbb"; "b"] (Some ["int"; "arith"]) None [(KLong, OperAll)] [(None, "B")];
  mkRaw (Some "rorw") None (Some "R") None (Some 0x6000503b) [] [] [] None None None ["zbb"; "b"] (Some ["int"; "arith"]) None [(KLong, OperAll)] [(None, "B")];
  mkRaw (Some "gorci") None (Some "ISH") None (Some 0x28005013) [] [] [] None None None ["zbb"; "b"] (Some ["int"; "arith"]) None [(KLong, OperAll)] [(None, "B")];
  mkRaw (Some "grevi") None (Some "ISH") None (Some 0x68005013) [] [] [] None None None ["zbb"; "b"] (Some ["int"; "arith"]) None [(KLong, OperAll)] [(None, "B")]
].

(** json/isa_rv64zbc.json *)
Definition isa_rv64zbc : list raw := [
  mkRaw (Some "clmul") None (Some "R") None (Some 0xa001033) [] [] [] None None None ["zbc"; "b"] (Some ["int"; "arith"]) None [(KLong, OperAll)] [(None, "B")];
  mkRaw (Some "clmulh") None (Some "R") None (Some 0xa003033) [] [] [] None None None ["zbc"; "b"] (Some ["int"; "arith"]) None [(KLong, OperAll)] [(None, "B")];
  mkRaw (Some "clmulr") None (Some "R") None (Some 0xa002033) [] [] [] None None None ["zbc"; "b"] (Some ["int"; "arith"]) None [(KLong, OperAll)] [(None, "B")]
].

(** json/isa_rv64zbs.json *)
Definition isa_rv64zbs : list raw := [
  mkRaw (Some "bclr") None (Some "R") None (Some 0x48001033) [] [] [] None None None ["zbs"; "b"] (Some ["int"; "arith"]) None [(KLong, OperAll)] [(None, "B")];
  mkRaw (Some "bclri") None (Some "ISH") None (Some 0x48001013) [] [] [] None None None ["zbs"; "b"] (Some ["int"; "arith"]) None [(KLong, OperAll)] [(None, "B")];
  mkRaw (Some "bext") None (Some "R") None (Some 0x48005033) [] [] [] None None None ["zbs"; "b"] (Some ["int"; "arith"]) None [(KLong, OperAll)] [(None, "B")];
  mkRaw (Some "bexti") None (Some "ISH") None (Some 0x48005013) [] [] [] None None None ["zbs"; "b"] (Some ["int"; "arith"]) None [(KLong, OperAll)] [(None, "B")];
  mkRaw (Some "binv") None (Some "R") None (Some 0x68001033) [] [] [] None None None ["zbs"; "b"] (Some ["int"; "arith"]) None [(KLong, OperAll)] [(None, "B")];
  mkRaw (Some "binvi") None (Some "ISH") None (Some 0x68001013) [] [] [] None None None ["zbs"; "b"] (Some ["int"; "arith"]) None [(KLong, OperAll)] [(None, "B")];
  mkRaw (Some "bset") None (Some "R") None (Some 0x28001033) [] [] [] None None None ["zbs"; "b"] (Some ["int"; "arith"]) None [(KLong, OperAll)] [(None, "B")];
  mkRaw (Some "bseti") None (Some "ISH") None (Some 0x28001013) [] [] [] None None None ["zbs"; "b"] (Some ["int"; "arith"]) None [(KLong, OperAll)] [(None, "B")]
].

(** json/isa_rv64zcb.json *)
Definition isa_rv64zcb : list raw := [
  mkRaw (Some "c.lbu") None (Some "C0") (Some "C0_load_byte") (Some 0x8000) ["imm3"] ["func2A"] [] None (Some "lbu") None ["zcb"] None None [] [];
  mkRaw (Some "c.lh") None (Some "C0") (Some "C0_load_half") (Some 0x8440) ["imm3"] [] [] None (Some "lh") None ["zcb"] None None [] [];
  mkRaw (Some "c.lhu") None (Some "C0") (Some "C0_load_half") (Some 0x8400) ["imm3"] [] [] None (Some "lhu") None ["zcb"] None None [] [];
  mkRaw (Some "c.sb") None (Some "C0") (Some "C0_store_byte") (Some 0x8800) ["imm3"] ["func2A"] [] None (Some "sb") None ["zcb"] None None [] [];
  mkRaw (Some "c.sh") None (Some "C0") (Some "C0_store_half") (Some 0x8c00) ["imm3"] [] [] None (Some "sh") None ["zcb"] None None [] [];
  mkRaw (Some "c.zext.b") None (Some "C1") (Some "C1_rsd_I0xFF") (Some 0x9c61) ["rs2"] [] [] None (Some "andi") None ["zcb"] None None [] [];
  mkRaw (Some "c.sext.b") None (Some "C1") (Some "C1_rsd") (Some 0x9c65) ["rs2"] [] [] None (Some "sext.b") None ["zcb"] None None [] [];
  mkRaw (Some "c.zext.h") None (Some "C1") (Some "C1_rsd_zext_I0") (Some 0x9c69) ["rs2"] [] [] None (Some "packw") None ["zcb"] None None [] [];
  mkRaw (Some "c.sext.h") None (Some "C1") (Some "C1_rsd") (Some 0x9c6d) ["rs2"] [] [] None (Some "sext.h") None ["zcb"] None None [] [];
  mkRaw (Some "c.zext.w") None (Some "C1") (Some "C1_rsd_zext_I0") (Some 0x9c71) ["rs2"] [] [] None (Some "add.uw") None ["zcb"] None None [] [];
  mkRaw (Some "c.not") None (Some "C1") (Some "C1_rsd_Ineg1") (Some 0x9c75) ["rs2"] [] [] None (Some "xori") None ["zcb"] None None [] [];
  mkRaw (Some "c.mul") None (Some "C1") (Some "CA") (Some 0x9c41) [] [] [] None (Some "mul") None ["zcb"] None None [] []
].

(** json/isa_rv64zfbfmin.json *)
Definition isa_rv64zfbfmin : list raw := [
  mkRaw (Some "fcvt.bf16.s") None (Some "Rfloat") None (Some 0x44800053) ["rs2"] [] [] None None None ["zfbfmin"] (Some ["float"; "convert"]) None [(KSingle, (OperList ["rs1"; "rd"]))] [];
  mkRaw (Some "fcvt.s.bf16") None (Some "Rfloat") None (Some 0x40600053) ["rs2"] [] [] None None None ["zfbfmin"] (Some ["float"; "convert"]) None [(KSingle, (OperList ["rs1"; "rd"]))] []
].

(** json/isa_rv64zfh.json *)
Definition isa_rv64zfh : list raw := [
  mkRaw (Some "fadd.h") None (Some "Rfloat") None (Some 0x4000053) [] [] [] None None None ["zfh"] (Some ["float"; "arith"]) None [(KSingle, OperAll)] [];
  mkRaw (Some "fsub.h") None (Some "Rfloat") None (Some 0xc000053) [] [] [] None None None ["zfh"] (Some ["float"; "arith"]) None [(KSingle, OperAll)] [];
  mkRaw (Some "fmul.h") None (Some "Rfloat") None (Some 0x14000053) [] [] [] None None None ["zfh"] (Some ["float"; "mul"]) None [(KSingle, OperAll)] [];
  mkRaw (Some "fdiv.h") None (Some "Rfloat") None (Some 0x1c000053) [] [] [] None None None ["zfh"] (Some ["float"; "div"]) None [(KSingle, OperAll)] [];
  mkRaw (Some "fsgnj.h") None (Some "Rfloat") None (Some 0x24000053) ["rm"] [] [] None None None ["zfh"] (Some ["float"; "arith"]) None [(KSingle, OperAll)] [];
  mkRaw (Some "fsgnjn.h") None (Some "Rfloat") None (Some 0x24001053) ["rm"] [] [] None None None ["zfh"] (Some ["float"; "arith"]) None [(KSingle, OperAll)] [];
  mkRaw (Some "fsgnjx.h") None (Some "Rfloat") None (Some 0x24002053) ["rm"] [] [] None None None ["zfh"] (Some ["float"; "arith"]) None [(KSingle, OperAll)] [];
  mkRaw (Some "fmin.h") None (Some "Rfloat") None (Some 0x2c000053) ["rm"] [] [] None None None ["zfh"] (Some ["float"; "arith"]) None [(KSingle, OperAll)] [];
  mkRaw (Some "fmax.h") None (Some "Rfloat") None (Some 0x2c001053) ["rm"] [] [] None None None ["zfh"] (Some ["float"; "arith"]) None [(KSingle, OperAll)] [];
  mkRaw (Some "fsqrt.h") None (Some "Rfloat") None (Some 0x5c000053) ["rs2"] [] [] None None None ["zfh"] (Some ["float"; "sqrt"]) None [(KSingle, OperAll)] [];
  mkRaw (Some "fle.h") None (Some "Rfloat") None (Some 0xa4000053) ["rm"] [] [] None None None ["zfh"] (Some ["float"; "compare"]) None [(KWord, (OperList ["rd"])); (KSingle, (OperList ["rs1"; "rs2"]))] [];
  mkRaw (Some "flt.h") None (Some "Rfloat") None (Some 0xa4001053) ["rm"] [] [] None None None ["zfh"] (Some ["float"; "compare"]) None [(KWord, (OperList ["rd"])); (KSingle, (OperList ["rs1"; "rs2"]))] [];
  mkRaw (Some "feq.h") None (Some "Rfloat") None (Some 0xa4002053) ["rm"] [] [] None None None ["zfh"] (Some ["float"; "compare"]) None [(KWord, (OperList ["rd"])); (KSingle, (OperList ["rs1"; "rs2"]))] [];
  mkRaw (Some "fcvt.h.s") None (Some "Rfloat") None (Some 0x44000053) ["rs2"] [] [] None None None ["zfh"] (Some ["float"; "convert"]) None [(KSingle, (OperList ["rs1"; "rd"]))] [];
  mkRaw (Some "fcvt.s.h") None (Some "Rfloat") None (Some 0x40200053) ["rs2"] [] [] None None None ["zfh"] (Some ["float"; "convert"]) None [(KSingle, (OperList ["rs1"; "rd"]))] [];
  mkRaw (Some "fcvt.w.h") None (Some "Rfloat") None (Some 0xc4000053) ["rs2"] [] [] None None None ["zfh"] (Some ["float"; "convert"]) None [(KWord, (OperList ["rd"])); (KSingle, (OperList ["rs1"]))] [];
  mkRaw (Some "fcvt.wu.h") None (Some "Rfloat") None (Some 0xc4100053) ["rs2"] [] [] None None None ["zfh"] (Some ["float"; "convert"]) None [(KWord, (OperList ["rd"])); (KSingle, (OperList ["rs1"]))] [];
  mkRaw (Some "fcvt.l.h") None (Some "Rfloat") None (Some 0xc4200053) ["rs2"] [] [] None None None ["zfh"] (Some ["float"; "convert"]) None [(KLong, (OperList ["rd"])); (KSingle, (OperList ["rs1"]))] [];
  mkRaw (Some "fcvt.lu.h") None (Some "Rfloat") None (Some 0xc4300053) ["rs2"] [] [] None None None ["zfh"] (Some ["float"; "convert"]) None [(KLong, (OperList ["rd"])); (KSingle, (OperList ["rs1"]))] [];
  mkRaw (Some "fcvt.h.l") None (Some "Rfloat") None (Some 0xd4200053) ["rs2"] [] [] None None None ["zfh"] (Some ["float"; "convert"]) None [(KLong, (OperList ["rs1"])); (KSingle, (OperList ["rd"]))] [];
  mkRaw (Some "fcvt.h.lu") None (Some "Rfloat") None (Some 0xd4300053) ["rs2"] [] [] None None None ["zfh"] (Some ["float"; "convert"]) None [(KLong, (OperList ["rs1"])); (KSingle, (OperList ["rd"]))] [];
  mkRaw (Some "fmv.x.h") None (Some "Rfloat") None (Some 0xe4000053) ["rm"; "rs2"] [] [] None None None ["zfh"; "zfbfmin"] (Some ["float"; "move"]) None [(KLong, (OperList ["rd"])); (KSingle, (OperList ["rs1"]))] [];
  mkRaw (Some "fclass.h") None (Some "Rfloat") None (Some 0xe4001053) ["rm"; "rs2"] [] [] None None None ["zfh"] (Some ["float"; "classify"]) None [(KLong, (OperList ["rd"])); (KSingle, (OperList ["rs1"]))] [];
  mkRaw (Some "fcvt.h.w") None (Some "Rfloat") None (Some 0xd4000053) ["rs2"] [] [] None None None ["zfh"] (Some ["float"; "convert"]) None [(KWord, (OperList ["rs1"])); (KSingle, (OperList ["rd"]))] [];
  mkRaw (Some "fcvt.h.wu") None (Some "Rfloat") None (Some 0xd4100053) ["rs2"] [] [] None None None ["zfh"] (Some ["float"; "convert"]) None [(KWord, (OperList ["rs1"])); (KSingle, (OperList ["rd"]))] [];
  mkRaw (Some "fmv.h.x") None (Some "Rfloat") None (Some 0xf4000053) ["rm"; "rs2"] [] [] None None None ["zfh"; "zfbfmin"] (Some ["float"; "move"]) None [(KLong, (OperList ["rs1"])); (KSingle, (OperList ["rd"]))] [];
  mkRaw (Some "flh") None (Some "VF_mem") (Some "I_load") (Some 0x1007) [] ["mewop"] [] None None None ["zfh"; "zfbfmin"] (Some ["float"; "load"]) (Some 16) [(KLong, (OperList ["rs1"])); (KSingle, (OperList ["rd"]))] [];
  mkRaw (Some "fsh") None (Some "VF_mem") (Some "S") (Some 0x1027) [] ["mewop"] [] None None None ["zfh"; "zfbfmin"] (Some ["float"; "store"]) (Some 16) [(KLong, (OperList ["rs1"])); (KSingle, (OperList ["rs2"]))] [];
  mkRaw (Some "fmadd.h") None (Some "R4") None (Some 0x4000043) [] [] [] None None None ["zfh"] (Some ["float"; "mac"]) None [(KSingle, OperAll)] [];
  mkRaw (Some "fmsub.h") None (Some "R4") None (Some 0x4000047) [] [] [] None None None ["zfh"] (Some ["float"; "mac"]) None [(KSingle, OperAll)] [];
  mkRaw (Some "fnmsub.h") None (Some "R4") None (Some 0x400004b) [] [] [] None None None ["zfh"] (Some ["float"; "mac"]) None [(KSingle, OperAll)] [];
  mkRaw (Some "fnmadd.h") None (Some "R4") None (Some 0x400004f) [] [] [] None None None ["zfh"] (Some ["float"; "mac"]) None [(KSingle, OperAll)] [];
  mkRaw (Some "fleq.h") None (Some "Rfloat") None (Some 0xa4004053) ["rm"] [] [] None None None ["zfh"; "zfa"] (Some ["float"; "arith"]) None [(KSingle, OperAll)] [];
  mkRaw (Some "fli.h") None (Some "Rfloat") None (Some 0xf4100053) ["rs2"; "rm"] [] [] None None None ["zfh"; "zfa"] (Some ["float"; "arith"]) None [(KSingle, OperAll)] [];
  mkRaw (Some "fltq.h") None (Some "Rfloat") None (Some 0xa4005053) ["rm"] [] [] None None None ["zfh"; "zfa"] (Some ["float"; "arith"]) None [(KSingle, OperAll)] [];
  mkRaw (Some "fmaxm.h") None (Some "Rfloat") None (Some 0x2c003053) ["rm"] [] [] None None None ["zfh"; "zfa"] (Some ["float"; "arith"]) None [(KSingle, OperAll)] [];
  mkRaw (Some "fminm.h") None (Some "Rfloat") None (Some 0x2c002053) ["rm"] [] [] None None None ["zfh"; "zfa"] (Some ["float"; "arith"]) None [(KSingle, OperAll)] [];
  mkRaw (Some "fround.h") None (Some "Rfloat") None (Some 0x44400053) ["rs2"] [] [] None None None ["zfh"; "zfa"] (Some ["float"; "arith"]) None [(KSingle, OperAll)] [];
  mkRaw (Some "froundnx.h") None (Some "Rfloat") None (Some 0x44500053) ["rs2"] [] [] None None None ["zfh"; "zfa"] (Some ["float"; "arith"]) None [(KSingle, OperAll)] []
].

(** json/isa_rv64zfh_d.json *)
Definition isa_rv64zfh_d : list raw := [
  mkRaw (Some "fcvt.h.d") None (Some "Rfloat") None (Some 0x44100053) ["rs2"] [] [] None None None ["zfh"] (Some ["float"; "convert"]) None [(KSingle, (OperList ["rd"])); (KDouble, (OperList ["rs1"]))] [];
  mkRaw (Some "fcvt.d.h") None (Some "Rfloat") None (Some 0x42200053) ["rs2"] [] [] None None None ["zfh"] (Some ["float"; "convert"]) None [(KSingle, (OperList ["rs1"])); (KDouble, (OperList ["rd"]))] []
].

(** json/isa_rv64zicbo.json *)
Definition isa_rv64zicbo : list raw := [
  mkRaw (Some "cbo.clean") None (Some "R") None (Some 0x10200f) ["rd"; "rs2"] [] [] None None None ["zicbo"] (Some ["cache"; "system"]) None [(KLong, (OperList ["rs1"]))] [];
  mkRaw (Some "cbo.flush") None (Some "R") None (Some 0x20200f) ["rd"; "rs2"] [] [] None None None ["zicbo"] (Some ["cache"; "system"]) None [(KLong, (OperList ["rs1"]))] [];
  mkRaw (Some "cbo.inval") None (Some "R") None (Some 0x200f) ["rd"; "rs2"] [] [] None None None ["zicbo"] (Some ["cache"; "system"]) None [(KLong, (OperList ["rs1"]))] [];
  mkRaw (Some "cbo.zero") None (Some "R") None (Some 0x40200f) ["rd"; "rs2"] [] [] None None None ["zicbo"] (Some ["cache"; "system"]) None [(KLong, (OperList ["rs1"]))] [];
  mkRaw (Some "prefetch.i") None (Some "I") (Some "PF_hint") None ["rd"; "rs2"] [] [] None None (Some ((Some "ori"), (Some [0xf00f80; 0x0]))) ["zicbo"] (Some ["prefetch"; "hint"]) None [(KLong, (OperList ["rs1"]))] [];
  mkRaw (Some "prefetch.r") None (Some "I") (Some "PF_hint") (Some 0x106013) ["rd"; "rs2"] [] [] None None (Some ((Some "ori"), (Some [0xf00f80; 0x100000]))) ["zicbo"] (Some ["prefetch"; "hint"]) (Some 8) [(KLong, (OperList ["rs1"]))] [];
  mkRaw (Some "prefetch.w") None (Some "I") (Some "PF_hint") (Some 0x306013) ["rd"; "rs2"] [] [] None None (Some ((Some "ori"), (Some [0xf00f80; 0x300000]))) ["zicbo"] (Some ["prefetch"; "hint"]) None [(KLong, (OperList ["rs1"]))] []
].

(** json/isa_rv64zicond.json *)
Definition isa_rv64zicond : list raw := [
  mkRaw (Some "czero.eqz") None (Some "R") None (Some 0xe005033) [] [] [] None None None ["zicond"] (Some ["int"; "arith"]) None [(KLong, OperAll)] [];
  mkRaw (Some "czero.nez") None (Some "R") None (Some 0xe007033) [] [] [] None None None ["zicond"] (Some ["int"; "arith"]) None [(KLong, OperAll)] []
].

(** json/isa_rv64zicsr.json *)
Definition isa_rv64zicsr : list raw := [
  mkRaw (Some "csrrw") None (Some "R") (Some "CSR") (Some 0x1073) [] ["func7"] [] (Some "csr") None None ["zicsr"; "g"] (Some ["csr"; "system"]) None [(KLong, OperAll)] [];
  mkRaw (Some "csrrs") None (Some "R") (Some "CSR") (Some 0x2073) [] ["func7"] [] (Some "csr") None None ["zicsr"; "g"] (Some ["csr"; "system"]) None [(KLong, OperAll)] [];
  mkRaw (Some "csrrc") None (Some "R") (Some "CSR") (Some 0x3073) [] ["func7"] [] (Some "csr") None None ["zicsr"; "g"] (Some ["csr"; "system"]) None [(KLong, OperAll)] [];
  mkRaw (Some "csrrwi") None (Some "R") (Some "CSRI") (Some 0x5073) [] ["func7"] [] (Some "csr") None None ["zicsr"; "g"] (Some ["csr"; "system"]) None [(KLong, OperAll)] [];
  mkRaw (Some "csrrsi") None (Some "R") (Some "CSRI") (Some 0x6073) [] ["func7"] [] (Some "csr") None None ["zicsr"; "g"] (Some ["csr"; "system"]) None [(KLong, OperAll)] [];
  mkRaw (Some "csrrci") None (Some "R") (Some "CSRI") (Some 0x7073) [] ["func7"] [] (Some "csr") None None ["zicsr"; "g"] (Some ["csr"; "system"]) None [(KLong, OperAll)] []
].

(** json/isa_rv64zifencei.json *)
Definition isa_rv64zifencei : list raw := [
  mkRaw (Some "fence.i") None (Some "FENCE") (Some "I") (Some 0x100f) [] [] [] None None None ["zifencei"; "g"] (Some ["fence"]) None [(KLong, OperAll)] []
].

(** json/isa_rv64zihintntl.json *)
Definition isa_rv64zihintntl : list raw := [
  mkRaw (Some "ntl.p1") None (Some "R") (Some "NTL_hint") (Some 0x200033) ["rd"; "rs1"; "rs2"] [] [] None None None ["zihintntl"] (Some ["ntl"; "hint"]) None [(KLong, OperAll)] [];
  mkRaw (Some "ntl.pall") None (Some "R") (Some "NTL_hint") (Some 0x300033) ["rd"; "rs1"; "rs2"] [] [] None None None ["zihintntl"] (Some ["ntl"; "hint"]) None [(KLong, OperAll)] [];
  mkRaw (Some "ntl.s1") None (Some "R") (Some "NTL_hint") (Some 0x400033) ["rd"; "rs1"; "rs2"] [] [] None None None ["zihintntl"] (Some ["ntl"; "hint"]) None [(KLong, OperAll)] [];
  mkRaw (Some "ntl.all") None (Some "R") (Some "NTL_hint") (Some 0x500033) ["rd"; "rs1"; "rs2"] [] [] None None None ["zihintntl"] (Some ["ntl"; "hint"]) None [(KLong, OperAll)] [];
  mkRaw (Some "c.ntl.p1") None (Some "C2") (Some "NTL_hint") (Some 0x900a) ["rs1"; "rs2"] [] [] None (Some "ntl.p1") None ["zihintntl"] None None [] [];
  mkRaw (Some "c.ntl.pall") None (Some "C2") (Some "NTL_hint") (Some 0x900e) ["rs1"; "rs2"] [] [] None (Some "ntl.pall") None ["zihintntl"] None None [] [];
  mkRaw (Some "c.ntl.s1") None (Some "C2") (Some "NTL_hint") (Some 0x9012) ["rs1"; "rs2"] [] [] None (Some "ntl.s1") None ["zihintntl"] None None [] [];
  mkRaw (Some "c.ntl.all") None (Some "C2") (Some "NTL_hint") (Some 0x9016) ["rs1"; "rs2"] [] [] None (Some "ntl.all") None ["zihintntl"] None None [] []
].

(** json/isa_rv64zihintpause.json *)
Definition isa_rv64zihintpause : list raw := [
  mkRaw (Some "pause") None (Some "FENCE") None (Some 0x100000f) ["rs1"; "rd"] [] [] None None (Some ((Some "fence"), (Some [0xffff8f80; 0x1000000]))) ["zihintpause"] (Some ["fence"]) None [] []
].

(** json/isa_rv64zvfbfwma.json *)
Definition isa_rv64zvfbfwma : list raw := [
  mkRaw (Some "vfwmaccbf16.vv") None (Some "V") (Some "V_op") (Some 0xec001057) [] [] [] None None None ["zvfbfwma"] (Some ["vector"; "float"; "maskable"; "widening"; "mac"]) None [(KVector, (OperList ["rs1"; "rs2"; "rd"]))] [];
  mkRaw (Some "vfwmaccbf16.vf") None (Some "V") (Some "V_op") (Some 0xec005057) [] [] [] None None None ["zvfbfwma"] (Some ["vector"; "float"; "maskable"; "widening"; "mac"]) None [(KSingle, (OperList ["rs1"])); (KVector, (OperList ["rs2"; "rd"]))] []
].

(** json/isa_rv64zvk.json *)
Definition isa_rv64zvk : list raw := [
  mkRaw (Some "vaesdf.vs") None (Some "V") (Some "V_op_implied") (Some 0xa600a077) ["rs1"; "vm"] [] [] None None None ["zvk"] (Some ["vector"; "crypto"]) None [(KVector, (OperList ["rs2"; "rd"]))] [];
  mkRaw (Some "vaesdf.vv") None (Some "V") (Some "V_op_implied") (Some 0xa200a077) ["rs1"; "vm"] [] [] None None None ["zvk"] (Some ["vector"; "crypto"]) None [(KVector, (OperList ["rs2"; "rd"]))] [];
  mkRaw (Some "vaesdm.vs") None (Some "V") (Some "V_op_implied") (Some 0xa6002077) ["rs1"; "vm"] [] [] None None None ["zvk"] (Some ["vector"; "crypto"]) None [(KVector, (OperList ["rs2"; "rd"]))] [];
  mkRaw (Some "vaesdm.vv") None (Some "V") (Some "V_op_implied") (Some 0xa2002077) ["rs1"; "vm"] [] [] None None None ["zvk"] (Some ["vector"; "crypto"]) None [(KVector, (OperList ["rs2"; "rd"]))] [];
  mkRaw (Some "vaesef.vs") None (Some "V") (Some "V_op_implied") (Some 0xa601a077) ["rs1"; "vm"] [] [] None None None ["zvk"] (Some ["vector"; "crypto"]) None [(KVector, (OperList ["rs2"; "rd"]))] [];
  mkRaw (Some "vaesef.vv") None (Some "V") (Some "V_op_implied") (Some 0xa201a077) ["rs1"; "vm"] [] [] None None None ["zvk"] (Some ["vector"; "crypto"]) None [(KVector, (OperList ["rs2"; "rd"]))] [];
  mkRaw (Some "vaesem.vs") None (Some "V") (Some "V_op_implied") (Some 0xa6012077) ["rs1"; "vm"] [] [] None None None ["zvk"] (Some ["vector"; "crypto"]) None [(KVector, (OperList ["rs2"; "rd"]))] [];
  mkRaw (Some "vaesem.vv") None (Some "V") (Some "V_op_implied") (Some 0xa2012077) ["rs1"; "vm"] [] [] None None None ["zvk"] (Some ["vector"; "crypto"]) None [(KVector, (OperList ["rs2"; "rd"]))] [];
  mkRaw (Some "vaeskf1.vi") None (Some "V") (Some "V_uimm") (Some 0x8a002077) ["vm"] [] [] None None None ["zvk"] (Some ["vector"; "crypto"]) None [(KVector, OperAll)] [];
  mkRaw (Some "vaeskf2.vi") None (Some "V") (Some "V_uimm_implied") (Some 0xaa002077) ["vm"] [] [] None None None ["zvk"] (Some ["vector"; "crypto"]) None [(KVector, OperAll)] [];
  mkRaw (Some "vaesz.vs") None (Some "V") (Some "V_op_implied") (Some 0xa603a077) ["rs1"; "vm"] [] [] None None None ["zvk"] (Some ["vector"; "crypto"]) None [(KVector, (OperList ["rs2"; "rd"]))] [];
  mkRaw (Some "vandn.vv") None (Some "V") (Some "V_op") (Some 0x4000057) [] [] [] None None None ["zvk"] (Some ["vector"; "crypto"; "maskable"]) None [(KVector, OperAll)] [];
  mkRaw (Some "vandn.vx") None (Some "V") (Some "V_op") (Some 0x4004057) [] [] [] None None None ["zvk"] (Some ["vector"; "crypto"; "maskable"]) None [(KLong, (OperList ["rs1"])); (KVector, (OperList ["rs2"; "rd"]))] [];
  mkRaw (Some "vbrev8.v") None (Some "V") (Some "V_op") (Some 0x48042057) ["rs1"] [] [] None None None ["zvk"] (Some ["vector"; "crypto"; "maskable"]) None [(KVector, (OperList ["rs2"; "rd"]))] [];
  mkRaw (Some "vclmul.vv") None (Some "V") (Some "V_op") (Some 0x30002057) [] [] [] None None None ["zvk"] (Some ["vector"; "crypto"; "maskable"]) None [(KVector, OperAll)] [];
  mkRaw (Some "vclmul.vx") None (Some "V") (Some "V_op") (Some 0x30006057) [] [] [] None None None ["zvk"] (Some ["vector"; "crypto"; "maskable"]) None [(KLong, (OperList ["rs1"])); (KVector, (OperList ["rs2"; "rd"]))] [];
  mkRaw (Some "vclmulh.vv") None (Some "V") (Some "V_op") (Some 0x34002057) [] [] [] None None None ["zvk"] (Some ["vector"; "crypto"; "maskable"]) None [(KVector, OperAll)] [];
  mkRaw (Some "vclmulh.vx") None (Some "V") (Some "V_op") (Some 0x34006057) [] [] [] None None None ["zvk"] (Some ["vector"; "crypto"; "maskable"]) None [(KLong, (OperList ["rs1"])); (KVector, (OperList ["rs2"; "rd"]))] [];
  mkRaw (Some "vghsh.vv") None (Some "V") (Some "V_op_implied") (Some 0xb2002077) ["vm"] [] [] None None None ["zvk"] (Some ["vector"; "crypto"]) None [(KVector, OperAll)] [];
  mkRaw (Some "vgmul.vv") None (Some "V") (Some "V_op_implied") (Some 0xa208a077) ["vm"; "rs1"] [] [] None None None ["zvk"] (Some ["vector"; "crypto"]) None [(KVector, (OperList ["rs2"; "rd"]))] [];
  mkRaw (Some "vrev8.v") None (Some "V") (Some "V_op") (Some 0x4804a057) ["rs1"] [] [] None None None ["zvk"] (Some ["vector"; "crypto"; "maskable"]) None [(KVector, (OperList ["rs2"; "rd"]))] [];
  mkRaw (Some "vbrev.v") None (Some "V") (Some "V_op") (Some 0x48052057) ["rs1"] [] [] None None None ["zvk"] (Some ["vector"; "crypto"; "maskable"]) None [(KVector, (OperList ["rs2"; "rd"]))] [];
  mkRaw (Some "vclz.v") None (Some "V") (Some "V_op") (Some 0x48062057) ["rs1"] [] [] None None None ["zvk"] (Some ["vector"; "crypto"; "maskable"]) None [(KVector, (OperList ["rs2"; "rd"]))] [];
  mkRaw (Some "vctz.v") None (Some "V") (Some "V_op") (Some 0x4806a057) ["rs1"] [] [] None None None ["zvk"] (Some ["vector"; "crypto"; "maskable"]) None [(KVector, (OperList ["rs2"; "rd"]))] [];
  mkRaw (Some "vcpop.v") None (Some "V") (Some "V_op") (Some 0x48072057) ["rs1"] [] [] None None None ["zvk"] (Some ["vector"; "crypto"; "maskable"]) None [(KVector, (OperList ["rs2"; "rd"]))] [];
  mkRaw (Some "vrol.vv") None (Some "V") (Some "V_op") (Some 0x54000057) [] [] [] None None None ["zvk"] (Some ["vector"; "crypto"; "maskable"]) None [(KVector, OperAll)] [];
  mkRaw (Some "vrol.vx") None (Some "V") (Some "V_op") (Some 0x54004057) [] [] [] None None None ["zvk"] (Some ["vector"; "crypto"; "maskable"]) None [(KLong, (OperList ["rs1"])); (KVector, (OperList ["rs2"; "rd"]))] [];
  mkRaw (Some "vror.vi") None (Some "V") (Some "V_uimm6") (Some 0x50003057) [] ["func1c"] [] None None None ["zvk"] (Some ["vector"; "crypto"; "maskable"]) None [(KVector, OperAll)] [];
  mkRaw (Some "vror.vv") None (Some "V") (Some "V_op") (Some 0x50000057) [] [] [] None None None ["zvk"] (Some ["vector"; "crypto"; "maskable"]) None [(KVector, OperAll)] [];
  mkRaw (Some "vror.vx") None (Some "V") (Some "V_op") (Some 0x50004057) [] [] [] None None None ["zvk"] (Some ["vector"; "crypto"; "maskable"]) None [(KLong, (OperList ["rs1"])); (KVector, (OperList ["rs2"; "rd"]))] [];
  mkRaw (Some "vwsll.vi") None (Some "V") (Some "V_uimm") (Some 0xd4003057) [] [] [] None None None ["zvk"] (Some ["vector"; "crypto"; "maskable"]) None [(KVector, (OperList ["rs2"; "rd"]))] [];
  mkRaw (Some "vwsll.vv") None (Some "V") (Some "V_op") (Some 0xd4000057) [] [] [] None None None ["zvk"] (Some ["vector"; "crypto"; "maskable"]) None [(KVector, OperAll)] [];
  mkRaw (Some "vwsll.vx") None (Some "V") (Some "V_op") (Some 0xd4004057) [] [] [] None None None ["zvk"] (Some ["vector"; "crypto"; "maskable"]) None [(KLong, (OperList ["rs1"])); (KVector, (OperList ["rs2"; "rd"]))] [];
  mkRaw (Some "vsha2ch.vv") None (Some "V") (Some "V_op_implied") (Some 0xba002077) ["vm"] [] [] None None None ["zvk"] (Some ["vector"; "crypto"]) None [(KVector, OperAll)] [];
  mkRaw (Some "vsha2cl.vv") None (Some "V") (Some "V_op_implied") (Some 0xbe002077) ["vm"] [] [] None None None ["zvk"] (Some ["vector"; "crypto"]) None [(KVector, OperAll)] [];
  mkRaw (Some "vsha2ms.vv") None (Some "V") (Some "V_op_implied") (Some 0xb6002077) ["vm"] [] [] None None None ["zvk"] (Some ["vector"; "crypto"]) None [(KVector, OperAll)] [];
  mkRaw (Some "vsm3c.vi") None (Some "V") (Some "V_uimm_implied") (Some 0xae002077) ["vm"] [] [] None None None ["zvk"] (Some ["vector"; "crypto"]) None [(KVector, OperAll)] [];
  mkRaw (Some "vsm3me.vv") None (Some "V") (Some "V_op") (Some 0x82002077) ["vm"] [] [] None None None ["zvk"] (Some ["vector"; "crypto"]) None [(KVector, OperAll)] [];
  mkRaw (Some "vsm4k.vi") None (Some "V") (Some "V_uimm") (Some 0x86002077) ["vm"] [] [] None None None ["zvk"] (Some ["vector"; "crypto"]) None [(KVector, OperAll)] [];
  mkRaw (Some "vsm4r.vv") None (Some "V") (Some "V_op_implied") (Some 0xa2082077) ["rs1"; "vm"] [] [] None None None ["zvk"] (Some ["vector"; "crypto"]) None [(KVector, (OperList ["rs2"; "rd"]))] [];
  mkRaw (Some "vsm4r.vs") None (Some "V") (Some "V_op_implied") (Some 0xa6082077) ["rs1"; "vm"] [] [] None None None ["zvk"] (Some ["vector"; "crypto"]) None [(KVector, (OperList ["rs2"; "rd"]))] []
].
