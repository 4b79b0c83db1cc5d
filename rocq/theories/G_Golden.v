(** Generated by tools/gen_golden.py from /repo/test/basic/main.cpp and golden.out; do not edit. *)
From Coq Require Import NArith ZArith List String.
From Verif Require Import M_Meta M_Extract M_Decoded M_OpcodeInfo M_Builder M_Raw G_Tables S_Golden.
Import ListNotations.
Local Open Scope N_scope.
Local Open Scope string_scope.

(** test/basic/isa_tagged.json *)
Definition tab_isa_tagged : list raw := [
  mkRaw (Some "ori") None (Some "ISH") (Some "I") (Some 0x6013) [] ["func6"] [] None None None [] (Some ["int"; "arith"]) None [(KLong, OperAll)] [];
  mkRaw (Some "cbo.clean") None (Some "R") None (Some 0x10200f) ["rd"; "rs2"] [] [] None None None ["ccf"; "zicbo"] (Some ["cache"; "system"]) None [(KLong, (OperList ["rs1"]))] [];
  mkRaw (Some "cbo.flush") None (Some "R") None (Some 0x20200f) ["rd"; "rs2"] [] [] None None None ["ccf"; "zicbo"] (Some ["cache"; "system"]) None [(KLong, (OperList ["rs1"]))] [];
  mkRaw (Some "cbo.inval") None (Some "R") None (Some 0x200f) ["rd"; "rs2"] [] [] None None None ["ccf"; "zicbo"] (Some ["cache"; "system"]) None [(KLong, (OperList ["rs1"]))] [];
  mkRaw (Some "cbo.zero") None (Some "R") None (Some 0x40200f) ["rd"; "rs2"] [] [] None None None ["ccf"; "zicbo"] (Some ["cache"; "system"]) None [(KLong, (OperList ["rs1"]))] [];
  mkRaw (Some "prefetch.i") None (Some "I") (Some "PF_hint") None ["rd"; "rs2"] [] [] None None (Some ((Some "ori"), (Some [0xf00f80; 0x0]))) ["pf"; "zicbo"] (Some ["prefetch"; "hint"]) None [(KLong, (OperList ["rs1"]))] [];
  mkRaw (Some "prefetch.r") None (Some "I") (Some "PF_hint") (Some 0x106013) ["rd"; "rs2"] [] [] None None (Some ((Some "ori"), (Some [0xf00f80; 0x100000]))) ["pf"; "zicbo"] (Some ["prefetch"; "hint"]) None [(KLong, (OperList ["rs1"]))] [];
  mkRaw (Some "prefetch.w") None (Some "I") (Some "PF_hint") (Some 0x306013) ["rd"; "rs2"] [] [] None None (Some ((Some "ori"), (Some [0xf00f80; 0x300000]))) ["pf"; "zicbo"] (Some ["prefetch"; "hint"]) None [(KLong, (OperList ["rs1"]))] []].

(** The files of table BASE, in order. *)
Definition files_BASE : list (list raw) :=
  [isa_rv64i; isa_rv64f; isa_rv64m; isa_rv64a; isa_rv64d; isa_rv64zicsr; isa_rv64zifencei; isa_rv64c; isa_rv64cf; isa_rv64cd; isa_rv64q; isa_rv64h; isa_rv64v; isa_rv64vf; isa_rv64zvk; isa_rv64zfh; isa_rv64zfh_d; isa_rv64zicbo; isa_rv64zihintntl; isa_rv64zihintpause; isa_rv64zicond; isa_rv64zawrs; isa_rv64zfbfmin; isa_rv64zvfbfwma].

(** The disassembly expected of opcodes with table BASE (with the line of main.cpp). *)
Definition dasm_BASE : list (N * N * string) := [
  (301, 0x3100b3, "add	x1,x2,x3");
  (306, 0x2028593, "addi	x11,x5, +0x20");
  (311, 0x28593, "mv	x11,x5, +0x0");
  (317, 0x4081, "c.li	x1, x0, +0x0");
  (322, 0x280e7, "jalr	x1,x5, +0x0");
  (331, 0xe152, "c.sdsp	x20, SP, IMM=128");
  (336, 0xfcd6, "c.sdsp	x21, SP, IMM=120");
  (341, 0xf1402573, "csrrs	x10,x0, CSR=0xf14");
  (366, 0x907405e3, "beq	x8,x7 +0xfffffffffffff90a");
  (372, 0x107405e3, "beq	x8,x7 +0x90a");
  (378, 0xd3ad, "c.beqz	x15, x0, +0xffffffffffffff62");
  (384, 0xc3ad, "c.beqz	x15, x0, +0x62");
  (390, 0x8f16c3ef, "jal	x7, +0xfffffffffff6c8f0");
  (396, 0xf16c3ef, "jal	x7, +0x6c8f0");
  (402, 0xb555, "c.j	x0, +0xfffffffffffffea4");
  (408, 0xa555, "c.j	x0, +0x6a4");
  (414, 0xa9cc0767, "jalr	x14,x24, +0xfffffffffffffa9c");
  (420, 0xbe10afa3, "sw	x1,x1, +0xfffffffffffffbff");
  (433, 0x60e2, "c.ldsp	x1, SP, IMM=24");
  (441, 0x53007, "fld	f0,x10, +0x0");
  (448, 0x2120, "c.fld	f8,x10, IMM=64");
  (455, 0x30200073, "mret	");
  (462, 0x1000202f, "lr.w	x0,x0, aq/wd=0, rl/vm=0");
  (469, 0x2928, "c.fld	f10,x10, IMM=80");
  (480, 0x2d2c, "c.fld	f11,x10, IMM=88");
  (491, 0x72a7f543, "fmadd.d	f10,f15,f10,f14, RM=7");
  (510, 0x8006, "c.mv	x0, x1");
  (523, 0x13, "nop	x0,x0, +0x0");
  (529, 0x1, "c.nop	+0x0");
  (541, 0x710d, "c.addi16sp	x2,x2, +0xfffffffffffffea0");
  (546, 0x5769, "c.li	x14, x0, +0xfffffffffffffffa");
  (551, 0x7769, "c.lui	x14, +0xffffffffffffa000");
  (556, 0x177c, "c.addi4spn	x15, SP, IMM=940");
  (561, 0x63b2af, "amoadd.d	x5,x7,x6, aq/wd=0, rl/vm=0");
  (566, 0x8516, "c.mv	x10, x5");
  (571, 0xe3c1, "c.bnez	x15, x0, +0x80");
  (576, 0x9696, "c.add	x13,x13,x5");
  (581, 0x5877857, "vsetvli	x16,x14, e64,m1,ta,mu");
  (586, 0x803170d7, "vsetvl	x1,x2,x3");
  (595, 0x2f007, "vle64.v	v0,x5,v0.t");
  (603, 0x102f007, "vle64ff.v	v0,x5,v0.t");
  (612, 0x202f007, "vle64.v	v0,x5");
  (620, 0x2206e007, "vlseg2e32.v	v0,x13");
  (628, 0xa606e007, "vluxseg6ei32.v	v0,x13,v0");
  (636, 0xea06e007, "vlsseg8e32.v	v0,x13,x0");
  (644, 0xc000007, "vloxei8.v	v0,x0,v0,v0.t");
  (651, 0x4000027, "vsuxei8.v	v0,x0,v0,v0.t");
  (657, 0x3ffbfd7, "vadd.vi	v31,v31,-1");
  (664, 0x3100d7, "vadd.vv	v1,v3,v2,v0.t");
  (685, 0x403100d7, "vadc.vvm	v1,v2,v3");
  (693, 0x5e008157, "vmv.v.v	v2,v1");
  (700, 0x3140d7, "vadd.vx	v1,v3,x2,v0.t");
  (708, 0x403140d7, "vadc.vxm	v1,x2,v3");
  (716, 0x5e00c157, "vmv.v.x	v2,x1");
  (723, 0x9e2030d7, "vmv1r.v	v1,v2");
  (730, 0x5008a0d7, "vid.v	v1,v0.t");
  (737, 0x100a7, "vse8.v	v1,x2,v0.t");
  (745, 0xc6880857, "vwredsum.vs	v16,v8,v16");
  (750, 0x52a1b657, "vror.vi	v12,v10, IMM=3");
  (757, 0x56b43757, "vror.vi	v14,v11, IMM=40");
  (764, 0xb662a257, "vmacc.vv	v4,v5,v6");
  (813, 0x2120, "c.fld	f8,x10, IMM=64");
  (820, 0x40e2, "c.lwsp	x1, SP, IMM=24");
  (828, 0x60e2, "c.ldsp	x1, SP, IMM=24");
  (836, 0x650d, "c.lui	x10, +0x3000");
  (841, 0x12000073, "sfence.vma	x0,x0");
  (846, 0xa422, "c.fsdsp	f8, SP, IMM=8");
  (918, 0x6f8c, "c.ld	x11,x15, IMM=24");
  (922, 0x1043823, "sd	x16,x8, +0x10");
  (932, 0x613, "li	x12, +0x0");
  (937, 0x80000613, "li	x12, +0xfffffffffffff800");
  (942, 0x13, "nop	x0,x0, +0x0");
  (947, 0x8613, "mv	x12,x1, +0x0");
  (952, 0x80008613, "addi	x12,x1, +0xfffffffffffff800");
  (957, 0x6013, "prefetch.i	x0, +0x0");
  (964, 0x206013, "ori	x0,x0, +0x2");
  (971, 0x106013, "prefetch.r	x0, +0x0");
  (978, 0x2306013, "prefetch.w	x0, +0x1");
  (985, 0x100000f, "pause	x0,x0, fm=0x0, pred=0x1, succ=0x0");
  (1065, 0x6013, "prefetch.i	x0, +0x0")].

(** What main.cpp asserts or golden.out shows of opcodes with table BASE. *)
Definition obs_BASE : list (N * N * gobs) := [
  (323, 0x280e7, GType "branch" true);
  (324, 0x280e7, GType "jalr" true);
  (325, 0x280e7, GExt EXT_CALL true);
  (326, 0x280e7, GExt EXT_RETURN true);
  (524, 0x13, GUid 1);
  (530, 0x1, GUid 1);
  (587, 0x803170d7, GVector Src 0x0);
  (588, 0x803170d7, GVector Dst 0x0);
  (589, 0x803170d7, GInt Src 0xc);
  (590, 0x803170d7, GInt Dst 0x2);
  (596, 0x2f007, GSpecial SF_VM 0x0);
  (597, 0x2f007, GSpecial SF_NF 0x0);
  (598, 0x2f007, GType "segment" true);
  (604, 0x102f007, GSpecial SF_VM 0x0);
  (605, 0x102f007, GSpecial SF_NF 0x0);
  (606, 0x102f007, GType "segment" true);
  (607, 0x102f007, GType "faultfirst" true);
  (613, 0x202f007, GSpecial SF_VM 0x1);
  (614, 0x202f007, GSpecial SF_NF 0x0);
  (615, 0x202f007, GType "segment" true);
  (621, 0x2206e007, GSpecial SF_VM 0x1);
  (622, 0x2206e007, GSpecial SF_NF 0x1);
  (623, 0x2206e007, GType "segment" true);
  (629, 0xa606e007, GSpecial SF_VM 0x1);
  (630, 0xa606e007, GSpecial SF_NF 0x5);
  (631, 0xa606e007, GType "segment" true);
  (637, 0xea06e007, GSpecial SF_VM 0x1);
  (638, 0xea06e007, GSpecial SF_NF 0x7);
  (639, 0xea06e007, GType "segment" true);
  (645, 0xc000007, GSpecial SF_NF 0x0);
  (646, 0xc000007, GType "segment" true);
  (652, 0x4000027, GSpecial SF_NF 0x0);
  (658, 0x3ffbfd7, GSpecial SF_VM 0x1);
  (659, 0x3ffbfd7, GOffset (-1)%Z);
  (665, 0x3100d7, GVector Src 0xc);
  (666, 0x3100d7, GVector Dst 0x2);
  (667, 0x3100d7, GField Dst RD true);
  (668, 0x3100d7, GValue Dst RD 1);
  (669, 0x3100d7, GKind Dst RD KVector);
  (670, 0x3100d7, GField Src RS1 true);
  (671, 0x3100d7, GValue Src RS1 2);
  (672, 0x3100d7, GKind Src RS1 KVector);
  (673, 0x3100d7, GField Src RS2 true);
  (674, 0x3100d7, GValue Src RS2 3);
  (675, 0x3100d7, GKind Src RS2 KVector);
  (686, 0x403100d7, GVector Src 0xc);
  (687, 0x403100d7, GVector Dst 0x2);
  (688, 0x403100d7, GType "mask" false);
  (694, 0x5e008157, GVector Src 0x2);
  (695, 0x5e008157, GVector Dst 0x4);
  (701, 0x3140d7, GInt Src 0x4);
  (702, 0x3140d7, GVector Src 0x8);
  (703, 0x3140d7, GVector Dst 0x2);
  (709, 0x403140d7, GInt Src 0x4);
  (710, 0x403140d7, GVector Src 0x8);
  (711, 0x403140d7, GVector Dst 0x2);
  (717, 0x5e00c157, GInt Src 0x2);
  (718, 0x5e00c157, GVector Dst 0x4);
  (724, 0x9e2030d7, GVector Src 0x4);
  (725, 0x9e2030d7, GVector Dst 0x2);
  (731, 0x5008a0d7, GVector Src 0x0);
  (732, 0x5008a0d7, GVector Dst 0x2);
  (738, 0x100a7, GInt Src 0x4);
  (739, 0x100a7, GVector Src 0x2);
  (740, 0x100a7, GType "segment" true);
  (751, 0x52a1b657, GImm 0x3);
  (752, 0x52a1b657, GHasImm true);
  (758, 0x56b43757, GImm 0x28);
  (759, 0x56b43757, GHasImm true);
  (765, 0xb662a257, GField Dst RD true);
  (766, 0xb662a257, GValue Dst RD 4);
  (767, 0xb662a257, GKind Dst RD KVector);
  (768, 0xb662a257, GAnyImplied);
  (769, 0xb662a257, GField Src RS1 true);
  (770, 0xb662a257, GValue Src RS1 5);
  (771, 0xb662a257, GKind Src RS1 KVector);
  (772, 0xb662a257, GField Src RS2 true);
  (773, 0xb662a257, GValue Src RS2 6);
  (774, 0xb662a257, GKind Src RS2 KVector);
  (775, 0xb662a257, GField Src RD true);
  (776, 0xb662a257, GImplied RD true);
  (777, 0xb662a257, GValue Src RD 4);
  (778, 0xb662a257, GKind Src RD KVector);
  (958, 0x6013, GImm 0x0);
  (959, 0x6013, GHasImm true);
  (965, 0x206013, GImm 0x2);
  (966, 0x206013, GHasImm true);
  (972, 0x106013, GImm 0x0);
  (973, 0x106013, GHasImm true);
  (979, 0x2306013, GImm 0x1);
  (980, 0x2306013, GHasImm true);
  (986, 0x100000f, GMnemonic "pause");
  (1066, 0x6013, GMnemonic "prefetch.i");
  (1067, 0x6013, GImm 0x0);
  (1068, 0x6013, GHasImm true);
  (1069, 0x6013, GImm 0x0);
  (1070, 0x6013, GHasImm true);
  (312, 0x28593, GHasImm false);
  (367, 0x907405e3, GOffset (-1782)%Z);
  (373, 0x107405e3, GOffset (2314)%Z);
  (379, 0xd3ad, GOffset (-158)%Z);
  (385, 0xc3ad, GOffset (98)%Z);
  (391, 0x8f16c3ef, GOffset (-603920)%Z);
  (397, 0xf16c3ef, GOffset (444656)%Z);
  (403, 0xb555, GOffset (-348)%Z);
  (409, 0xa555, GOffset (1700)%Z);
  (415, 0xa9cc0767, GOffset (-1380)%Z);
  (421, 0xbe10afa3, GAddr 0x2);
  (422, 0xbe10afa3, GData 0x2);
  (434, 0x60e2, GAddr 0x4);
  (435, 0x60e2, GData 0x0);
  (436, 0x60e2, GHasImm true);
  (442, 0x53007, GAddr 0x400);
  (443, 0x53007, GData 0x0);
  (449, 0x2120, GAddr 0x400);
  (450, 0x2120, GData 0x0);
  (456, 0x30200073, GAddr 0x0);
  (457, 0x30200073, GData 0x0);
  (463, 0x1000202f, GAddr 0x0);
  (464, 0x1000202f, GData 0x0);
  (470, 0x2928, GAddr 0x400);
  (471, 0x2928, GData 0x0);
  (472, 0x2928, GInt Src 0x400);
  (473, 0x2928, GFloat Src 0x0);
  (474, 0x2928, GInt Dst 0x0);
  (475, 0x2928, GFloat Dst 0x400);
  (481, 0x2d2c, GAddr 0x400);
  (482, 0x2d2c, GData 0x0);
  (483, 0x2d2c, GInt Src 0x400);
  (484, 0x2d2c, GFloat Src 0x0);
  (485, 0x2d2c, GInt Dst 0x0);
  (486, 0x2d2c, GFloat Dst 0x800);
  (814, 0x2120, GAddr 0x400);
  (815, 0x2120, GData 0x0);
  (821, 0x40e2, GAddr 0x4);
  (822, 0x40e2, GData 0x0);
  (823, 0x40e2, GHasImm true);
  (829, 0x60e2, GAddr 0x4);
  (830, 0x60e2, GData 0x0);
  (831, 0x60e2, GHasImm true)].

(** The text expected for the tree of table BASE: depth and text of each line. *)
Definition tree_BASE : list (nat * string) := [
  (0%nat, "IFactoryMatchListComposite::Field family");
  (1%nat, "[0]: IFactoryDenseComposite::Field opcode");
  (2%nat, "[0]: IFactoryDenseComposite::Field func3");
  (3%nat, "[0]: IFactoryDenseComposite::Field func2A");
  (4%nat, "[default]: IFactorySpecialCaseComposite::Field ");
  (5%nat, "[default]: 'c.addi4spn', extractor=Extractor 'CIW_sp', factory=IFactory('addi'), stencil = 0x13");
  (3%nat, "[1]: IFactoryDenseComposite::Field func2A");
  (4%nat, "[default]: IFactorySpecialCaseComposite::Field ");
  (5%nat, "[default]: 'c.fld', extractor=Extractor 'C0_load_double', factory=IFactory('fld'), stencil = 0x3007");
  (3%nat, "[2]: IFactoryDenseComposite::Field func2A");
  (4%nat, "[default]: IFactorySpecialCaseComposite::Field ");
  (5%nat, "[default]: 'c.lw', extractor=Extractor 'C0_load_word', factory=IFactory('lw'), stencil = 0x2003");
  (3%nat, "[3]: IFactoryDenseComposite::Field func2A");
  (4%nat, "[default]: IFactorySpecialCaseComposite::Field ");
  (5%nat, "[default]: 'c.ld', extractor=Extractor 'C0_load_double', factory=IFactory('ld'), stencil = 0x3003");
  (3%nat, "[5]: IFactoryDenseComposite::Field func2A");
  (4%nat, "[default]: IFactorySpecialCaseComposite::Field ");
  (5%nat, "[default]: 'c.fsd', extractor=Extractor 'C0_store_double', factory=IFactory('fsd'), stencil = 0x3027");
  (3%nat, "[6]: IFactoryDenseComposite::Field func2A");
  (4%nat, "[default]: IFactorySpecialCaseComposite::Field ");
  (5%nat, "[default]: 'c.sw', extractor=Extractor 'C0_store_word', factory=IFactory('sw'), stencil = 0x2023");
  (3%nat, "[7]: IFactoryDenseComposite::Field func2A");
  (4%nat, "[default]: IFactorySpecialCaseComposite::Field ");
  (5%nat, "[default]: 'c.sd', extractor=Extractor 'C0_store_double', factory=IFactory('sd'), stencil = 0x3023");
  (2%nat, "[1]: IFactoryDenseComposite::Field func3");
  (3%nat, "[0]: IFactoryDenseComposite::Field func2");
  (4%nat, "[0]: IFactoryDenseComposite::Field func2b");
  (5%nat, "[default]: IFactoryDenseComposite::Field func1");
  (6%nat, "[default]: IFactorySpecialCaseComposite::Field ");
  (7%nat, "[0]: 'c.nop', mask=0x380, field_set=0x8, value=0x0, nfixed=1, extractor=Extractor 'CI_addi', factory=CUSTOM IFactory('nop'): type = I");
  (4%nat, "[default]: IFactoryDenseComposite::Field func2b");
  (5%nat, "[default]: IFactoryDenseComposite::Field func1");
  (6%nat, "[default]: IFactorySpecialCaseComposite::Field ");
  (7%nat, "[default]: 'c.addi', extractor=Extractor 'CI_addi', factory=IFactory('addi'), stencil = 0x13");
  (3%nat, "[1]: IFactoryDenseComposite::Field func2");
  (4%nat, "[default]: IFactoryDenseComposite::Field func2b");
  (5%nat, "[default]: IFactoryDenseComposite::Field func1");
  (6%nat, "[default]: IFactorySpecialCaseComposite::Field ");
  (7%nat, "[default]: 'c.addiw', extractor=Extractor 'CI_addiw', factory=IFactory('addiw'), stencil = 0x1b");
  (3%nat, "[2]: IFactoryDenseComposite::Field func2");
  (4%nat, "[default]: IFactoryDenseComposite::Field func2b");
  (5%nat, "[default]: IFactoryDenseComposite::Field func1");
  (6%nat, "[default]: IFactorySpecialCaseComposite::Field ");
  (7%nat, "[default]: 'c.li', extractor=Extractor 'CI_rD_only', factory=IFactory('li'), stencil = 0x13");
  (3%nat, "[3]: IFactoryDenseComposite::Field func2");
  (4%nat, "[0]: IFactoryDenseComposite::Field func2b");
  (5%nat, "[default]: IFactoryDenseComposite::Field func1");
  (6%nat, "[default]: IFactorySpecialCaseComposite::Field ");
  (7%nat, "[0]: 'c.addi16sp', mask=0x380, field_set=0x8, value=0x100, nfixed=1, extractor=Extractor 'CI_sp', factory=IFactory('addi'), stencil = 0x13");
  (4%nat, "[default]: IFactoryDenseComposite::Field func2b");
  (5%nat, "[default]: IFactoryDenseComposite::Field func1");
  (6%nat, "[default]: IFactorySpecialCaseComposite::Field ");
  (7%nat, "[default]: 'c.lui', extractor=Extractor 'CI_rD_shifted', factory=IFactory('lui'), stencil = 0x37");
  (3%nat, "[4]: IFactoryDenseComposite::Field func2");
  (4%nat, "[0]: IFactoryDenseComposite::Field func2b");
  (5%nat, "[default]: IFactoryDenseComposite::Field func1");
  (6%nat, "[default]: IFactorySpecialCaseComposite::Field ");
  (7%nat, "[default]: 'c.srli', extractor=Extractor 'CIX', factory=IFactory('srli'), stencil = 0x5013");
  (4%nat, "[1]: IFactoryDenseComposite::Field func2b");
  (5%nat, "[default]: IFactoryDenseComposite::Field func1");
  (6%nat, "[default]: IFactorySpecialCaseComposite::Field ");
  (7%nat, "[default]: 'c.srai', extractor=Extractor 'CIX', factory=IFactory('srai'), stencil = 0x40005013");
  (4%nat, "[2]: IFactoryDenseComposite::Field func2b");
  (5%nat, "[default]: IFactoryDenseComposite::Field func1");
  (6%nat, "[default]: IFactorySpecialCaseComposite::Field ");
  (7%nat, "[default]: 'c.andi', extractor=Extractor 'CIX_andi', factory=IFactory('andi'), stencil = 0x7013");
  (4%nat, "[3]: IFactoryDenseComposite::Field func2b");
  (5%nat, "[0]: IFactoryDenseComposite::Field func1");
  (6%nat, "[0]: IFactorySpecialCaseComposite::Field ");
  (7%nat, "[default]: 'c.sub', extractor=Extractor 'CA', factory=IFactory('sub'), stencil = 0x40000033");
  (6%nat, "[1]: IFactorySpecialCaseComposite::Field ");
  (7%nat, "[default]: 'c.subw', extractor=Extractor 'CA', factory=IFactory('subw'), stencil = 0x4000003b");
  (5%nat, "[1]: IFactoryDenseComposite::Field func1");
  (6%nat, "[0]: IFactorySpecialCaseComposite::Field ");
  (7%nat, "[default]: 'c.xor', extractor=Extractor 'CA', factory=IFactory('xor'), stencil = 0x4033");
  (6%nat, "[1]: IFactorySpecialCaseComposite::Field ");
  (7%nat, "[default]: 'c.addw', extractor=Extractor 'CA', factory=IFactory('addw'), stencil = 0x3b");
  (5%nat, "[2]: IFactoryDenseComposite::Field func1");
  (6%nat, "[0]: IFactorySpecialCaseComposite::Field ");
  (7%nat, "[default]: 'c.or', extractor=Extractor 'CA', factory=IFactory('or'), stencil = 0x6033");
  (5%nat, "[3]: IFactoryDenseComposite::Field func1");
  (6%nat, "[0]: IFactorySpecialCaseComposite::Field ");
  (7%nat, "[default]: 'c.and', extractor=Extractor 'CA', factory=IFactory('and'), stencil = 0x7033");
  (3%nat, "[5]: IFactoryDenseComposite::Field func2");
  (4%nat, "[default]: IFactoryDenseComposite::Field func2b");
  (5%nat, "[default]: IFactoryDenseComposite::Field func1");
  (6%nat, "[default]: IFactorySpecialCaseComposite::Field ");
  (7%nat, "[default]: 'c.j', extractor=Extractor 'CJ', factory=IFactory('jal'), stencil = 0x6f");
  (3%nat, "[6]: IFactoryDenseComposite::Field func2");
  (4%nat, "[default]: IFactoryDenseComposite::Field func2b");
  (5%nat, "[default]: IFactoryDenseComposite::Field func1");
  (6%nat, "[default]: IFactorySpecialCaseComposite::Field ");
  (7%nat, "[default]: 'c.beqz', extractor=Extractor 'CB', factory=IFactory('beq'), stencil = 0x63");
  (3%nat, "[7]: IFactoryDenseComposite::Field func2");
  (4%nat, "[default]: IFactoryDenseComposite::Field func2b");
  (5%nat, "[default]: IFactoryDenseComposite::Field func1");
  (6%nat, "[default]: IFactorySpecialCaseComposite::Field ");
  (7%nat, "[default]: 'c.bnez', extractor=Extractor 'CB', factory=IFactory('bne'), stencil = 0x1063");
  (2%nat, "[2]: IFactoryDenseComposite::Field func3");
  (3%nat, "[0]: IFactoryDenseComposite::Field func1");
  (4%nat, "[default]: IFactorySpecialCaseComposite::Field ");
  (5%nat, "[default]: 'c.slli', extractor=Extractor 'C2_slli', factory=IFactory('slli'), stencil = 0x1013");
  (3%nat, "[1]: IFactoryDenseComposite::Field func1");
  (4%nat, "[default]: IFactorySpecialCaseComposite::Field ");
  (5%nat, "[default]: 'c.fldsp', extractor=Extractor 'C2_sp_load_float_double', factory=IFactory('fld'), stencil = 0x3007");
  (3%nat, "[2]: IFactoryDenseComposite::Field func1");
  (4%nat, "[default]: IFactorySpecialCaseComposite::Field ");
  (5%nat, "[default]: 'c.lwsp', extractor=Extractor 'C2_sp_load_word', factory=IFactory('lw'), stencil = 0x2003");
  (3%nat, "[3]: IFactoryDenseComposite::Field func1");
  (4%nat, "[default]: IFactorySpecialCaseComposite::Field ");
  (5%nat, "[default]: 'c.ldsp', extractor=Extractor 'C2_sp_load_double', factory=IFactory('ld'), stencil = 0x3003");
  (3%nat, "[4]: IFactoryDenseComposite::Field func1");
  (4%nat, "[0]: IFactorySpecialCaseComposite::Field ");
  (5%nat, "[0]: 'c.jr', mask=0x7c, field_set=0x40, value=0x0, nfixed=1, extractor=Extractor 'CJR', factory=IFactory('jalr'), stencil = 0x67");
  (5%nat, "[default]: 'c.mv', extractor=Extractor 'C2_mv', factory=IFactory('add'), stencil = 0x33");
  (4%nat, "[1]: IFactorySpecialCaseComposite::Field ");
  (5%nat, "[0]: 'c.ebreak', mask=0xffc, field_set=0x50, value=0x0, nfixed=2, extractor=Extractor 'C2', factory=IFactory('ebreak'), stencil = 0x100073");
  (5%nat, "[1]: 'c.ntl.p1', mask=0xffc, field_set=0x50, value=0x8, nfixed=2, extractor=Extractor 'NTL_hint', factory=IFactory('ntl.p1'), stencil = 0x200033");
  (5%nat, "[2]: 'c.ntl.pall', mask=0xffc, field_set=0x50, value=0xc, nfixed=2, extractor=Extractor 'NTL_hint', factory=IFactory('ntl.pall'), stencil = 0x300033");
  (5%nat, "[3]: 'c.ntl.s1', mask=0xffc, field_set=0x50, value=0x10, nfixed=2, extractor=Extractor 'NTL_hint', factory=IFactory('ntl.s1'), stencil = 0x400033");
  (5%nat, "[4]: 'c.ntl.all', mask=0xffc, field_set=0x50, value=0x14, nfixed=2, extractor=Extractor 'NTL_hint', factory=IFactory('ntl.all'), stencil = 0x500033");
  (5%nat, "[5]: 'c.jalr', mask=0x7c, field_set=0x40, value=0x0, nfixed=1, extractor=Extractor 'CJALR', factory=IFactory('jalr'), stencil = 0x67");
  (5%nat, "[default]: 'c.add', extractor=Extractor 'C2_add', factory=IFactory('add'), stencil = 0x33");
  (3%nat, "[5]: IFactoryDenseComposite::Field func1");
  (4%nat, "[default]: IFactorySpecialCaseComposite::Field ");
  (5%nat, "[default]: 'c.fsdsp', extractor=Extractor 'C2_sp_store_double', factory=IFactory('fsd'), stencil = 0x3027");
  (3%nat, "[6]: IFactoryDenseComposite::Field func1");
  (4%nat, "[default]: IFactorySpecialCaseComposite::Field ");
  (5%nat, "[default]: 'c.swsp', extractor=Extractor 'C2_sp_store_word', factory=IFactory('sw'), stencil = 0x2023");
  (3%nat, "[7]: IFactoryDenseComposite::Field func1");
  (4%nat, "[default]: IFactorySpecialCaseComposite::Field ");
  (5%nat, "[default]: 'c.sdsp', extractor=Extractor 'C2_sp_store_double', factory=IFactory('sd'), stencil = 0x3023");
  (1%nat, "[1]: IFactoryDenseComposite::Field opcode");
  (2%nat, "[3]: IFactoryDenseComposite::Field func3");
  (3%nat, "[0]: IFactorySpecialCaseComposite::Field ");
  (4%nat, "[default]: 'lb', extractor=Extractor 'I_load', factory=IFactory('lb'), stencil = 0x3");
  (3%nat, "[1]: IFactorySpecialCaseComposite::Field ");
  (4%nat, "[default]: 'lh', extractor=Extractor 'I_load', factory=IFactory('lh'), stencil = 0x1003");
  (3%nat, "[2]: IFactorySpecialCaseComposite::Field ");
  (4%nat, "[default]: 'lw', extractor=Extractor 'I_load', factory=IFactory('lw'), stencil = 0x2003");
  (3%nat, "[3]: IFactorySpecialCaseComposite::Field ");
  (4%nat, "[default]: 'ld', extractor=Extractor 'I_load', factory=IFactory('ld'), stencil = 0x3003");
  (3%nat, "[4]: IFactorySpecialCaseComposite::Field ");
  (4%nat, "[default]: 'lbu', extractor=Extractor 'I_load', factory=IFactory('lbu'), stencil = 0x4003");
  (3%nat, "[5]: IFactorySpecialCaseComposite::Field ");
  (4%nat, "[default]: 'lhu', extractor=Extractor 'I_load', factory=IFactory('lhu'), stencil = 0x5003");
  (3%nat, "[6]: IFactorySpecialCaseComposite::Field ");
  (4%nat, "[default]: 'lwu', extractor=Extractor 'I_load', factory=IFactory('lwu'), stencil = 0x6003");
  (2%nat, "[7]: IFactoryDenseComposite::Field width");
  (3%nat, "[0]: IFactoryDenseComposite::Field mewop");
  (4%nat, "[0]: IFactorySpecialCaseComposite::Field ");
  (5%nat, "[0]: 'vlm.v', mask=0xe3f00000, field_set=0xd, value=0x2b00000, nfixed=3, extractor=Extractor 'V_load', factory=IFactory('vlm.v'), stencil = 0x2b00007");
  (5%nat, "[1]: 'vl1re8.v', mask=0xe3f00000, field_set=0xd, value=0x2800000, nfixed=3, extractor=Extractor 'V_load', factory=IFactory('vl1re8.v'), stencil = 0x2800007");
  (5%nat, "[2]: 'vl2re8.v', mask=0xe3f00000, field_set=0xd, value=0x22800000, nfixed=3, extractor=Extractor 'V_load', factory=IFactory('vl2re8.v'), stencil = 0x22800007");
  (5%nat, "[3]: 'vl4re8.v', mask=0xe3f00000, field_set=0xd, value=0x62800000, nfixed=3, extractor=Extractor 'V_load', factory=IFactory('vl4re8.v'), stencil = 0x62800007");
  (5%nat, "[4]: 'vl8re8.v', mask=0xe3f00000, field_set=0xd, value=0xe2800000, nfixed=3, extractor=Extractor 'V_load', factory=IFactory('vl8re8.v'), stencil = 0xe2800007");
  (5%nat, "[5]: 'vle8.v', mask=0x1f00000, field_set=0x8, value=0x0, nfixed=1, extractor=Extractor 'V_load', factory=IFactory('vle8.v'), stencil = 0x7");
  (5%nat, "[6]: 'vle8ff.v', mask=0x1f00000, field_set=0x8, value=0x1000000, nfixed=1, extractor=Extractor 'V_load', factory=IFactory('vle8ff.v'), stencil = 0x1000007");
  (4%nat, "[1]: IFactorySpecialCaseComposite::Field ");
  (5%nat, "[default]: 'vluxei8.v', extractor=Extractor 'V_load', factory=IFactory('vluxei8.v'), stencil = 0x4000007");
  (4%nat, "[2]: IFactorySpecialCaseComposite::Field ");
  (5%nat, "[default]: 'vlse8.v', extractor=Extractor 'V_load', factory=IFactory('vlse8.v'), stencil = 0x8000007");
  (4%nat, "[3]: IFactorySpecialCaseComposite::Field ");
  (5%nat, "[default]: 'vloxei8.v', extractor=Extractor 'V_load', factory=IFactory('vloxei8.v'), stencil = 0xc000007");
  (3%nat, "[1]: IFactoryDenseComposite::Field mewop");
  (4%nat, "[default]: IFactorySpecialCaseComposite::Field ");
  (5%nat, "[default]: 'flh', extractor=Extractor 'I_load', factory=IFactory('flh'), stencil = 0x1007");
  (3%nat, "[2]: IFactoryDenseComposite::Field mewop");
  (4%nat, "[default]: IFactorySpecialCaseComposite::Field ");
  (5%nat, "[default]: 'flw', extractor=Extractor 'I_load', factory=IFactory('flw'), stencil = 0x2007");
  (3%nat, "[3]: IFactoryDenseComposite::Field mewop");
  (4%nat, "[default]: IFactorySpecialCaseComposite::Field ");
  (5%nat, "[default]: 'fld', extractor=Extractor 'I_load', factory=IFactory('fld'), stencil = 0x3007");
  (3%nat, "[4]: IFactoryDenseComposite::Field mewop");
  (4%nat, "[default]: IFactorySpecialCaseComposite::Field ");
  (5%nat, "[default]: 'flq', extractor=Extractor 'I_load', factory=IFactory('flq'), stencil = 0x4007");
  (3%nat, "[5]: IFactoryDenseComposite::Field mewop");
  (4%nat, "[0]: IFactorySpecialCaseComposite::Field ");
  (5%nat, "[0]: 'vl1re16.v', mask=0xe3f00000, field_set=0xd, value=0x2800000, nfixed=3, extractor=Extractor 'V_load', factory=IFactory('vl1re16.v'), stencil = 0x2805007");
  (5%nat, "[1]: 'vl2re16.v', mask=0xe3f00000, field_set=0xd, value=0x22800000, nfixed=3, extractor=Extractor 'V_load', factory=IFactory('vl2re16.v'), stencil = 0x22805007");
  (5%nat, "[2]: 'vl4re16.v', mask=0xe3f00000, field_set=0xd, value=0x62800000, nfixed=3, extractor=Extractor 'V_load', factory=IFactory('vl4re16.v'), stencil = 0x62805007");
  (5%nat, "[3]: 'vl8re16.v', mask=0xe3f00000, field_set=0xd, value=0xe2800000, nfixed=3, extractor=Extractor 'V_load', factory=IFactory('vl8re16.v'), stencil = 0xe2805007");
  (5%nat, "[4]: 'vle16.v', mask=0x1f00000, field_set=0x8, value=0x0, nfixed=1, extractor=Extractor 'V_load', factory=IFactory('vle16.v'), stencil = 0x5007");
  (5%nat, "[5]: 'vle16ff.v', mask=0x1f00000, field_set=0x8, value=0x1000000, nfixed=1, extractor=Extractor 'V_load', factory=IFactory('vle16ff.v'), stencil = 0x1005007");
  (4%nat, "[1]: IFactorySpecialCaseComposite::Field ");
  (5%nat, "[default]: 'vluxei16.v', extractor=Extractor 'V_load', factory=IFactory('vluxei16.v'), stencil = 0x4005007");
  (4%nat, "[2]: IFactorySpecialCaseComposite::Field ");
  (5%nat, "[default]: 'vlse16.v', extractor=Extractor 'V_load', factory=IFactory('vlse16.v'), stencil = 0x8005007");
  (4%nat, "[3]: IFactorySpecialCaseComposite::Field ");
  (5%nat, "[default]: 'vloxei16.v', extractor=Extractor 'V_load', factory=IFactory('vloxei16.v'), stencil = 0xc005007");
  (3%nat, "[6]: IFactoryDenseComposite::Field mewop");
  (4%nat, "[0]: IFactorySpecialCaseComposite::Field ");
  (5%nat, "[0]: 'vl1re32.v', mask=0xe3f00000, field_set=0xd, value=0x2800000, nfixed=3, extractor=Extractor 'V_load', factory=IFactory('vl1re32.v'), stencil = 0x2806007");
  (5%nat, "[1]: 'vl2re32.v', mask=0xe3f00000, field_set=0xd, value=0x22800000, nfixed=3, extractor=Extractor 'V_load', factory=IFactory('vl2re32.v'), stencil = 0x22806007");
  (5%nat, "[2]: 'vl4re32.v', mask=0xe3f00000, field_set=0xd, value=0x62800000, nfixed=3, extractor=Extractor 'V_load', factory=IFactory('vl4re32.v'), stencil = 0x62806007");
  (5%nat, "[3]: 'vl8re32.v', mask=0xe3f00000, field_set=0xd, value=0xe2800000, nfixed=3, extractor=Extractor 'V_load', factory=IFactory('vl8re32.v'), stencil = 0xe2806007");
  (5%nat, "[4]: 'vle32.v', mask=0x1f00000, field_set=0x8, value=0x0, nfixed=1, extractor=Extractor 'V_load', factory=IFactory('vle32.v'), stencil = 0x6007");
  (5%nat, "[5]: 'vle32ff.v', mask=0x1f00000, field_set=0x8, value=0x1000000, nfixed=1, extractor=Extractor 'V_load', factory=IFactory('vle32ff.v'), stencil = 0x1006007");
  (4%nat, "[1]: IFactorySpecialCaseComposite::Field ");
  (5%nat, "[default]: 'vluxei32.v', extractor=Extractor 'V_load', factory=IFactory('vluxei32.v'), stencil = 0x4006007");
  (4%nat, "[2]: IFactorySpecialCaseComposite::Field ");
  (5%nat, "[default]: 'vlse32.v', extractor=Extractor 'V_load', factory=IFactory('vlse32.v'), stencil = 0x8006007");
  (4%nat, "[3]: IFactorySpecialCaseComposite::Field ");
  (5%nat, "[default]: 'vloxei32.v', extractor=Extractor 'V_load', factory=IFactory('vloxei32.v'), stencil = 0xc006007");
  (3%nat, "[7]: IFactoryDenseComposite::Field mewop");
  (4%nat, "[0]: IFactorySpecialCaseComposite::Field ");
  (5%nat, "[0]: 'vl1re64.v', mask=0xe3f00000, field_set=0xd, value=0x2800000, nfixed=3, extractor=Extractor 'V_load', factory=IFactory('vl1re64.v'), stencil = 0x2807007");
  (5%nat, "[1]: 'vl2re64.v', mask=0xe3f00000, field_set=0xd, value=0x22800000, nfixed=3, extractor=Extractor 'V_load', factory=IFactory('vl2re64.v'), stencil = 0x22807007");
  (5%nat, "[2]: 'vl4re64.v', mask=0xe3f00000, field_set=0xd, value=0x62800000, nfixed=3, extractor=Extractor 'V_load', factory=IFactory('vl4re64.v'), stencil = 0x62807007");
  (5%nat, "[3]: 'vl8re64.v', mask=0xe3f00000, field_set=0xd, value=0xe2800000, nfixed=3, extractor=Extractor 'V_load', factory=IFactory('vl8re64.v'), stencil = 0xe2807007");
  (5%nat, "[4]: 'vle64.v', mask=0x1f00000, field_set=0x8, value=0x0, nfixed=1, extractor=Extractor 'V_load', factory=IFactory('vle64.v'), stencil = 0x7007");
  (5%nat, "[5]: 'vle64ff.v', mask=0x1f00000, field_set=0x8, value=0x1000000, nfixed=1, extractor=Extractor 'V_load', factory=IFactory('vle64ff.v'), stencil = 0x1007007");
  (4%nat, "[1]: IFactorySpecialCaseComposite::Field ");
  (5%nat, "[default]: 'vluxei64.v', extractor=Extractor 'V_load', factory=IFactory('vluxei64.v'), stencil = 0x4007007");
  (4%nat, "[2]: IFactorySpecialCaseComposite::Field ");
  (5%nat, "[default]: 'vlse64.v', extractor=Extractor 'V_load', factory=IFactory('vlse64.v'), stencil = 0x8007007");
  (4%nat, "[3]: IFactorySpecialCaseComposite::Field ");
  (5%nat, "[default]: 'vloxei64.v', extractor=Extractor 'V_load', factory=IFactory('vloxei64.v'), stencil = 0xc007007");
  (2%nat, "[f]: IFactoryDenseComposite::Field func3");
  (3%nat, "[0]: IFactorySpecialCaseComposite::Field ");
  (4%nat, "[default]: 'fence', extractor=Extractor 'FENCE', factory=IFactory('fence'), stencil = 0xf");
  (3%nat, "[1]: IFactorySpecialCaseComposite::Field ");
  (4%nat, "[default]: 'fence.i', extractor=Extractor 'I', factory=IFactory('fence.i'), stencil = 0x100f");
  (3%nat, "[2]: IFactoryDenseComposite::Field func7");
  (4%nat, "[0]: IFactorySpecialCaseComposite::Field ");
  (5%nat, "[0]: 'cbo.clean', mask=0x1f00f80, field_set=0x12, value=0x100000, nfixed=2, extractor=Extractor 'R', factory=IFactory('cbo.clean'), stencil = 0x10200f");
  (5%nat, "[1]: 'cbo.flush', mask=0x1f00f80, field_set=0x12, value=0x200000, nfixed=2, extractor=Extractor 'R', factory=IFactory('cbo.flush'), stencil = 0x20200f");
  (5%nat, "[2]: 'cbo.inval', mask=0x1f00f80, field_set=0x12, value=0x0, nfixed=2, extractor=Extractor 'R', factory=IFactory('cbo.inval'), stencil = 0x200f");
  (5%nat, "[3]: 'cbo.zero', mask=0x1f00f80, field_set=0x12, value=0x400000, nfixed=2, extractor=Extractor 'R', factory=IFactory('cbo.zero'), stencil = 0x40200f");
  (2%nat, "[13]: IFactoryDenseComposite::Field func3");
  (3%nat, "[0]: IFactoryDenseComposite::Field func6");
  (4%nat, "[default]: IFactorySpecialCaseComposite::Field ");
  (5%nat, "[0]: 'li', mask=0xf8000, field_set=0x4, value=0x0, nfixed=1, extractor=Extractor 'I', factory=IFactory('li'), stencil = 0x13");
  (5%nat, "[default]: 'addi', extractor=Extractor 'I', factory=IFactory('addi'), stencil = 0x13");
  (3%nat, "[1]: IFactoryDenseComposite::Field func6");
  (4%nat, "[0]: IFactorySpecialCaseComposite::Field ");
  (5%nat, "[default]: 'slli', extractor=Extractor 'ISH', factory=IFactory('slli'), stencil = 0x1013");
  (3%nat, "[2]: IFactoryDenseComposite::Field func6");
  (4%nat, "[default]: IFactorySpecialCaseComposite::Field ");
  (5%nat, "[default]: 'slti', extractor=Extractor 'I', factory=IFactory('slti'), stencil = 0x2013");
  (3%nat, "[3]: IFactoryDenseComposite::Field func6");
  (4%nat, "[default]: IFactorySpecialCaseComposite::Field ");
  (5%nat, "[default]: 'sltiu', extractor=Extractor 'I', factory=IFactory('sltiu'), stencil = 0x3013");
  (3%nat, "[4]: IFactoryDenseComposite::Field func6");
  (4%nat, "[default]: IFactorySpecialCaseComposite::Field ");
  (5%nat, "[default]: 'xori', extractor=Extractor 'I', factory=IFactory('xori'), stencil = 0x4013");
  (3%nat, "[5]: IFactoryDenseComposite::Field func6");
  (4%nat, "[0]: IFactorySpecialCaseComposite::Field ");
  (5%nat, "[default]: 'srli', extractor=Extractor 'ISH', factory=IFactory('srli'), stencil = 0x5013");
  (4%nat, "[10]: IFactorySpecialCaseComposite::Field ");
  (5%nat, "[default]: 'srai', extractor=Extractor 'ISH', factory=IFactory('srai'), stencil = 0x40005013");
  (3%nat, "[6]: IFactoryDenseComposite::Field func6");
  (4%nat, "[default]: IFactorySpecialCaseComposite::Field ");
  (5%nat, "[default]: 'ori', extractor=Extractor 'I', factory=IFactory('ori'), stencil = 0x6013");
  (3%nat, "[7]: IFactoryDenseComposite::Field func6");
  (4%nat, "[default]: IFactorySpecialCaseComposite::Field ");
  (5%nat, "[default]: 'andi', extractor=Extractor 'I', factory=IFactory('andi'), stencil = 0x7013");
  (2%nat, "[17]: IFactorySpecialCaseComposite::Field ");
  (3%nat, "[default]: 'auipc', extractor=Extractor 'U', factory=IFactory('auipc'), stencil = 0x17");
  (2%nat, "[1b]: IFactoryDenseComposite::Field func3");
  (3%nat, "[0]: IFactoryDenseComposite::Field func7");
  (4%nat, "[default]: IFactorySpecialCaseComposite::Field ");
  (5%nat, "[default]: 'addiw', extractor=Extractor 'I', factory=IFactory('addiw'), stencil = 0x1b");
  (3%nat, "[1]: IFactoryDenseComposite::Field func7");
  (4%nat, "[0]: IFactorySpecialCaseComposite::Field ");
  (5%nat, "[default]: 'slliw', extractor=Extractor 'ISHW', factory=IFactory('slliw'), stencil = 0x101b");
  (3%nat, "[5]: IFactoryDenseComposite::Field func7");
  (4%nat, "[0]: IFactorySpecialCaseComposite::Field ");
  (5%nat, "[default]: 'srliw', extractor=Extractor 'ISHW', factory=IFactory('srliw'), stencil = 0x501b");
  (4%nat, "[20]: IFactorySpecialCaseComposite::Field ");
  (5%nat, "[default]: 'sraiw', extractor=Extractor 'ISHW', factory=IFactory('sraiw'), stencil = 0x4000501b");
  (2%nat, "[23]: IFactoryDenseComposite::Field func3");
  (3%nat, "[0]: IFactorySpecialCaseComposite::Field ");
  (4%nat, "[default]: 'sb', extractor=Extractor 'S', factory=IFactory('sb'), stencil = 0x23");
  (3%nat, "[1]: IFactorySpecialCaseComposite::Field ");
  (4%nat, "[default]: 'sh', extractor=Extractor 'S', factory=IFactory('sh'), stencil = 0x1023");
  (3%nat, "[2]: IFactorySpecialCaseComposite::Field ");
  (4%nat, "[default]: 'sw', extractor=Extractor 'S', factory=IFactory('sw'), stencil = 0x2023");
  (3%nat, "[3]: IFactorySpecialCaseComposite::Field ");
  (4%nat, "[default]: 'sd', extractor=Extractor 'S', factory=IFactory('sd'), stencil = 0x3023");
  (2%nat, "[27]: IFactoryDenseComposite::Field width");
  (3%nat, "[0]: IFactoryDenseComposite::Field mewop");
  (4%nat, "[0]: IFactorySpecialCaseComposite::Field ");
  (5%nat, "[0]: 'vsm.v', mask=0xe3f00000, field_set=0xd, value=0x2b00000, nfixed=3, extractor=Extractor 'V_store', factory=IFactory('vsm.v'), stencil = 0x2b00027");
  (5%nat, "[1]: 'vs1r.v', mask=0xe3f00000, field_set=0xd, value=0x2800000, nfixed=3, extractor=Extractor 'V_store', factory=IFactory('vs1r.v'), stencil = 0x2800027");
  (5%nat, "[2]: 'vs2r.v', mask=0xe3f00000, field_set=0xd, value=0x22800000, nfixed=3, extractor=Extractor 'V_store', factory=IFactory('vs2r.v'), stencil = 0x22800027");
  (5%nat, "[3]: 'vs4r.v', mask=0xe3f00000, field_set=0xd, value=0x62800000, nfixed=3, extractor=Extractor 'V_store', factory=IFactory('vs4r.v'), stencil = 0x62800027");
  (5%nat, "[4]: 'vs8r.v', mask=0xe3f00000, field_set=0xd, value=0xe2800000, nfixed=3, extractor=Extractor 'V_store', factory=IFactory('vs8r.v'), stencil = 0xe2800027");
  (5%nat, "[5]: 'vse8.v', mask=0x1f00000, field_set=0x8, value=0x0, nfixed=1, extractor=Extractor 'V_store', factory=IFactory('vse8.v'), stencil = 0x27");
  (4%nat, "[1]: IFactorySpecialCaseComposite::Field ");
  (5%nat, "[default]: 'vsuxei8.v', extractor=Extractor 'V_store', factory=IFactory('vsuxei8.v'), stencil = 0x4000027");
  (4%nat, "[2]: IFactorySpecialCaseComposite::Field ");
  (5%nat, "[default]: 'vsse8.v', extractor=Extractor 'V_store', factory=IFactory('vsse8.v'), stencil = 0x8000027");
  (4%nat, "[3]: IFactorySpecialCaseComposite::Field ");
  (5%nat, "[default]: 'vsoxei8.v', extractor=Extractor 'V_store', factory=IFactory('vsoxei8.v'), stencil = 0xc000027");
  (3%nat, "[1]: IFactoryDenseComposite::Field mewop");
  (4%nat, "[default]: IFactorySpecialCaseComposite::Field ");
  (5%nat, "[default]: 'fsh', extractor=Extractor 'S', factory=IFactory('fsh'), stencil = 0x1027");
  (3%nat, "[2]: IFactoryDenseComposite::Field mewop");
  (4%nat, "[default]: IFactorySpecialCaseComposite::Field ");
  (5%nat, "[default]: 'fsw', extractor=Extractor 'S', factory=IFactory('fsw'), stencil = 0x2027");
  (3%nat, "[3]: IFactoryDenseComposite::Field mewop");
  (4%nat, "[default]: IFactorySpecialCaseComposite::Field ");
  (5%nat, "[default]: 'fsd', extractor=Extractor 'S', factory=IFactory('fsd'), stencil = 0x3027");
  (3%nat, "[4]: IFactoryDenseComposite::Field mewop");
  (4%nat, "[default]: IFactorySpecialCaseComposite::Field ");
  (5%nat, "[default]: 'fsq', extractor=Extractor 'S', factory=IFactory('fsq'), stencil = 0x4027");
  (3%nat, "[5]: IFactoryDenseComposite::Field mewop");
  (4%nat, "[0]: IFactorySpecialCaseComposite::Field ");
  (5%nat, "[0]: 'vse16.v', mask=0x1f00000, field_set=0x8, value=0x0, nfixed=1, extractor=Extractor 'V_store', factory=IFactory('vse16.v'), stencil = 0x5027");
  (4%nat, "[1]: IFactorySpecialCaseComposite::Field ");
  (5%nat, "[default]: 'vsuxei16.v', extractor=Extractor 'V_store', factory=IFactory('vsuxei16.v'), stencil = 0x4005027");
  (4%nat, "[2]: IFactorySpecialCaseComposite::Field ");
  (5%nat, "[default]: 'vsse16.v', extractor=Extractor 'V_store', factory=IFactory('vsse16.v'), stencil = 0x8005027");
  (4%nat, "[3]: IFactorySpecialCaseComposite::Field ");
  (5%nat, "[default]: 'vsoxei16.v', extractor=Extractor 'V_store', factory=IFactory('vsoxei16.v'), stencil = 0xc005027");
  (3%nat, "[6]: IFactoryDenseComposite::Field mewop");
  (4%nat, "[0]: IFactorySpecialCaseComposite::Field ");
  (5%nat, "[0]: 'vse32.v', mask=0x1f00000, field_set=0x8, value=0x0, nfixed=1, extractor=Extractor 'V_store', factory=IFactory('vse32.v'), stencil = 0x6027");
  (4%nat, "[1]: IFactorySpecialCaseComposite::Field ");
  (5%nat, "[default]: 'vsuxei32.v', extractor=Extractor 'V_store', factory=IFactory('vsuxei32.v'), stencil = 0x4006027");
  (4%nat, "[2]: IFactorySpecialCaseComposite::Field ");
  (5%nat, "[default]: 'vsse32.v', extractor=Extractor 'V_store', factory=IFactory('vsse32.v'), stencil = 0x8006027");
  (4%nat, "[3]: IFactorySpecialCaseComposite::Field ");
  (5%nat, "[default]: 'vsoxei32.v', extractor=Extractor 'V_store', factory=IFactory('vsoxei32.v'), stencil = 0xc006027");
  (3%nat, "[7]: IFactoryDenseComposite::Field mewop");
  (4%nat, "[0]: IFactorySpecialCaseComposite::Field ");
  (5%nat, "[0]: 'vse64.v', mask=0x1f00000, field_set=0x8, value=0x0, nfixed=1, extractor=Extractor 'V_store', factory=IFactory('vse64.v'), stencil = 0x7027");
  (4%nat, "[1]: IFactorySpecialCaseComposite::Field ");
  (5%nat, "[default]: 'vsuxei64.v', extractor=Extractor 'V_store', factory=IFactory('vsuxei64.v'), stencil = 0x4007027");
  (4%nat, "[2]: IFactorySpecialCaseComposite::Field ");
  (5%nat, "[default]: 'vsse64.v', extractor=Extractor 'V_store', factory=IFactory('vsse64.v'), stencil = 0x8007027");
  (4%nat, "[3]: IFactorySpecialCaseComposite::Field ");
  (5%nat, "[default]: 'vsoxei64.v', extractor=Extractor 'V_store', factory=IFactory('vsoxei64.v'), stencil = 0xc007027");
  (2%nat, "[2f]: IFactoryDenseComposite::Field func3");
  (3%nat, "[2]: IFactoryDenseComposite::Field func5");
  (4%nat, "[0]: IFactorySpecialCaseComposite::Field ");
  (5%nat, "[default]: 'amoadd.w', extractor=Extractor 'AMO', factory=IFactory('amoadd.w'), stencil = 0x202f");
  (4%nat, "[1]: IFactorySpecialCaseComposite::Field ");
  (5%nat, "[default]: 'amoswap.w', extractor=Extractor 'AMO', factory=IFactory('amoswap.w'), stencil = 0x800202f");
  (4%nat, "[2]: IFactorySpecialCaseComposite::Field ");
  (5%nat, "[0]: 'lr.w', mask=0x1f00000, field_set=0x20, value=0x0, nfixed=1, extractor=Extractor 'AMO', factory=IFactory('lr.w'), stencil = 0x1000202f");
  (4%nat, "[3]: IFactorySpecialCaseComposite::Field ");
  (5%nat, "[default]: 'sc.w', extractor=Extractor 'AMO', factory=IFactory('sc.w'), stencil = 0x1800202f");
  (4%nat, "[4]: IFactorySpecialCaseComposite::Field ");
  (5%nat, "[default]: 'amoxor.w', extractor=Extractor 'AMO', factory=IFactory('amoxor.w'), stencil = 0x2000202f");
  (4%nat, "[8]: IFactorySpecialCaseComposite::Field ");
  (5%nat, "[default]: 'amoor.w', extractor=Extractor 'AMO', factory=IFactory('amoor.w'), stencil = 0x4000202f");
  (4%nat, "[c]: IFactorySpecialCaseComposite::Field ");
  (5%nat, "[default]: 'amoand.w', extractor=Extractor 'AMO', factory=IFactory('amoand.w'), stencil = 0x6000202f");
  (4%nat, "[10]: IFactorySpecialCaseComposite::Field ");
  (5%nat, "[default]: 'amomin.w', extractor=Extractor 'AMO', factory=IFactory('amomin.w'), stencil = 0x8000202f");
  (4%nat, "[14]: IFactorySpecialCaseComposite::Field ");
  (5%nat, "[default]: 'amomax.w', extractor=Extractor 'AMO', factory=IFactory('amomax.w'), stencil = 0xa000202f");
  (4%nat, "[18]: IFactorySpecialCaseComposite::Field ");
  (5%nat, "[default]: 'amominu.w', extractor=Extractor 'AMO', factory=IFactory('amominu.w'), stencil = 0xc000202f");
  (4%nat, "[1c]: IFactorySpecialCaseComposite::Field ");
  (5%nat, "[default]: 'amomaxu.w', extractor=Extractor 'AMO', factory=IFactory('amomaxu.w'), stencil = 0xe000202f");
  (3%nat, "[3]: IFactoryDenseComposite::Field func5");
  (4%nat, "[0]: IFactorySpecialCaseComposite::Field ");
  (5%nat, "[default]: 'amoadd.d', extractor=Extractor 'AMO', factory=IFactory('amoadd.d'), stencil = 0x302f");
  (4%nat, "[1]: IFactorySpecialCaseComposite::Field ");
  (5%nat, "[default]: 'amoswap.d', extractor=Extractor 'AMO', factory=IFactory('amoswap.d'), stencil = 0x800302f");
  (4%nat, "[2]: IFactorySpecialCaseComposite::Field ");
  (5%nat, "[0]: 'lr.d', mask=0x1f00000, field_set=0x20, value=0x0, nfixed=1, extractor=Extractor 'AMO', factory=IFactory('lr.d'), stencil = 0x1000302f");
  (4%nat, "[3]: IFactorySpecialCaseComposite::Field ");
  (5%nat, "[default]: 'sc.d', extractor=Extractor 'AMO', factory=IFactory('sc.d'), stencil = 0x1800302f");
  (4%nat, "[4]: IFactorySpecialCaseComposite::Field ");
  (5%nat, "[default]: 'amoxor.d', extractor=Extractor 'AMO', factory=IFactory('amoxor.d'), stencil = 0x2000302f");
  (4%nat, "[8]: IFactorySpecialCaseComposite::Field ");
  (5%nat, "[default]: 'amoor.d', extractor=Extractor 'AMO', factory=IFactory('amoor.d'), stencil = 0x4000302f");
  (4%nat, "[c]: IFactorySpecialCaseComposite::Field ");
  (5%nat, "[default]: 'amoand.d', extractor=Extractor 'AMO', factory=IFactory('amoand.d'), stencil = 0x6000302f");
  (4%nat, "[10]: IFactorySpecialCaseComposite::Field ");
  (5%nat, "[default]: 'amomin.d', extractor=Extractor 'AMO', factory=IFactory('amomin.d'), stencil = 0x8000302f");
  (4%nat, "[14]: IFactorySpecialCaseComposite::Field ");
  (5%nat, "[default]: 'amomax.d', extractor=Extractor 'AMO', factory=IFactory('amomax.d'), stencil = 0xa000302f");
  (4%nat, "[18]: IFactorySpecialCaseComposite::Field ");
  (5%nat, "[default]: 'amominu.d', extractor=Extractor 'AMO', factory=IFactory('amominu.d'), stencil = 0xc000302f");
  (4%nat, "[1c]: IFactorySpecialCaseComposite::Field ");
  (5%nat, "[default]: 'amomaxu.d', extractor=Extractor 'AMO', factory=IFactory('amomaxu.d'), stencil = 0xe000302f");
  (2%nat, "[33]: IFactoryDenseComposite::Field func3");
  (3%nat, "[0]: IFactoryDenseComposite::Field func7");
  (4%nat, "[0]: IFactorySpecialCaseComposite::Field ");
  (5%nat, "[0]: 'ntl.p1', mask=0x1ff8f80, field_set=0x16, value=0x200000, nfixed=3, extractor=Extractor 'NTL_hint', factory=IFactory('ntl.p1'), stencil = 0x200033");
  (5%nat, "[1]: 'ntl.pall', mask=0x1ff8f80, field_set=0x16, value=0x300000, nfixed=3, extractor=Extractor 'NTL_hint', factory=IFactory('ntl.pall'), stencil = 0x300033");
  (5%nat, "[2]: 'ntl.s1', mask=0x1ff8f80, field_set=0x16, value=0x400000, nfixed=3, extractor=Extractor 'NTL_hint', factory=IFactory('ntl.s1'), stencil = 0x400033");
  (5%nat, "[3]: 'ntl.all', mask=0x1ff8f80, field_set=0x16, value=0x500000, nfixed=3, extractor=Extractor 'NTL_hint', factory=IFactory('ntl.all'), stencil = 0x500033");
  (5%nat, "[default]: 'add', extractor=Extractor 'R', factory=IFactory('add'), stencil = 0x33");
  (4%nat, "[1]: IFactorySpecialCaseComposite::Field ");
  (5%nat, "[default]: 'mul', extractor=Extractor 'R', factory=IFactory('mul'), stencil = 0x2000033");
  (4%nat, "[20]: IFactorySpecialCaseComposite::Field ");
  (5%nat, "[default]: 'sub', extractor=Extractor 'R', factory=IFactory('sub'), stencil = 0x40000033");
  (3%nat, "[1]: IFactoryDenseComposite::Field func7");
  (4%nat, "[0]: IFactorySpecialCaseComposite::Field ");
  (5%nat, "[default]: 'sll', extractor=Extractor 'R', factory=IFactory('sll'), stencil = 0x1033");
  (4%nat, "[1]: IFactorySpecialCaseComposite::Field ");
  (5%nat, "[default]: 'mulh', extractor=Extractor 'R', factory=IFactory('mulh'), stencil = 0x2001033");
  (3%nat, "[2]: IFactoryDenseComposite::Field func7");
  (4%nat, "[0]: IFactorySpecialCaseComposite::Field ");
  (5%nat, "[default]: 'slt', extractor=Extractor 'R', factory=IFactory('slt'), stencil = 0x2033");
  (4%nat, "[1]: IFactorySpecialCaseComposite::Field ");
  (5%nat, "[default]: 'mulhsu', extractor=Extractor 'R', factory=IFactory('mulhsu'), stencil = 0x2002033");
  (3%nat, "[3]: IFactoryDenseComposite::Field func7");
  (4%nat, "[0]: IFactorySpecialCaseComposite::Field ");
  (5%nat, "[default]: 'sltu', extractor=Extractor 'R', factory=IFactory('sltu'), stencil = 0x3033");
  (4%nat, "[1]: IFactorySpecialCaseComposite::Field ");
  (5%nat, "[default]: 'mulhu', extractor=Extractor 'R', factory=IFactory('mulhu'), stencil = 0x2003033");
  (3%nat, "[4]: IFactoryDenseComposite::Field func7");
  (4%nat, "[0]: IFactorySpecialCaseComposite::Field ");
  (5%nat, "[default]: 'xor', extractor=Extractor 'R', factory=IFactory('xor'), stencil = 0x4033");
  (4%nat, "[1]: IFactorySpecialCaseComposite::Field ");
  (5%nat, "[default]: 'div', extractor=Extractor 'R', factory=IFactory('div'), stencil = 0x2004033");
  (3%nat, "[5]: IFactoryDenseComposite::Field func7");
  (4%nat, "[0]: IFactorySpecialCaseComposite::Field ");
  (5%nat, "[default]: 'srl', extractor=Extractor 'R', factory=IFactory('srl'), stencil = 0x5033");
  (4%nat, "[1]: IFactorySpecialCaseComposite::Field ");
  (5%nat, "[default]: 'divu', extractor=Extractor 'R', factory=IFactory('divu'), stencil = 0x2005033");
  (4%nat, "[7]: IFactorySpecialCaseComposite::Field ");
  (5%nat, "[default]: 'czero.eqz', extractor=Extractor 'R', factory=IFactory('czero.eqz'), stencil = 0xe005033");
  (4%nat, "[20]: IFactorySpecialCaseComposite::Field ");
  (5%nat, "[default]: 'sra', extractor=Extractor 'R', factory=IFactory('sra'), stencil = 0x40005033");
  (3%nat, "[6]: IFactoryDenseComposite::Field func7");
  (4%nat, "[0]: IFactorySpecialCaseComposite::Field ");
  (5%nat, "[default]: 'or', extractor=Extractor 'R', factory=IFactory('or'), stencil = 0x6033");
  (4%nat, "[1]: IFactorySpecialCaseComposite::Field ");
  (5%nat, "[default]: 'rem', extractor=Extractor 'R', factory=IFactory('rem'), stencil = 0x2006033");
  (3%nat, "[7]: IFactoryDenseComposite::Field func7");
  (4%nat, "[0]: IFactorySpecialCaseComposite::Field ");
  (5%nat, "[default]: 'and', extractor=Extractor 'R', factory=IFactory('and'), stencil = 0x7033");
  (4%nat, "[1]: IFactorySpecialCaseComposite::Field ");
  (5%nat, "[default]: 'remu', extractor=Extractor 'R', factory=IFactory('remu'), stencil = 0x2007033");
  (4%nat, "[7]: IFactorySpecialCaseComposite::Field ");
  (5%nat, "[default]: 'czero.nez', extractor=Extractor 'R', factory=IFactory('czero.nez'), stencil = 0xe007033");
  (2%nat, "[37]: IFactorySpecialCaseComposite::Field ");
  (3%nat, "[default]: 'lui', extractor=Extractor 'U', factory=IFactory('lui'), stencil = 0x37");
  (2%nat, "[3b]: IFactoryDenseComposite::Field func3");
  (3%nat, "[0]: IFactoryDenseComposite::Field func7");
  (4%nat, "[0]: IFactorySpecialCaseComposite::Field ");
  (5%nat, "[default]: 'addw', extractor=Extractor 'R', factory=IFactory('addw'), stencil = 0x3b");
  (4%nat, "[1]: IFactorySpecialCaseComposite::Field ");
  (5%nat, "[default]: 'mulw', extractor=Extractor 'R', factory=IFactory('mulw'), stencil = 0x200003b");
  (4%nat, "[20]: IFactorySpecialCaseComposite::Field ");
  (5%nat, "[default]: 'subw', extractor=Extractor 'R', factory=IFactory('subw'), stencil = 0x4000003b");
  (3%nat, "[1]: IFactoryDenseComposite::Field func7");
  (4%nat, "[0]: IFactorySpecialCaseComposite::Field ");
  (5%nat, "[default]: 'sllw', extractor=Extractor 'R', factory=IFactory('sllw'), stencil = 0x103b");
  (3%nat, "[4]: IFactoryDenseComposite::Field func7");
  (4%nat, "[1]: IFactorySpecialCaseComposite::Field ");
  (5%nat, "[default]: 'divw', extractor=Extractor 'R', factory=IFactory('divw'), stencil = 0x200403b");
  (3%nat, "[5]: IFactoryDenseComposite::Field func7");
  (4%nat, "[0]: IFactorySpecialCaseComposite::Field ");
  (5%nat, "[default]: 'srlw', extractor=Extractor 'R', factory=IFactory('srlw'), stencil = 0x503b");
  (4%nat, "[1]: IFactorySpecialCaseComposite::Field ");
  (5%nat, "[default]: 'divuw', extractor=Extractor 'R', factory=IFactory('divuw'), stencil = 0x200503b");
  (4%nat, "[20]: IFactorySpecialCaseComposite::Field ");
  (5%nat, "[default]: 'sraw', extractor=Extractor 'R', factory=IFactory('sraw'), stencil = 0x4000503b");
  (3%nat, "[6]: IFactoryDenseComposite::Field func7");
  (4%nat, "[1]: IFactorySpecialCaseComposite::Field ");
  (5%nat, "[default]: 'remw', extractor=Extractor 'R', factory=IFactory('remw'), stencil = 0x200603b");
  (3%nat, "[7]: IFactoryDenseComposite::Field func7");
  (4%nat, "[1]: IFactorySpecialCaseComposite::Field ");
  (5%nat, "[default]: 'remuw', extractor=Extractor 'R', factory=IFactory('remuw'), stencil = 0x200703b");
  (2%nat, "[43]: IFactoryDenseComposite::Field func2");
  (3%nat, "[0]: IFactorySpecialCaseComposite::Field ");
  (4%nat, "[default]: 'fmadd.s', extractor=Extractor 'R4', factory=IFactory('fmadd.s'), stencil = 0x43");
  (3%nat, "[1]: IFactorySpecialCaseComposite::Field ");
  (4%nat, "[default]: 'fmadd.d', extractor=Extractor 'R4', factory=IFactory('fmadd.d'), stencil = 0x2000043");
  (3%nat, "[2]: IFactorySpecialCaseComposite::Field ");
  (4%nat, "[default]: 'fmadd.h', extractor=Extractor 'R4', factory=IFactory('fmadd.h'), stencil = 0x4000043");
  (3%nat, "[3]: IFactorySpecialCaseComposite::Field ");
  (4%nat, "[default]: 'fmadd.q', extractor=Extractor 'R4', factory=IFactory('fmadd.q'), stencil = 0x6000043");
  (2%nat, "[47]: IFactoryDenseComposite::Field func2");
  (3%nat, "[0]: IFactorySpecialCaseComposite::Field ");
  (4%nat, "[default]: 'fmsub.s', extractor=Extractor 'R4', factory=IFactory('fmsub.s'), stencil = 0x47");
  (3%nat, "[1]: IFactorySpecialCaseComposite::Field ");
  (4%nat, "[default]: 'fmsub.d', extractor=Extractor 'R4', factory=IFactory('fmsub.d'), stencil = 0x2000047");
  (3%nat, "[2]: IFactorySpecialCaseComposite::Field ");
  (4%nat, "[default]: 'fmsub.h', extractor=Extractor 'R4', factory=IFactory('fmsub.h'), stencil = 0x4000047");
  (3%nat, "[3]: IFactorySpecialCaseComposite::Field ");
  (4%nat, "[default]: 'fmsub.q', extractor=Extractor 'R4', factory=IFactory('fmsub.q'), stencil = 0x6000047");
  (2%nat, "[4b]: IFactoryDenseComposite::Field func2");
  (3%nat, "[0]: IFactorySpecialCaseComposite::Field ");
  (4%nat, "[default]: 'fnmsub.s', extractor=Extractor 'R4', factory=IFactory('fnmsub.s'), stencil = 0x4b");
  (3%nat, "[1]: IFactorySpecialCaseComposite::Field ");
  (4%nat, "[default]: 'fnmsub.d', extractor=Extractor 'R4', factory=IFactory('fnmsub.d'), stencil = 0x200004b");
  (3%nat, "[2]: IFactorySpecialCaseComposite::Field ");
  (4%nat, "[default]: 'fnmsub.h', extractor=Extractor 'R4', factory=IFactory('fnmsub.h'), stencil = 0x400004b");
  (3%nat, "[3]: IFactorySpecialCaseComposite::Field ");
  (4%nat, "[default]: 'fnmsub.q', extractor=Extractor 'R4', factory=IFactory('fnmsub.q'), stencil = 0x600004b");
  (2%nat, "[4f]: IFactoryDenseComposite::Field func2");
  (3%nat, "[0]: IFactorySpecialCaseComposite::Field ");
  (4%nat, "[default]: 'fnmadd.s', extractor=Extractor 'R4', factory=IFactory('fnmadd.s'), stencil = 0x4f");
  (3%nat, "[1]: IFactorySpecialCaseComposite::Field ");
  (4%nat, "[default]: 'fnmadd.d', extractor=Extractor 'R4', factory=IFactory('fnmadd.d'), stencil = 0x200004f");
  (3%nat, "[2]: IFactorySpecialCaseComposite::Field ");
  (4%nat, "[default]: 'fnmadd.h', extractor=Extractor 'R4', factory=IFactory('fnmadd.h'), stencil = 0x400004f");
  (3%nat, "[3]: IFactorySpecialCaseComposite::Field ");
  (4%nat, "[default]: 'fnmadd.q', extractor=Extractor 'R4', factory=IFactory('fnmadd.q'), stencil = 0x600004f");
  (2%nat, "[53]: IFactoryDenseComposite::Field func7");
  (3%nat, "[0]: IFactorySpecialCaseComposite::Field ");
  (4%nat, "[default]: 'fadd.s', extractor=Extractor 'Rfloat', factory=IFactory('fadd.s'), stencil = 0x53");
  (3%nat, "[1]: IFactorySpecialCaseComposite::Field ");
  (4%nat, "[default]: 'fadd.d', extractor=Extractor 'Rfloat', factory=IFactory('fadd.d'), stencil = 0x2000053");
  (3%nat, "[2]: IFactorySpecialCaseComposite::Field ");
  (4%nat, "[default]: 'fadd.h', extractor=Extractor 'Rfloat', factory=IFactory('fadd.h'), stencil = 0x4000053");
  (3%nat, "[3]: IFactorySpecialCaseComposite::Field ");
  (4%nat, "[default]: 'fadd.q', extractor=Extractor 'Rfloat', factory=IFactory('fadd.q'), stencil = 0x6000053");
  (3%nat, "[4]: IFactorySpecialCaseComposite::Field ");
  (4%nat, "[default]: 'fsub.s', extractor=Extractor 'Rfloat', factory=IFactory('fsub.s'), stencil = 0x8000053");
  (3%nat, "[5]: IFactorySpecialCaseComposite::Field ");
  (4%nat, "[default]: 'fsub.d', extractor=Extractor 'Rfloat', factory=IFactory('fsub.d'), stencil = 0xa000053");
  (3%nat, "[6]: IFactorySpecialCaseComposite::Field ");
  (4%nat, "[default]: 'fsub.h', extractor=Extractor 'Rfloat', factory=IFactory('fsub.h'), stencil = 0xc000053");
  (3%nat, "[7]: IFactorySpecialCaseComposite::Field ");
  (4%nat, "[default]: 'fsub.q', extractor=Extractor 'Rfloat', factory=IFactory('fsub.q'), stencil = 0xe000053");
  (3%nat, "[8]: IFactorySpecialCaseComposite::Field ");
  (4%nat, "[default]: 'fmul.s', extractor=Extractor 'Rfloat', factory=IFactory('fmul.s'), stencil = 0x10000053");
  (3%nat, "[9]: IFactorySpecialCaseComposite::Field ");
  (4%nat, "[default]: 'fmul.d', extractor=Extractor 'Rfloat', factory=IFactory('fmul.d'), stencil = 0x12000053");
  (3%nat, "[a]: IFactorySpecialCaseComposite::Field ");
  (4%nat, "[default]: 'fmul.h', extractor=Extractor 'Rfloat', factory=IFactory('fmul.h'), stencil = 0x14000053");
  (3%nat, "[b]: IFactorySpecialCaseComposite::Field ");
  (4%nat, "[default]: 'fmul.q', extractor=Extractor 'Rfloat', factory=IFactory('fmul.q'), stencil = 0x16000053");
  (3%nat, "[c]: IFactorySpecialCaseComposite::Field ");
  (4%nat, "[default]: 'fdiv.s', extractor=Extractor 'Rfloat', factory=IFactory('fdiv.s'), stencil = 0x18000053");
  (3%nat, "[d]: IFactorySpecialCaseComposite::Field ");
  (4%nat, "[default]: 'fdiv.d', extractor=Extractor 'Rfloat', factory=IFactory('fdiv.d'), stencil = 0x1a000053");
  (3%nat, "[e]: IFactorySpecialCaseComposite::Field ");
  (4%nat, "[default]: 'fdiv.h', extractor=Extractor 'Rfloat', factory=IFactory('fdiv.h'), stencil = 0x1c000053");
  (3%nat, "[f]: IFactorySpecialCaseComposite::Field ");
  (4%nat, "[default]: 'fdiv.q', extractor=Extractor 'Rfloat', factory=IFactory('fdiv.q'), stencil = 0x1e000053");
  (3%nat, "[10]: IFactorySpecialCaseComposite::Field ");
  (4%nat, "[0]: 'fsgnj.s', mask=0x7000, field_set=0x8, value=0x0, nfixed=1, extractor=Extractor 'Rfloat', factory=IFactory('fsgnj.s'), stencil = 0x20000053");
  (4%nat, "[1]: 'fsgnjn.s', mask=0x7000, field_set=0x8, value=0x1000, nfixed=1, extractor=Extractor 'Rfloat', factory=IFactory('fsgnjn.s'), stencil = 0x20001053");
  (4%nat, "[2]: 'fsgnjx.s', mask=0x7000, field_set=0x8, value=0x2000, nfixed=1, extractor=Extractor 'Rfloat', factory=IFactory('fsgnjx.s'), stencil = 0x20002053");
  (3%nat, "[11]: IFactorySpecialCaseComposite::Field ");
  (4%nat, "[0]: 'fsgnj.d', mask=0x7000, field_set=0x8, value=0x0, nfixed=1, extractor=Extractor 'Rfloat', factory=IFactory('fsgnj.d'), stencil = 0x22000053");
  (4%nat, "[1]: 'fsgnjn.d', mask=0x7000, field_set=0x8, value=0x1000, nfixed=1, extractor=Extractor 'Rfloat', factory=IFactory('fsgnjn.d'), stencil = 0x22001053");
  (4%nat, "[2]: 'fsgnjx.d', mask=0x7000, field_set=0x8, value=0x2000, nfixed=1, extractor=Extractor 'Rfloat', factory=IFactory('fsgnjx.d'), stencil = 0x22002053");
  (3%nat, "[12]: IFactorySpecialCaseComposite::Field ");
  (4%nat, "[0]: 'fsgnj.h', mask=0x7000, field_set=0x8, value=0x0, nfixed=1, extractor=Extractor 'Rfloat', factory=IFactory('fsgnj.h'), stencil = 0x24000053");
  (4%nat, "[1]: 'fsgnjn.h', mask=0x7000, field_set=0x8, value=0x1000, nfixed=1, extractor=Extractor 'Rfloat', factory=IFactory('fsgnjn.h'), stencil = 0x24001053");
  (4%nat, "[2]: 'fsgnjx.h', mask=0x7000, field_set=0x8, value=0x2000, nfixed=1, extractor=Extractor 'Rfloat', factory=IFactory('fsgnjx.h'), stencil = 0x24002053");
  (3%nat, "[13]: IFactorySpecialCaseComposite::Field ");
  (4%nat, "[0]: 'fsgnj.q', mask=0x7000, field_set=0x8, value=0x0, nfixed=1, extractor=Extractor 'Rfloat', factory=IFactory('fsgnj.q'), stencil = 0x26000053");
  (4%nat, "[1]: 'fsgnjn.q', mask=0x7000, field_set=0x8, value=0x1000, nfixed=1, extractor=Extractor 'Rfloat', factory=IFactory('fsgnjn.q'), stencil = 0x26001053");
  (4%nat, "[2]: 'fsgnjx.q', mask=0x7000, field_set=0x8, value=0x2000, nfixed=1, extractor=Extractor 'Rfloat', factory=IFactory('fsgnjx.q'), stencil = 0x26002053");
  (3%nat, "[14]: IFactorySpecialCaseComposite::Field ");
  (4%nat, "[0]: 'fmin.s', mask=0x7000, field_set=0x8, value=0x0, nfixed=1, extractor=Extractor 'Rfloat', factory=IFactory('fmin.s'), stencil = 0x28000053");
  (4%nat, "[1]: 'fmax.s', mask=0x7000, field_set=0x8, value=0x1000, nfixed=1, extractor=Extractor 'Rfloat', factory=IFactory('fmax.s'), stencil = 0x28001053");
  (4%nat, "[2]: 'fmaxm.s', mask=0x7000, field_set=0x8, value=0x3000, nfixed=1, extractor=Extractor 'Rfloat', factory=IFactory('fmaxm.s'), stencil = 0x28003053");
  (4%nat, "[3]: 'fminm.s', mask=0x7000, field_set=0x8, value=0x2000, nfixed=1, extractor=Extractor 'Rfloat', factory=IFactory('fminm.s'), stencil = 0x28002053");
  (3%nat, "[15]: IFactorySpecialCaseComposite::Field ");
  (4%nat, "[0]: 'fmin.d', mask=0x7000, field_set=0x8, value=0x0, nfixed=1, extractor=Extractor 'Rfloat', factory=IFactory('fmin.d'), stencil = 0x2a000053");
  (4%nat, "[1]: 'fmax.d', mask=0x7000, field_set=0x8, value=0x1000, nfixed=1, extractor=Extractor 'Rfloat', factory=IFactory('fmax.d'), stencil = 0x2a001053");
  (4%nat, "[2]: 'fmaxm.d', mask=0x7000, field_set=0x8, value=0x3000, nfixed=1, extractor=Extractor 'Rfloat', factory=IFactory('fmaxm.d'), stencil = 0x2a003053");
  (4%nat, "[3]: 'fminm.d', mask=0x7000, field_set=0x8, value=0x2000, nfixed=1, extractor=Extractor 'Rfloat', factory=IFactory('fminm.d'), stencil = 0x2a002053");
  (3%nat, "[16]: IFactorySpecialCaseComposite::Field ");
  (4%nat, "[0]: 'fmin.h', mask=0x7000, field_set=0x8, value=0x0, nfixed=1, extractor=Extractor 'Rfloat', factory=IFactory('fmin.h'), stencil = 0x2c000053");
  (4%nat, "[1]: 'fmax.h', mask=0x7000, field_set=0x8, value=0x1000, nfixed=1, extractor=Extractor 'Rfloat', factory=IFactory('fmax.h'), stencil = 0x2c001053");
  (4%nat, "[2]: 'fmaxm.h', mask=0x7000, field_set=0x8, value=0x3000, nfixed=1, extractor=Extractor 'Rfloat', factory=IFactory('fmaxm.h'), stencil = 0x2c003053");
  (4%nat, "[3]: 'fminm.h', mask=0x7000, field_set=0x8, value=0x2000, nfixed=1, extractor=Extractor 'Rfloat', factory=IFactory('fminm.h'), stencil = 0x2c002053");
  (3%nat, "[17]: IFactorySpecialCaseComposite::Field ");
  (4%nat, "[0]: 'fmin.q', mask=0x7000, field_set=0x8, value=0x0, nfixed=1, extractor=Extractor 'Rfloat', factory=IFactory('fmin.q'), stencil = 0x2e000053");
  (4%nat, "[1]: 'fmax.q', mask=0x7000, field_set=0x8, value=0x1000, nfixed=1, extractor=Extractor 'Rfloat', factory=IFactory('fmax.q'), stencil = 0x2e001053");
  (4%nat, "[2]: 'fmaxm.q', mask=0x7000, field_set=0x8, value=0x3000, nfixed=1, extractor=Extractor 'Rfloat', factory=IFactory('fmaxm.q'), stencil = 0x2e003053");
  (4%nat, "[3]: 'fminm.q', mask=0x7000, field_set=0x8, value=0x2000, nfixed=1, extractor=Extractor 'Rfloat', factory=IFactory('fminm.q'), stencil = 0x2e002053");
  (3%nat, "[20]: IFactorySpecialCaseComposite::Field ");
  (4%nat, "[0]: 'fround.s', mask=0x1f00000, field_set=0x2, value=0x400000, nfixed=1, extractor=Extractor 'Rfloat', factory=IFactory('fround.s'), stencil = 0x40400053");
  (4%nat, "[1]: 'froundnx.s', mask=0x1f00000, field_set=0x2, value=0x500000, nfixed=1, extractor=Extractor 'Rfloat', factory=IFactory('froundnx.s'), stencil = 0x40500053");
  (4%nat, "[2]: 'fcvt.s.d', mask=0x1f00000, field_set=0x2, value=0x100000, nfixed=1, extractor=Extractor 'Rfloat', factory=IFactory('fcvt.s.d'), stencil = 0x40100053");
  (4%nat, "[3]: 'fcvt.s.q', mask=0x1f00000, field_set=0x2, value=0x300000, nfixed=1, extractor=Extractor 'Rfloat', factory=IFactory('fcvt.s.q'), stencil = 0x40300053");
  (4%nat, "[4]: 'fcvt.s.h', mask=0x1f00000, field_set=0x2, value=0x200000, nfixed=1, extractor=Extractor 'Rfloat', factory=IFactory('fcvt.s.h'), stencil = 0x40200053");
  (4%nat, "[5]: 'fcvt.s.bf16', mask=0x1f00000, field_set=0x2, value=0x600000, nfixed=1, extractor=Extractor 'Rfloat', factory=IFactory('fcvt.s.bf16'), stencil = 0x40600053");
  (3%nat, "[21]: IFactorySpecialCaseComposite::Field ");
  (4%nat, "[0]: 'fcvt.d.s', mask=0x1f00000, field_set=0x2, value=0x0, nfixed=1, extractor=Extractor 'Rfloat', factory=IFactory('fcvt.d.s'), stencil = 0x42000053");
  (4%nat, "[1]: 'fround.d', mask=0x1f00000, field_set=0x2, value=0x400000, nfixed=1, extractor=Extractor 'Rfloat', factory=IFactory('fround.d'), stencil = 0x42400053");
  (4%nat, "[2]: 'froundnx.d', mask=0x1f00000, field_set=0x2, value=0x500000, nfixed=1, extractor=Extractor 'Rfloat', factory=IFactory('froundnx.d'), stencil = 0x42500053");
  (4%nat, "[3]: 'fcvt.d.q', mask=0x1f00000, field_set=0x2, value=0x300000, nfixed=1, extractor=Extractor 'Rfloat', factory=IFactory('fcvt.d.q'), stencil = 0x42300053");
  (4%nat, "[4]: 'fcvt.d.h', mask=0x1f00000, field_set=0x2, value=0x200000, nfixed=1, extractor=Extractor 'Rfloat', factory=IFactory('fcvt.d.h'), stencil = 0x42200053");
  (3%nat, "[22]: IFactorySpecialCaseComposite::Field ");
  (4%nat, "[0]: 'fcvt.h.s', mask=0x1f00000, field_set=0x2, value=0x0, nfixed=1, extractor=Extractor 'Rfloat', factory=IFactory('fcvt.h.s'), stencil = 0x44000053");
  (4%nat, "[1]: 'fround.h', mask=0x1f00000, field_set=0x2, value=0x400000, nfixed=1, extractor=Extractor 'Rfloat', factory=IFactory('fround.h'), stencil = 0x44400053");
  (4%nat, "[2]: 'froundnx.h', mask=0x1f00000, field_set=0x2, value=0x500000, nfixed=1, extractor=Extractor 'Rfloat', factory=IFactory('froundnx.h'), stencil = 0x44500053");
  (4%nat, "[3]: 'fcvt.h.d', mask=0x1f00000, field_set=0x2, value=0x100000, nfixed=1, extractor=Extractor 'Rfloat', factory=IFactory('fcvt.h.d'), stencil = 0x44100053");
  (4%nat, "[4]: 'fcvt.bf16.s', mask=0x1f00000, field_set=0x2, value=0x800000, nfixed=1, extractor=Extractor 'Rfloat', factory=IFactory('fcvt.bf16.s'), stencil = 0x44800053");
  (3%nat, "[23]: IFactorySpecialCaseComposite::Field ");
  (4%nat, "[0]: 'fcvt.q.s', mask=0x1f00000, field_set=0x2, value=0x0, nfixed=1, extractor=Extractor 'Rfloat', factory=IFactory('fcvt.q.s'), stencil = 0x46000053");
  (4%nat, "[1]: 'fcvt.q.d', mask=0x1f00000, field_set=0x2, value=0x100000, nfixed=1, extractor=Extractor 'Rfloat', factory=IFactory('fcvt.q.d'), stencil = 0x46100053");
  (4%nat, "[2]: 'fround.q', mask=0x1f00000, field_set=0x2, value=0x400000, nfixed=1, extractor=Extractor 'Rfloat', factory=IFactory('fround.q'), stencil = 0x46400053");
  (4%nat, "[3]: 'froundnx.q', mask=0x1f00000, field_set=0x2, value=0x500000, nfixed=1, extractor=Extractor 'Rfloat', factory=IFactory('froundnx.q'), stencil = 0x46500053");
  (3%nat, "[2c]: IFactorySpecialCaseComposite::Field ");
  (4%nat, "[0]: 'fsqrt.s', mask=0x1f00000, field_set=0x2, value=0x0, nfixed=1, extractor=Extractor 'Rfloat', factory=IFactory('fsqrt.s'), stencil = 0x58000053");
  (3%nat, "[2d]: IFactorySpecialCaseComposite::Field ");
  (4%nat, "[0]: 'fsqrt.d', mask=0x1f00000, field_set=0x2, value=0x0, nfixed=1, extractor=Extractor 'Rfloat', factory=IFactory('fsqrt.d'), stencil = 0x5a000053");
  (3%nat, "[2e]: IFactorySpecialCaseComposite::Field ");
  (4%nat, "[0]: 'fsqrt.h', mask=0x1f00000, field_set=0x2, value=0x0, nfixed=1, extractor=Extractor 'Rfloat', factory=IFactory('fsqrt.h'), stencil = 0x5c000053");
  (3%nat, "[2f]: IFactorySpecialCaseComposite::Field ");
  (4%nat, "[0]: 'fsqrt.q', mask=0x1f00000, field_set=0x2, value=0x0, nfixed=1, extractor=Extractor 'Rfloat', factory=IFactory('fsqrt.q'), stencil = 0x5e000053");
  (3%nat, "[50]: IFactorySpecialCaseComposite::Field ");
  (4%nat, "[0]: 'fle.s', mask=0x7000, field_set=0x8, value=0x0, nfixed=1, extractor=Extractor 'Rfloat', factory=IFactory('fle.s'), stencil = 0xa0000053");
  (4%nat, "[1]: 'flt.s', mask=0x7000, field_set=0x8, value=0x1000, nfixed=1, extractor=Extractor 'Rfloat', factory=IFactory('flt.s'), stencil = 0xa0001053");
  (4%nat, "[2]: 'feq.s', mask=0x7000, field_set=0x8, value=0x2000, nfixed=1, extractor=Extractor 'Rfloat', factory=IFactory('feq.s'), stencil = 0xa0002053");
  (4%nat, "[3]: 'fleq.s', mask=0x7000, field_set=0x8, value=0x4000, nfixed=1, extractor=Extractor 'Rfloat', factory=IFactory('fleq.s'), stencil = 0xa0004053");
  (4%nat, "[4]: 'fltq.s', mask=0x7000, field_set=0x8, value=0x5000, nfixed=1, extractor=Extractor 'Rfloat', factory=IFactory('fltq.s'), stencil = 0xa0005053");
  (3%nat, "[51]: IFactorySpecialCaseComposite::Field ");
  (4%nat, "[0]: 'fle.d', mask=0x7000, field_set=0x8, value=0x0, nfixed=1, extractor=Extractor 'Rfloat', factory=IFactory('fle.d'), stencil = 0xa2000053");
  (4%nat, "[1]: 'flt.d', mask=0x7000, field_set=0x8, value=0x1000, nfixed=1, extractor=Extractor 'Rfloat', factory=IFactory('flt.d'), stencil = 0xa2001053");
  (4%nat, "[2]: 'feq.d', mask=0x7000, field_set=0x8, value=0x2000, nfixed=1, extractor=Extractor 'Rfloat', factory=IFactory('feq.d'), stencil = 0xa2002053");
  (4%nat, "[3]: 'fleq.d', mask=0x7000, field_set=0x8, value=0x4000, nfixed=1, extractor=Extractor 'Rfloat', factory=IFactory('fleq.d'), stencil = 0xa2004053");
  (4%nat, "[4]: 'fltq.d', mask=0x7000, field_set=0x8, value=0x5000, nfixed=1, extractor=Extractor 'Rfloat', factory=IFactory('fltq.d'), stencil = 0xa2005053");
  (3%nat, "[52]: IFactorySpecialCaseComposite::Field ");
  (4%nat, "[0]: 'fle.h', mask=0x7000, field_set=0x8, value=0x0, nfixed=1, extractor=Extractor 'Rfloat', factory=IFactory('fle.h'), stencil = 0xa4000053");
  (4%nat, "[1]: 'flt.h', mask=0x7000, field_set=0x8, value=0x1000, nfixed=1, extractor=Extractor 'Rfloat', factory=IFactory('flt.h'), stencil = 0xa4001053");
  (4%nat, "[2]: 'feq.h', mask=0x7000, field_set=0x8, value=0x2000, nfixed=1, extractor=Extractor 'Rfloat', factory=IFactory('feq.h'), stencil = 0xa4002053");
  (4%nat, "[3]: 'fleq.h', mask=0x7000, field_set=0x8, value=0x4000, nfixed=1, extractor=Extractor 'Rfloat', factory=IFactory('fleq.h'), stencil = 0xa4004053");
  (4%nat, "[4]: 'fltq.h', mask=0x7000, field_set=0x8, value=0x5000, nfixed=1, extractor=Extractor 'Rfloat', factory=IFactory('fltq.h'), stencil = 0xa4005053");
  (3%nat, "[53]: IFactorySpecialCaseComposite::Field ");
  (4%nat, "[0]: 'fle.q', mask=0x7000, field_set=0x8, value=0x0, nfixed=1, extractor=Extractor 'Rfloat', factory=IFactory('fle.q'), stencil = 0xa6000053");
  (4%nat, "[1]: 'flt.q', mask=0x7000, field_set=0x8, value=0x1000, nfixed=1, extractor=Extractor 'Rfloat', factory=IFactory('flt.q'), stencil = 0xa6001053");
  (4%nat, "[2]: 'feq.q', mask=0x7000, field_set=0x8, value=0x2000, nfixed=1, extractor=Extractor 'Rfloat', factory=IFactory('feq.q'), stencil = 0xa6002053");
  (4%nat, "[3]: 'fleq.q', mask=0x7000, field_set=0x8, value=0x4000, nfixed=1, extractor=Extractor 'Rfloat', factory=IFactory('fleq.q'), stencil = 0xa6004053");
  (4%nat, "[4]: 'fltq.q', mask=0x7000, field_set=0x8, value=0x5000, nfixed=1, extractor=Extractor 'Rfloat', factory=IFactory('fltq.q'), stencil = 0xa6005053");
  (3%nat, "[5b]: IFactorySpecialCaseComposite::Field ");
  (4%nat, "[0]: 'fmvp.q.x', mask=0x7000, field_set=0x8, value=0x0, nfixed=1, extractor=Extractor 'Rfloat', factory=IFactory('fmvp.q.x'), stencil = 0xb6000053");
  (3%nat, "[60]: IFactorySpecialCaseComposite::Field ");
  (4%nat, "[0]: 'fcvt.w.s', mask=0x1f00000, field_set=0x2, value=0x0, nfixed=1, extractor=Extractor 'Rfloat', factory=IFactory('fcvt.w.s'), stencil = 0xc0000053");
  (4%nat, "[1]: 'fcvt.wu.s', mask=0x1f00000, field_set=0x2, value=0x100000, nfixed=1, extractor=Extractor 'Rfloat', factory=IFactory('fcvt.wu.s'), stencil = 0xc0100053");
  (4%nat, "[2]: 'fcvt.l.s', mask=0x1f00000, field_set=0x2, value=0x200000, nfixed=1, extractor=Extractor 'Rfloat', factory=IFactory('fcvt.l.s'), stencil = 0xc0200053");
  (4%nat, "[3]: 'fcvt.lu.s', mask=0x1f00000, field_set=0x2, value=0x300000, nfixed=1, extractor=Extractor 'Rfloat', factory=IFactory('fcvt.lu.s'), stencil = 0xc0300053");
  (3%nat, "[61]: IFactorySpecialCaseComposite::Field ");
  (4%nat, "[0]: 'fcvtmod.w.d', mask=0x1f07000, field_set=0xa, value=0x801000, nfixed=2, extractor=Extractor 'Rfloat', factory=IFactory('fcvtmod.w.d'), stencil = 0xc2801053");
  (4%nat, "[1]: 'fcvt.w.d', mask=0x1f00000, field_set=0x2, value=0x0, nfixed=1, extractor=Extractor 'Rfloat', factory=IFactory('fcvt.w.d'), stencil = 0xc2000053");
  (4%nat, "[2]: 'fcvt.wu.d', mask=0x1f00000, field_set=0x2, value=0x100000, nfixed=1, extractor=Extractor 'Rfloat', factory=IFactory('fcvt.wu.d'), stencil = 0xc2100053");
  (4%nat, "[3]: 'fcvt.l.d', mask=0x1f00000, field_set=0x2, value=0x200000, nfixed=1, extractor=Extractor 'Rfloat', factory=IFactory('fcvt.l.d'), stencil = 0xc2200053");
  (4%nat, "[4]: 'fcvt.lu.d', mask=0x1f00000, field_set=0x2, value=0x300000, nfixed=1, extractor=Extractor 'Rfloat', factory=IFactory('fcvt.lu.d'), stencil = 0xc2300053");
  (3%nat, "[62]: IFactorySpecialCaseComposite::Field ");
  (4%nat, "[0]: 'fcvt.w.h', mask=0x1f00000, field_set=0x2, value=0x0, nfixed=1, extractor=Extractor 'Rfloat', factory=IFactory('fcvt.w.h'), stencil = 0xc4000053");
  (4%nat, "[1]: 'fcvt.wu.h', mask=0x1f00000, field_set=0x2, value=0x100000, nfixed=1, extractor=Extractor 'Rfloat', factory=IFactory('fcvt.wu.h'), stencil = 0xc4100053");
  (4%nat, "[2]: 'fcvt.l.h', mask=0x1f00000, field_set=0x2, value=0x200000, nfixed=1, extractor=Extractor 'Rfloat', factory=IFactory('fcvt.l.h'), stencil = 0xc4200053");
  (4%nat, "[3]: 'fcvt.lu.h', mask=0x1f00000, field_set=0x2, value=0x300000, nfixed=1, extractor=Extractor 'Rfloat', factory=IFactory('fcvt.lu.h'), stencil = 0xc4300053");
  (3%nat, "[63]: IFactorySpecialCaseComposite::Field ");
  (4%nat, "[0]: 'fcvt.w.q', mask=0x1f00000, field_set=0x2, value=0x0, nfixed=1, extractor=Extractor 'Rfloat', factory=IFactory('fcvt.w.q'), stencil = 0xc6000053");
  (4%nat, "[1]: 'fcvt.wu.q', mask=0x1f00000, field_set=0x2, value=0x100000, nfixed=1, extractor=Extractor 'Rfloat', factory=IFactory('fcvt.wu.q'), stencil = 0xc6100053");
  (4%nat, "[2]: 'fcvt.l.q', mask=0x1f00000, field_set=0x2, value=0x200000, nfixed=1, extractor=Extractor 'Rfloat', factory=IFactory('fcvt.l.q'), stencil = 0xc6200053");
  (4%nat, "[3]: 'fcvt.lu.q', mask=0x1f00000, field_set=0x2, value=0x300000, nfixed=1, extractor=Extractor 'Rfloat', factory=IFactory('fcvt.lu.q'), stencil = 0xc6300053");
  (3%nat, "[68]: IFactorySpecialCaseComposite::Field ");
  (4%nat, "[0]: 'fcvt.s.w', mask=0x1f00000, field_set=0x2, value=0x0, nfixed=1, extractor=Extractor 'Rfloat', factory=IFactory('fcvt.s.w'), stencil = 0xd0000053");
  (4%nat, "[1]: 'fcvt.s.wu', mask=0x1f00000, field_set=0x2, value=0x100000, nfixed=1, extractor=Extractor 'Rfloat', factory=IFactory('fcvt.s.wu'), stencil = 0xd0100053");
  (4%nat, "[2]: 'fcvt.s.l', mask=0x1f00000, field_set=0x2, value=0x200000, nfixed=1, extractor=Extractor 'Rfloat', factory=IFactory('fcvt.s.l'), stencil = 0xd0200053");
  (4%nat, "[3]: 'fcvt.s.lu', mask=0x1f00000, field_set=0x2, value=0x300000, nfixed=1, extractor=Extractor 'Rfloat', factory=IFactory('fcvt.s.lu'), stencil = 0xd0300053");
  (3%nat, "[69]: IFactorySpecialCaseComposite::Field ");
  (4%nat, "[0]: 'fcvt.d.w', mask=0x1f00000, field_set=0x2, value=0x0, nfixed=1, extractor=Extractor 'Rfloat', factory=IFactory('fcvt.d.w'), stencil = 0xd2000053");
  (4%nat, "[1]: 'fcvt.d.wu', mask=0x1f00000, field_set=0x2, value=0x100000, nfixed=1, extractor=Extractor 'Rfloat', factory=IFactory('fcvt.d.wu'), stencil = 0xd2100053");
  (4%nat, "[2]: 'fcvt.d.l', mask=0x1f00000, field_set=0x2, value=0x200000, nfixed=1, extractor=Extractor 'Rfloat', factory=IFactory('fcvt.d.l'), stencil = 0xd2200053");
  (4%nat, "[3]: 'fcvt.d.lu', mask=0x1f00000, field_set=0x2, value=0x300000, nfixed=1, extractor=Extractor 'Rfloat', factory=IFactory('fcvt.d.lu'), stencil = 0xd2300053");
  (3%nat, "[6a]: IFactorySpecialCaseComposite::Field ");
  (4%nat, "[0]: 'fcvt.h.l', mask=0x1f00000, field_set=0x2, value=0x200000, nfixed=1, extractor=Extractor 'Rfloat', factory=IFactory('fcvt.h.l'), stencil = 0xd4200053");
  (4%nat, "[1]: 'fcvt.h.lu', mask=0x1f00000, field_set=0x2, value=0x300000, nfixed=1, extractor=Extractor 'Rfloat', factory=IFactory('fcvt.h.lu'), stencil = 0xd4300053");
  (4%nat, "[2]: 'fcvt.h.w', mask=0x1f00000, field_set=0x2, value=0x0, nfixed=1, extractor=Extractor 'Rfloat', factory=IFactory('fcvt.h.w'), stencil = 0xd4000053");
  (4%nat, "[3]: 'fcvt.h.wu', mask=0x1f00000, field_set=0x2, value=0x100000, nfixed=1, extractor=Extractor 'Rfloat', factory=IFactory('fcvt.h.wu'), stencil = 0xd4100053");
  (3%nat, "[6b]: IFactorySpecialCaseComposite::Field ");
  (4%nat, "[0]: 'fcvt.q.w', mask=0x1f00000, field_set=0x2, value=0x0, nfixed=1, extractor=Extractor 'Rfloat', factory=IFactory('fcvt.q.w'), stencil = 0xd6000053");
  (4%nat, "[1]: 'fcvt.q.wu', mask=0x1f00000, field_set=0x2, value=0x100000, nfixed=1, extractor=Extractor 'Rfloat', factory=IFactory('fcvt.q.wu'), stencil = 0xd6100053");
  (4%nat, "[2]: 'fcvt.q.l', mask=0x1f00000, field_set=0x2, value=0x200000, nfixed=1, extractor=Extractor 'Rfloat', factory=IFactory('fcvt.q.l'), stencil = 0xd6200053");
  (4%nat, "[3]: 'fcvt.q.lu', mask=0x1f00000, field_set=0x2, value=0x300000, nfixed=1, extractor=Extractor 'Rfloat', factory=IFactory('fcvt.q.lu'), stencil = 0xd6300053");
  (3%nat, "[70]: IFactorySpecialCaseComposite::Field ");
  (4%nat, "[0]: 'fmv.x.w', mask=0x1f07000, field_set=0xa, value=0x0, nfixed=2, extractor=Extractor 'Rfloat', factory=IFactory('fmv.x.w'), stencil = 0xe0000053");
  (4%nat, "[1]: 'fclass.s', mask=0x1f07000, field_set=0xa, value=0x1000, nfixed=2, extractor=Extractor 'Rfloat', factory=IFactory('fclass.s'), stencil = 0xe0001053");
  (3%nat, "[71]: IFactorySpecialCaseComposite::Field ");
  (4%nat, "[0]: 'fmv.x.d', mask=0x1f07000, field_set=0xa, value=0x0, nfixed=2, extractor=Extractor 'Rfloat', factory=IFactory('fmv.x.d'), stencil = 0xe2000053");
  (4%nat, "[1]: 'fclass.d', mask=0x1f07000, field_set=0xa, value=0x1000, nfixed=2, extractor=Extractor 'Rfloat', factory=IFactory('fclass.d'), stencil = 0xe2001053");
  (3%nat, "[72]: IFactorySpecialCaseComposite::Field ");
  (4%nat, "[0]: 'fmv.x.h', mask=0x1f07000, field_set=0xa, value=0x0, nfixed=2, extractor=Extractor 'Rfloat', factory=IFactory('fmv.x.h'), stencil = 0xe4000053");
  (4%nat, "[1]: 'fclass.h', mask=0x1f07000, field_set=0xa, value=0x1000, nfixed=2, extractor=Extractor 'Rfloat', factory=IFactory('fclass.h'), stencil = 0xe4001053");
  (3%nat, "[73]: IFactorySpecialCaseComposite::Field ");
  (4%nat, "[0]: 'fmv.x.q', mask=0x1f07000, field_set=0xa, value=0x0, nfixed=2, extractor=Extractor 'Rfloat', factory=IFactory('fmv.x.q'), stencil = 0xe6000053");
  (4%nat, "[1]: 'fclass.q', mask=0x1f07000, field_set=0xa, value=0x1000, nfixed=2, extractor=Extractor 'Rfloat', factory=IFactory('fclass.q'), stencil = 0xe6001053");
  (4%nat, "[2]: 'fmvh.x.q', mask=0x1f07000, field_set=0xa, value=0x100000, nfixed=2, extractor=Extractor 'Rfloat', factory=IFactory('fmvh.x.q'), stencil = 0xe6100053");
  (3%nat, "[78]: IFactorySpecialCaseComposite::Field ");
  (4%nat, "[0]: 'fmv.w.x', mask=0x1f07000, field_set=0xa, value=0x0, nfixed=2, extractor=Extractor 'Rfloat', factory=IFactory('fmv.w.x'), stencil = 0xf0000053");
  (4%nat, "[1]: 'fli.s', mask=0x1f07000, field_set=0xa, value=0x100000, nfixed=2, extractor=Extractor 'Rfloat', factory=IFactory('fli.s'), stencil = 0xf0100053");
  (3%nat, "[79]: IFactorySpecialCaseComposite::Field ");
  (4%nat, "[0]: 'fmv.d.x', mask=0x1f07000, field_set=0xa, value=0x0, nfixed=2, extractor=Extractor 'Rfloat', factory=IFactory('fmv.d.x'), stencil = 0xf2000053");
  (4%nat, "[1]: 'fli.d', mask=0x1f07000, field_set=0xa, value=0x100000, nfixed=2, extractor=Extractor 'Rfloat', factory=IFactory('fli.d'), stencil = 0xf2100053");
  (3%nat, "[7a]: IFactorySpecialCaseComposite::Field ");
  (4%nat, "[0]: 'fmv.h.x', mask=0x1f07000, field_set=0xa, value=0x0, nfixed=2, extractor=Extractor 'Rfloat', factory=IFactory('fmv.h.x'), stencil = 0xf4000053");
  (4%nat, "[1]: 'fli.h', mask=0x1f07000, field_set=0xa, value=0x100000, nfixed=2, extractor=Extractor 'Rfloat', factory=IFactory('fli.h'), stencil = 0xf4100053");
  (3%nat, "[7b]: IFactorySpecialCaseComposite::Field ");
  (4%nat, "[0]: 'fmv.q.x', mask=0x1f07000, field_set=0xa, value=0x0, nfixed=2, extractor=Extractor 'Rfloat', factory=IFactory('fmv.q.x'), stencil = 0xf6000053");
  (4%nat, "[1]: 'fli.q', mask=0x1f07000, field_set=0xa, value=0x100000, nfixed=2, extractor=Extractor 'Rfloat', factory=IFactory('fli.q'), stencil = 0xf6100053");
  (2%nat, "[57]: IFactoryDenseComposite::Field func3a");
  (3%nat, "[0]: IFactoryDenseComposite::Field func1a");
  (4%nat, "[0]: IFactoryDenseComposite::Field func1b");
  (5%nat, "[0]: IFactoryDenseComposite::Field func1c");
  (6%nat, "[0]: IFactoryDenseComposite::Field func3b");
  (7%nat, "[0]: IFactorySpecialCaseComposite::Field ");
  (8%nat, "[default]: 'vadd.vv', extractor=Extractor 'V_op', factory=IFactory('vadd.vv'), stencil = 0x57");
  (7%nat, "[1]: IFactorySpecialCaseComposite::Field ");
  (8%nat, "[default]: 'vfadd.vv', extractor=Extractor 'V_op', factory=IFactory('vfadd.vv'), stencil = 0x1057");
  (7%nat, "[2]: IFactorySpecialCaseComposite::Field ");
  (8%nat, "[default]: 'vredsum.vs', extractor=Extractor 'V_op', factory=IFactory('vredsum.vs'), stencil = 0x2057");
  (7%nat, "[3]: IFactorySpecialCaseComposite::Field ");
  (8%nat, "[default]: 'vadd.vi', extractor=Extractor 'V_simm', factory=IFactory('vadd.vi'), stencil = 0x3057");
  (7%nat, "[4]: IFactorySpecialCaseComposite::Field ");
  (8%nat, "[default]: 'vadd.vx', extractor=Extractor 'V_op', factory=IFactory('vadd.vx'), stencil = 0x4057");
  (7%nat, "[5]: IFactorySpecialCaseComposite::Field ");
  (8%nat, "[default]: 'vfadd.vf', extractor=Extractor 'V_op', factory=IFactory('vfadd.vf'), stencil = 0x5057");
  (6%nat, "[1]: IFactoryDenseComposite::Field func3b");
  (7%nat, "[0]: IFactorySpecialCaseComposite::Field ");
  (8%nat, "[default]: 'vandn.vv', extractor=Extractor 'V_op', factory=IFactory('vandn.vv'), stencil = 0x4000057");
  (7%nat, "[1]: IFactorySpecialCaseComposite::Field ");
  (8%nat, "[default]: 'vfredusum.vs', extractor=Extractor 'V_op', factory=IFactory('vfredusum.vs'), stencil = 0x4001057");
  (7%nat, "[2]: IFactorySpecialCaseComposite::Field ");
  (8%nat, "[default]: 'vredand.vs', extractor=Extractor 'V_op', factory=IFactory('vredand.vs'), stencil = 0x4002057");
  (7%nat, "[4]: IFactorySpecialCaseComposite::Field ");
  (8%nat, "[default]: 'vandn.vx', extractor=Extractor 'V_op', factory=IFactory('vandn.vx'), stencil = 0x4004057");
  (5%nat, "[1]: IFactoryDenseComposite::Field func1c");
  (6%nat, "[0]: IFactoryDenseComposite::Field func3b");
  (7%nat, "[0]: IFactorySpecialCaseComposite::Field ");
  (8%nat, "[0]: 'vadc.vvm', mask=0x2000000, field_set=0x10, value=0x0, nfixed=1, extractor=Extractor 'V', factory=IFactory('vadc.vvm'), stencil = 0x40000057");
  (7%nat, "[1]: IFactorySpecialCaseComposite::Field ");
  (8%nat, "[0]: 'vfmv.f.s', mask=0x20f8000, field_set=0x50, value=0x2000000, nfixed=2, extractor=Extractor 'V', factory=IFactory('vfmv.f.s'), stencil = 0x42001057");
  (7%nat, "[2]: IFactorySpecialCaseComposite::Field ");
  (8%nat, "[0]: 'vmv.x.s', mask=0x20f8000, field_set=0x50, value=0x2000000, nfixed=2, extractor=Extractor 'V', factory=IFactory('vmv.x.s'), stencil = 0x42002057");
  (8%nat, "[1]: 'vpopc.m', mask=0xf8000, field_set=0x40, value=0x80000, nfixed=1, extractor=Extractor 'V', factory=IFactory('vpopc.m'), stencil = 0x40082057");
  (8%nat, "[2]: 'vfirst.m', mask=0xf8000, field_set=0x40, value=0x88000, nfixed=1, extractor=Extractor 'V', factory=IFactory('vfirst.m'), stencil = 0x4008a057");
  (7%nat, "[3]: IFactorySpecialCaseComposite::Field ");
  (8%nat, "[0]: 'vadc.vim', mask=0x2000000, field_set=0x10, value=0x0, nfixed=1, extractor=Extractor 'V_simm', factory=IFactory('vadc.vim'), stencil = 0x40003057");
  (7%nat, "[4]: IFactorySpecialCaseComposite::Field ");
  (8%nat, "[0]: 'vadc.vxm', mask=0x2000000, field_set=0x10, value=0x0, nfixed=1, extractor=Extractor 'V', factory=IFactory('vadc.vxm'), stencil = 0x40004057");
  (7%nat, "[5]: IFactorySpecialCaseComposite::Field ");
  (8%nat, "[0]: 'vfmv.s.f', mask=0x3f00000, field_set=0x30, value=0x2000000, nfixed=2, extractor=Extractor 'V', factory=IFactory('vfmv.s.f'), stencil = 0x42005057");
  (7%nat, "[6]: IFactorySpecialCaseComposite::Field ");
  (8%nat, "[0]: 'vmv.s.x', mask=0x3f00000, field_set=0x30, value=0x2000000, nfixed=2, extractor=Extractor 'V', factory=IFactory('vmv.s.x'), stencil = 0x42006057");
  (6%nat, "[1]: IFactoryDenseComposite::Field func3b");
  (7%nat, "[0]: IFactorySpecialCaseComposite::Field ");
  (8%nat, "[default]: 'vmadc.vvm', extractor=Extractor 'V', factory=IFactory('vmadc.vvm'), stencil = 0x44000057");
  (7%nat, "[3]: IFactorySpecialCaseComposite::Field ");
  (8%nat, "[default]: 'vmadc.vim', extractor=Extractor 'V_simm', factory=IFactory('vmadc.vim'), stencil = 0x44003057");
  (7%nat, "[4]: IFactorySpecialCaseComposite::Field ");
  (8%nat, "[default]: 'vmadc.vxm', extractor=Extractor 'V', factory=IFactory('vmadc.vxm'), stencil = 0x44004057");
  (4%nat, "[1]: IFactoryDenseComposite::Field func1b");
  (5%nat, "[0]: IFactoryDenseComposite::Field func1c");
  (6%nat, "[0]: IFactoryDenseComposite::Field func3b");
  (7%nat, "[0]: IFactorySpecialCaseComposite::Field ");
  (8%nat, "[default]: 'vsaddu.vv', extractor=Extractor 'V_op', factory=IFactory('vsaddu.vv'), stencil = 0x80000057");
  (7%nat, "[1]: IFactorySpecialCaseComposite::Field ");
  (8%nat, "[default]: 'vfdiv.vv', extractor=Extractor 'V_op', factory=IFactory('vfdiv.vv'), stencil = 0x80001057");
  (7%nat, "[2]: IFactorySpecialCaseComposite::Field ");
  (8%nat, "[default]: 'vdivu.vv', extractor=Extractor 'V_op', factory=IFactory('vdivu.vv'), stencil = 0x80002057");
  (7%nat, "[3]: IFactorySpecialCaseComposite::Field ");
  (8%nat, "[default]: 'vsaddu.vi', extractor=Extractor 'V_simm', factory=IFactory('vsaddu.vi'), stencil = 0x80003057");
  (7%nat, "[4]: IFactorySpecialCaseComposite::Field ");
  (8%nat, "[default]: 'vsaddu.vx', extractor=Extractor 'V_op', factory=IFactory('vsaddu.vx'), stencil = 0x80004057");
  (7%nat, "[5]: IFactorySpecialCaseComposite::Field ");
  (8%nat, "[default]: 'vfdiv.vf', extractor=Extractor 'V_op', factory=IFactory('vfdiv.vf'), stencil = 0x80005057");
  (7%nat, "[6]: IFactorySpecialCaseComposite::Field ");
  (8%nat, "[default]: 'vdivu.vx', extractor=Extractor 'V_op', factory=IFactory('vdivu.vx'), stencil = 0x80006057");
  (7%nat, "[7]: IFactorySpecialCaseComposite::Field ");
  (8%nat, "[0]: 'vsetvl', mask=0x2000000, field_set=0x10, value=0x0, nfixed=1, extractor=Extractor 'V_vsetvl', factory=IFactory('vsetvl'), stencil = 0x80007057");
  (6%nat, "[1]: IFactoryDenseComposite::Field func3b");
  (7%nat, "[0]: IFactorySpecialCaseComposite::Field ");
  (8%nat, "[default]: 'vsadd.vv', extractor=Extractor 'V_op', factory=IFactory('vsadd.vv'), stencil = 0x84000057");
  (7%nat, "[2]: IFactorySpecialCaseComposite::Field ");
  (8%nat, "[default]: 'vdiv.vv', extractor=Extractor 'V_op', factory=IFactory('vdiv.vv'), stencil = 0x84002057");
  (7%nat, "[3]: IFactorySpecialCaseComposite::Field ");
  (8%nat, "[default]: 'vsadd.vi', extractor=Extractor 'V_simm', factory=IFactory('vsadd.vi'), stencil = 0x84003057");
  (7%nat, "[4]: IFactorySpecialCaseComposite::Field ");
  (8%nat, "[default]: 'vsadd.vx', extractor=Extractor 'V_op', factory=IFactory('vsadd.vx'), stencil = 0x84004057");
  (7%nat, "[5]: IFactorySpecialCaseComposite::Field ");
  (8%nat, "[default]: 'vfrdiv.vf', extractor=Extractor 'V_op', factory=IFactory('vfrdiv.vf'), stencil = 0x84005057");
  (7%nat, "[6]: IFactorySpecialCaseComposite::Field ");
  (8%nat, "[default]: 'vdiv.vx', extractor=Extractor 'V_op', factory=IFactory('vdiv.vx'), stencil = 0x84006057");
  (5%nat, "[1]: IFactoryDenseComposite::Field func1c");
  (6%nat, "[0]: IFactoryDenseComposite::Field func3b");
  (7%nat, "[0]: IFactorySpecialCaseComposite::Field ");
  (8%nat, "[default]: 'vwredsumu.vs', extractor=Extractor 'V_op', factory=IFactory('vwredsumu.vs'), stencil = 0xc0000057");
  (7%nat, "[1]: IFactorySpecialCaseComposite::Field ");
  (8%nat, "[default]: 'vfwadd.vv', extractor=Extractor 'V_op', factory=IFactory('vfwadd.vv'), stencil = 0xc0001057");
  (7%nat, "[2]: IFactorySpecialCaseComposite::Field ");
  (8%nat, "[default]: 'vwaddu.vv', extractor=Extractor 'V_op', factory=IFactory('vwaddu.vv'), stencil = 0xc0002057");
  (7%nat, "[5]: IFactorySpecialCaseComposite::Field ");
  (8%nat, "[default]: 'vfwadd.vf', extractor=Extractor 'V_op', factory=IFactory('vfwadd.vf'), stencil = 0xc0005057");
  (7%nat, "[6]: IFactorySpecialCaseComposite::Field ");
  (8%nat, "[default]: 'vwaddu.vx', extractor=Extractor 'V_op', factory=IFactory('vwaddu.vx'), stencil = 0xc0006057");
  (6%nat, "[1]: IFactoryDenseComposite::Field func3b");
  (7%nat, "[0]: IFactorySpecialCaseComposite::Field ");
  (8%nat, "[default]: 'vwredsum.vs', extractor=Extractor 'V_op', factory=IFactory('vwredsum.vs'), stencil = 0xc4000057");
  (7%nat, "[1]: IFactorySpecialCaseComposite::Field ");
  (8%nat, "[default]: 'vfwredusum.vs', extractor=Extractor 'V_op', factory=IFactory('vfwredusum.vs'), stencil = 0xc4001057");
  (7%nat, "[2]: IFactorySpecialCaseComposite::Field ");
  (8%nat, "[default]: 'vwadd.vv', extractor=Extractor 'V_op', factory=IFactory('vwadd.vv'), stencil = 0xc4002057");
  (7%nat, "[6]: IFactorySpecialCaseComposite::Field ");
  (8%nat, "[default]: 'vwadd.vx', extractor=Extractor 'V_op', factory=IFactory('vwadd.vx'), stencil = 0xc4006057");
  (3%nat, "[1]: IFactoryDenseComposite::Field func1a");
  (4%nat, "[0]: IFactoryDenseComposite::Field func1b");
  (5%nat, "[0]: IFactoryDenseComposite::Field func1c");
  (6%nat, "[0]: IFactoryDenseComposite::Field func3b");
  (7%nat, "[0]: IFactorySpecialCaseComposite::Field ");
  (8%nat, "[default]: 'vsub.vv', extractor=Extractor 'V_op', factory=IFactory('vsub.vv'), stencil = 0x8000057");
  (7%nat, "[1]: IFactorySpecialCaseComposite::Field ");
  (8%nat, "[default]: 'vfsub.vv', extractor=Extractor 'V_op', factory=IFactory('vfsub.vv'), stencil = 0x8001057");
  (7%nat, "[2]: IFactorySpecialCaseComposite::Field ");
  (8%nat, "[default]: 'vredor.vs', extractor=Extractor 'V_op', factory=IFactory('vredor.vs'), stencil = 0x8002057");
  (7%nat, "[4]: IFactorySpecialCaseComposite::Field ");
  (8%nat, "[default]: 'vsub.vx', extractor=Extractor 'V_op', factory=IFactory('vsub.vx'), stencil = 0x8004057");
  (7%nat, "[5]: IFactorySpecialCaseComposite::Field ");
  (8%nat, "[default]: 'vfsub.vf', extractor=Extractor 'V_op', factory=IFactory('vfsub.vf'), stencil = 0x8005057");
  (6%nat, "[1]: IFactoryDenseComposite::Field func3b");
  (7%nat, "[1]: IFactorySpecialCaseComposite::Field ");
  (8%nat, "[default]: 'vfredosum.vs', extractor=Extractor 'V_op', factory=IFactory('vfredosum.vs'), stencil = 0xc001057");
  (7%nat, "[2]: IFactorySpecialCaseComposite::Field ");
  (8%nat, "[default]: 'vredxor.vs', extractor=Extractor 'V_op', factory=IFactory('vredxor.vs'), stencil = 0xc002057");
  (7%nat, "[3]: IFactorySpecialCaseComposite::Field ");
  (8%nat, "[default]: 'vrsub.vi', extractor=Extractor 'V_simm', factory=IFactory('vrsub.vi'), stencil = 0xc003057");
  (7%nat, "[4]: IFactorySpecialCaseComposite::Field ");
  (8%nat, "[default]: 'vrsub.vx', extractor=Extractor 'V_op', factory=IFactory('vrsub.vx'), stencil = 0xc004057");
  (5%nat, "[1]: IFactoryDenseComposite::Field func1c");
  (6%nat, "[0]: IFactoryDenseComposite::Field func3b");
  (7%nat, "[0]: IFactorySpecialCaseComposite::Field ");
  (8%nat, "[0]: 'vsbc.vvm', mask=0x2000000, field_set=0x10, value=0x0, nfixed=1, extractor=Extractor 'V', factory=IFactory('vsbc.vvm'), stencil = 0x48000057");
  (7%nat, "[1]: IFactorySpecialCaseComposite::Field ");
  (8%nat, "[0]: 'vfcvt.xu.f.v', mask=0xf8000, field_set=0x40, value=0x0, nfixed=1, extractor=Extractor 'V', factory=IFactory('vfcvt.xu.f.v'), stencil = 0x48001057");
  (8%nat, "[1]: 'vfcvt.x.f.v', mask=0xf8000, field_set=0x40, value=0x8000, nfixed=1, extractor=Extractor 'V', factory=IFactory('vfcvt.x.f.v'), stencil = 0x48009057");
  (8%nat, "[2]: 'vfcvt.f.xu.v', mask=0xf8000, field_set=0x40, value=0x10000, nfixed=1, extractor=Extractor 'V', factory=IFactory('vfcvt.f.xu.v'), stencil = 0x48011057");
  (8%nat, "[3]: 'vfcvt.f.x.v', mask=0xf8000, field_set=0x40, value=0x18000, nfixed=1, extractor=Extractor 'V', factory=IFactory('vfcvt.f.x.v'), stencil = 0x48019057");
  (8%nat, "[4]: 'vfcvt.rtz.xu.f.v', mask=0xf8000, field_set=0x40, value=0x30000, nfixed=1, extractor=Extractor 'V', factory=IFactory('vfcvt.rtz.xu.f.v'), stencil = 0x48031057");
  (8%nat, "[5]: 'vfcvt.rtz.x.f.v', mask=0xf8000, field_set=0x40, value=0x38000, nfixed=1, extractor=Extractor 'V', factory=IFactory('vfcvt.rtz.x.f.v'), stencil = 0x48039057");
  (8%nat, "[6]: 'vfwcvt.xu.f.v', mask=0xf8000, field_set=0x40, value=0x40000, nfixed=1, extractor=Extractor 'V', factory=IFactory('vfwcvt.xu.f.v'), stencil = 0x48041057");
  (8%nat, "[7]: 'vfwcvt.x.f.v', mask=0xf8000, field_set=0x40, value=0x48000, nfixed=1, extractor=Extractor 'V', factory=IFactory('vfwcvt.x.f.v'), stencil = 0x48049057");
  (8%nat, "[8]: 'vfwcvt.f.xu.v', mask=0xf8000, field_set=0x40, value=0x50000, nfixed=1, extractor=Extractor 'V', factory=IFactory('vfwcvt.f.xu.v'), stencil = 0x48051057");
  (8%nat, "[9]: 'vfwcvt.f.x.v', mask=0xf8000, field_set=0x40, value=0x58000, nfixed=1, extractor=Extractor 'V', factory=IFactory('vfwcvt.f.x.v'), stencil = 0x48059057");
  (8%nat, "[a]: 'vfwcvt.f.f.v', mask=0xf8000, field_set=0x40, value=0x60000, nfixed=1, extractor=Extractor 'V', factory=IFactory('vfwcvt.f.f.v'), stencil = 0x48061057");
  (8%nat, "[b]: 'vfwcvt.rtz.xu.f.v', mask=0xf8000, field_set=0x40, value=0x70000, nfixed=1, extractor=Extractor 'V', factory=IFactory('vfwcvt.rtz.xu.f.v'), stencil = 0x48071057");
  (8%nat, "[c]: 'vfwcvt.rtz.x.f.v', mask=0xf8000, field_set=0x40, value=0x78000, nfixed=1, extractor=Extractor 'V', factory=IFactory('vfwcvt.rtz.x.f.v'), stencil = 0x48079057");
  (8%nat, "[d]: 'vfncvt.xu.f.w', mask=0xf8000, field_set=0x40, value=0x80000, nfixed=1, extractor=Extractor 'V', factory=IFactory('vfncvt.xu.f.w'), stencil = 0x48081057");
  (8%nat, "[e]: 'vfncvt.x.f.w', mask=0xf8000, field_set=0x40, value=0x88000, nfixed=1, extractor=Extractor 'V', factory=IFactory('vfncvt.x.f.w'), stencil = 0x48089057");
  (8%nat, "[f]: 'vfncvt.f.xu.w', mask=0xf8000, field_set=0x40, value=0x90000, nfixed=1, extractor=Extractor 'V', factory=IFactory('vfncvt.f.xu.w'), stencil = 0x48091057");
  (8%nat, "[10]: 'vfncvt.f.x.w', mask=0xf8000, field_set=0x40, value=0x98000, nfixed=1, extractor=Extractor 'V', factory=IFactory('vfncvt.f.x.w'), stencil = 0x48099057");
  (8%nat, "[11]: 'vfncvt.f.f.w', mask=0xf8000, field_set=0x40, value=0xa0000, nfixed=1, extractor=Extractor 'V', factory=IFactory('vfncvt.f.f.w'), stencil = 0x480a1057");
  (8%nat, "[12]: 'vfncvt.rod.f.f.w', mask=0xf8000, field_set=0x40, value=0xa8000, nfixed=1, extractor=Extractor 'V', factory=IFactory('vfncvt.rod.f.f.w'), stencil = 0x480a9057");
  (8%nat, "[13]: 'vfncvt.rtz.xu.f.w', mask=0xf8000, field_set=0x40, value=0xb0000, nfixed=1, extractor=Extractor 'V', factory=IFactory('vfncvt.rtz.xu.f.w'), stencil = 0x480b1057");
  (8%nat, "[14]: 'vfncvt.rtz.x.f.w', mask=0xf8000, field_set=0x40, value=0xb8000, nfixed=1, extractor=Extractor 'V', factory=IFactory('vfncvt.rtz.x.f.w'), stencil = 0x480b9057");
  (7%nat, "[2]: IFactorySpecialCaseComposite::Field ");
  (8%nat, "[0]: 'vzext.vf8', mask=0xf8000, field_set=0x40, value=0x10000, nfixed=1, extractor=Extractor 'V', factory=IFactory('vzext.vf8'), stencil = 0x48012057");
  (8%nat, "[1]: 'vsext.vf8', mask=0xf8000, field_set=0x40, value=0x18000, nfixed=1, extractor=Extractor 'V', factory=IFactory('vsext.vf8'), stencil = 0x4801a057");
  (8%nat, "[2]: 'vzext.vf4', mask=0xf8000, field_set=0x40, value=0x20000, nfixed=1, extractor=Extractor 'V', factory=IFactory('vzext.vf4'), stencil = 0x48022057");
  (8%nat, "[3]: 'vsext.vf4', mask=0xf8000, field_set=0x40, value=0x28000, nfixed=1, extractor=Extractor 'V', factory=IFactory('vsext.vf4'), stencil = 0x4802a057");
  (8%nat, "[4]: 'vzext.vf2', mask=0xf8000, field_set=0x40, value=0x30000, nfixed=1, extractor=Extractor 'V', factory=IFactory('vzext.vf2'), stencil = 0x48032057");
  (8%nat, "[5]: 'vsext.vf2', mask=0xf8000, field_set=0x40, value=0x38000, nfixed=1, extractor=Extractor 'V', factory=IFactory('vsext.vf2'), stencil = 0x4803a057");
  (8%nat, "[6]: 'vbrev8.v', mask=0xf8000, field_set=0x40, value=0x40000, nfixed=1, extractor=Extractor 'V_op', factory=IFactory('vbrev8.v'), stencil = 0x48042057");
  (8%nat, "[7]: 'vrev8.v', mask=0xf8000, field_set=0x40, value=0x48000, nfixed=1, extractor=Extractor 'V_op', factory=IFactory('vrev8.v'), stencil = 0x4804a057");
  (8%nat, "[8]: 'vbrev.v', mask=0xf8000, field_set=0x40, value=0x50000, nfixed=1, extractor=Extractor 'V_op', factory=IFactory('vbrev.v'), stencil = 0x48052057");
  (8%nat, "[9]: 'vclz.v', mask=0xf8000, field_set=0x40, value=0x60000, nfixed=1, extractor=Extractor 'V_op', factory=IFactory('vclz.v'), stencil = 0x48062057");
  (8%nat, "[a]: 'vctz.v', mask=0xf8000, field_set=0x40, value=0x68000, nfixed=1, extractor=Extractor 'V_op', factory=IFactory('vctz.v'), stencil = 0x4806a057");
  (8%nat, "[b]: 'vcpop.v', mask=0xf8000, field_set=0x40, value=0x70000, nfixed=1, extractor=Extractor 'V_op', factory=IFactory('vcpop.v'), stencil = 0x48072057");
  (7%nat, "[4]: IFactorySpecialCaseComposite::Field ");
  (8%nat, "[0]: 'vsbc.vxm', mask=0x2000000, field_set=0x10, value=0x0, nfixed=1, extractor=Extractor 'V', factory=IFactory('vsbc.vxm'), stencil = 0x48004057");
  (6%nat, "[1]: IFactoryDenseComposite::Field func3b");
  (7%nat, "[0]: IFactorySpecialCaseComposite::Field ");
  (8%nat, "[default]: 'vmsbc.vvm', extractor=Extractor 'V', factory=IFactory('vmsbc.vvm'), stencil = 0x4c000057");
  (7%nat, "[1]: IFactorySpecialCaseComposite::Field ");
  (8%nat, "[0]: 'vfsqrt.v', mask=0xf8000, field_set=0x40, value=0x0, nfixed=1, extractor=Extractor 'V', factory=IFactory('vfsqrt.v'), stencil = 0x4c001057");
  (8%nat, "[1]: 'vfrsqrt7.v', mask=0xf8000, field_set=0x40, value=0x20000, nfixed=1, extractor=Extractor 'V', factory=IFactory('vfrsqrt7.v'), stencil = 0x4c021057");
  (8%nat, "[2]: 'vfrec7.v', mask=0xf8000, field_set=0x40, value=0x28000, nfixed=1, extractor=Extractor 'V', factory=IFactory('vfrec7.v'), stencil = 0x4c029057");
  (8%nat, "[3]: 'vfclass.v', mask=0xf8000, field_set=0x40, value=0x80000, nfixed=1, extractor=Extractor 'V', factory=IFactory('vfclass.v'), stencil = 0x4c081057");
  (7%nat, "[4]: IFactorySpecialCaseComposite::Field ");
  (8%nat, "[default]: 'vmsbc.vxm', extractor=Extractor 'V', factory=IFactory('vmsbc.vxm'), stencil = 0x4c004057");
  (4%nat, "[1]: IFactoryDenseComposite::Field func1b");
  (5%nat, "[0]: IFactoryDenseComposite::Field func1c");
  (6%nat, "[0]: IFactoryDenseComposite::Field func3b");
  (7%nat, "[0]: IFactorySpecialCaseComposite::Field ");
  (8%nat, "[default]: 'vssubu.vv', extractor=Extractor 'V_op', factory=IFactory('vssubu.vv'), stencil = 0x88000057");
  (7%nat, "[2]: IFactorySpecialCaseComposite::Field ");
  (8%nat, "[default]: 'vremu.vv', extractor=Extractor 'V_op', factory=IFactory('vremu.vv'), stencil = 0x88002057");
  (7%nat, "[4]: IFactorySpecialCaseComposite::Field ");
  (8%nat, "[default]: 'vssubu.vx', extractor=Extractor 'V_op', factory=IFactory('vssubu.vx'), stencil = 0x88004057");
  (7%nat, "[6]: IFactorySpecialCaseComposite::Field ");
  (8%nat, "[default]: 'vremu.vx', extractor=Extractor 'V_op', factory=IFactory('vremu.vx'), stencil = 0x88006057");
  (6%nat, "[1]: IFactoryDenseComposite::Field func3b");
  (7%nat, "[0]: IFactorySpecialCaseComposite::Field ");
  (8%nat, "[default]: 'vssub.vv', extractor=Extractor 'V_op', factory=IFactory('vssub.vv'), stencil = 0x8c000057");
  (7%nat, "[2]: IFactorySpecialCaseComposite::Field ");
  (8%nat, "[default]: 'vrem.vv', extractor=Extractor 'V_op', factory=IFactory('vrem.vv'), stencil = 0x8c002057");
  (7%nat, "[4]: IFactorySpecialCaseComposite::Field ");
  (8%nat, "[default]: 'vssub.vx', extractor=Extractor 'V_op', factory=IFactory('vssub.vx'), stencil = 0x8c004057");
  (7%nat, "[6]: IFactorySpecialCaseComposite::Field ");
  (8%nat, "[default]: 'vrem.vx', extractor=Extractor 'V_op', factory=IFactory('vrem.vx'), stencil = 0x8c006057");
  (5%nat, "[1]: IFactoryDenseComposite::Field func1c");
  (6%nat, "[0]: IFactoryDenseComposite::Field func3b");
  (7%nat, "[1]: IFactorySpecialCaseComposite::Field ");
  (8%nat, "[default]: 'vfwsub.vv', extractor=Extractor 'V_op', factory=IFactory('vfwsub.vv'), stencil = 0xc8001057");
  (7%nat, "[2]: IFactorySpecialCaseComposite::Field ");
  (8%nat, "[default]: 'vwsubu.vv', extractor=Extractor 'V_op', factory=IFactory('vwsubu.vv'), stencil = 0xc8002057");
  (7%nat, "[5]: IFactorySpecialCaseComposite::Field ");
  (8%nat, "[default]: 'vfwsub.vf', extractor=Extractor 'V_op', factory=IFactory('vfwsub.vf'), stencil = 0xc8005057");
  (7%nat, "[6]: IFactorySpecialCaseComposite::Field ");
  (8%nat, "[default]: 'vwsubu.vx', extractor=Extractor 'V_op', factory=IFactory('vwsubu.vx'), stencil = 0xc8006057");
  (6%nat, "[1]: IFactoryDenseComposite::Field func3b");
  (7%nat, "[1]: IFactorySpecialCaseComposite::Field ");
  (8%nat, "[default]: 'vfwredosum.vs', extractor=Extractor 'V_op', factory=IFactory('vfwredosum.vs'), stencil = 0xcc001057");
  (7%nat, "[2]: IFactorySpecialCaseComposite::Field ");
  (8%nat, "[default]: 'vwsub.vv', extractor=Extractor 'V_op', factory=IFactory('vwsub.vv'), stencil = 0xcc002057");
  (7%nat, "[6]: IFactorySpecialCaseComposite::Field ");
  (8%nat, "[default]: 'vwsub.vx', extractor=Extractor 'V_op', factory=IFactory('vwsub.vx'), stencil = 0xcc006057");
  (3%nat, "[2]: IFactoryDenseComposite::Field func1a");
  (4%nat, "[0]: IFactoryDenseComposite::Field func1b");
  (5%nat, "[0]: IFactoryDenseComposite::Field func1c");
  (6%nat, "[0]: IFactoryDenseComposite::Field func3b");
  (7%nat, "[0]: IFactorySpecialCaseComposite::Field ");
  (8%nat, "[default]: 'vminu.vv', extractor=Extractor 'V_op', factory=IFactory('vminu.vv'), stencil = 0x10000057");
  (7%nat, "[1]: IFactorySpecialCaseComposite::Field ");
  (8%nat, "[default]: 'vfmin.vv', extractor=Extractor 'V_op', factory=IFactory('vfmin.vv'), stencil = 0x10001057");
  (7%nat, "[2]: IFactorySpecialCaseComposite::Field ");
  (8%nat, "[default]: 'vredminu.vs', extractor=Extractor 'V_op', factory=IFactory('vredminu.vs'), stencil = 0x10002057");
  (7%nat, "[4]: IFactorySpecialCaseComposite::Field ");
  (8%nat, "[default]: 'vminu.vx', extractor=Extractor 'V_op', factory=IFactory('vminu.vx'), stencil = 0x10004057");
  (7%nat, "[5]: IFactorySpecialCaseComposite::Field ");
  (8%nat, "[default]: 'vfmin.vf', extractor=Extractor 'V_op', factory=IFactory('vfmin.vf'), stencil = 0x10005057");
  (6%nat, "[1]: IFactoryDenseComposite::Field func3b");
  (7%nat, "[0]: IFactorySpecialCaseComposite::Field ");
  (8%nat, "[default]: 'vmin.vv', extractor=Extractor 'V_op', factory=IFactory('vmin.vv'), stencil = 0x14000057");
  (7%nat, "[1]: IFactorySpecialCaseComposite::Field ");
  (8%nat, "[default]: 'vfredmin.vs', extractor=Extractor 'V_op', factory=IFactory('vfredmin.vs'), stencil = 0x14001057");
  (7%nat, "[2]: IFactorySpecialCaseComposite::Field ");
  (8%nat, "[default]: 'vredmin.vs', extractor=Extractor 'V_op', factory=IFactory('vredmin.vs'), stencil = 0x14002057");
  (7%nat, "[4]: IFactorySpecialCaseComposite::Field ");
  (8%nat, "[default]: 'vmin.vx', extractor=Extractor 'V_op', factory=IFactory('vmin.vx'), stencil = 0x14004057");
  (5%nat, "[1]: IFactoryDenseComposite::Field func1c");
  (6%nat, "[0]: IFactoryDenseComposite::Field func3b");
  (7%nat, "[0]: IFactorySpecialCaseComposite::Field ");
  (8%nat, "[default]: 'vror.vv', extractor=Extractor 'V_op', factory=IFactory('vror.vv'), stencil = 0x50000057");
  (7%nat, "[2]: IFactorySpecialCaseComposite::Field ");
  (8%nat, "[0]: 'vid.v', mask=0x1ff8000, field_set=0x60, value=0x88000, nfixed=2, extractor=Extractor 'V', factory=IFactory('vid.v'), stencil = 0x5008a057");
  (8%nat, "[1]: 'vmsbf.m', mask=0xf8000, field_set=0x40, value=0x8000, nfixed=1, extractor=Extractor 'V', factory=IFactory('vmsbf.m'), stencil = 0x5000a057");
  (8%nat, "[2]: 'vmsof.m', mask=0xf8000, field_set=0x40, value=0x10000, nfixed=1, extractor=Extractor 'V', factory=IFactory('vmsof.m'), stencil = 0x50012057");
  (8%nat, "[3]: 'vmsif.m', mask=0xf8000, field_set=0x40, value=0x18000, nfixed=1, extractor=Extractor 'V', factory=IFactory('vmsif.m'), stencil = 0x5001a057");
  (8%nat, "[4]: 'viota.m', mask=0xf8000, field_set=0x40, value=0x80000, nfixed=1, extractor=Extractor 'V', factory=IFactory('viota.m'), stencil = 0x50082057");
  (7%nat, "[4]: IFactorySpecialCaseComposite::Field ");
  (8%nat, "[default]: 'vror.vx', extractor=Extractor 'V_op', factory=IFactory('vror.vx'), stencil = 0x50004057");
  (6%nat, "[1]: IFactoryDenseComposite::Field func3b");
  (7%nat, "[0]: IFactorySpecialCaseComposite::Field ");
  (8%nat, "[default]: 'vrol.vv', extractor=Extractor 'V_op', factory=IFactory('vrol.vv'), stencil = 0x54000057");
  (7%nat, "[4]: IFactorySpecialCaseComposite::Field ");
  (8%nat, "[default]: 'vrol.vx', extractor=Extractor 'V_op', factory=IFactory('vrol.vx'), stencil = 0x54004057");
  (6%nat, "[default]: IFactoryDenseComposite::Field func3b");
  (7%nat, "[3]: IFactorySpecialCaseComposite::Field ");
  (8%nat, "[default]: 'vror.vi', extractor=Extractor 'V_uimm6', factory=IFactory('vror.vi'), stencil = 0x50003057");
  (4%nat, "[1]: IFactoryDenseComposite::Field func1b");
  (5%nat, "[0]: IFactoryDenseComposite::Field func1c");
  (6%nat, "[0]: IFactoryDenseComposite::Field func3b");
  (7%nat, "[1]: IFactorySpecialCaseComposite::Field ");
  (8%nat, "[default]: 'vfmul.vv', extractor=Extractor 'V_op', factory=IFactory('vfmul.vv'), stencil = 0x90001057");
  (7%nat, "[2]: IFactorySpecialCaseComposite::Field ");
  (8%nat, "[default]: 'vmulhu.vv', extractor=Extractor 'V_op', factory=IFactory('vmulhu.vv'), stencil = 0x90002057");
  (7%nat, "[5]: IFactorySpecialCaseComposite::Field ");
  (8%nat, "[default]: 'vfmul.vf', extractor=Extractor 'V_op', factory=IFactory('vfmul.vf'), stencil = 0x90005057");
  (7%nat, "[6]: IFactorySpecialCaseComposite::Field ");
  (8%nat, "[default]: 'vmulhu.vx', extractor=Extractor 'V_op', factory=IFactory('vmulhu.vx'), stencil = 0x90006057");
  (6%nat, "[1]: IFactoryDenseComposite::Field func3b");
  (7%nat, "[0]: IFactorySpecialCaseComposite::Field ");
  (8%nat, "[default]: 'vsll.vv', extractor=Extractor 'V_op', factory=IFactory('vsll.vv'), stencil = 0x94000057");
  (7%nat, "[2]: IFactorySpecialCaseComposite::Field ");
  (8%nat, "[default]: 'vmul.vv', extractor=Extractor 'V_op', factory=IFactory('vmul.vv'), stencil = 0x94002057");
  (7%nat, "[3]: IFactorySpecialCaseComposite::Field ");
  (8%nat, "[default]: 'vsll.vi', extractor=Extractor 'V_uimm', factory=IFactory('vsll.vi'), stencil = 0x94003057");
  (7%nat, "[4]: IFactorySpecialCaseComposite::Field ");
  (8%nat, "[default]: 'vsll.vx', extractor=Extractor 'V_op', factory=IFactory('vsll.vx'), stencil = 0x94004057");
  (7%nat, "[6]: IFactorySpecialCaseComposite::Field ");
  (8%nat, "[default]: 'vmul.vx', extractor=Extractor 'V_op', factory=IFactory('vmul.vx'), stencil = 0x94006057");
  (5%nat, "[1]: IFactoryDenseComposite::Field func1c");
  (6%nat, "[0]: IFactoryDenseComposite::Field func3b");
  (7%nat, "[1]: IFactorySpecialCaseComposite::Field ");
  (8%nat, "[default]: 'vfwadd.wv', extractor=Extractor 'V', factory=IFactory('vfwadd.wv'), stencil = 0xd0001057");
  (7%nat, "[2]: IFactorySpecialCaseComposite::Field ");
  (8%nat, "[default]: 'vwaddu.wv', extractor=Extractor 'V_op', factory=IFactory('vwaddu.wv'), stencil = 0xd0002057");
  (7%nat, "[5]: IFactorySpecialCaseComposite::Field ");
  (8%nat, "[default]: 'vfwadd.wf', extractor=Extractor 'V', factory=IFactory('vfwadd.wf'), stencil = 0xd0005057");
  (7%nat, "[6]: IFactorySpecialCaseComposite::Field ");
  (8%nat, "[default]: 'vwaddu.wx', extractor=Extractor 'V_op', factory=IFactory('vwaddu.wx'), stencil = 0xd0006057");
  (6%nat, "[1]: IFactoryDenseComposite::Field func3b");
  (7%nat, "[0]: IFactorySpecialCaseComposite::Field ");
  (8%nat, "[default]: 'vwsll.vv', extractor=Extractor 'V_op', factory=IFactory('vwsll.vv'), stencil = 0xd4000057");
  (7%nat, "[2]: IFactorySpecialCaseComposite::Field ");
  (8%nat, "[default]: 'vwadd.wv', extractor=Extractor 'V_op', factory=IFactory('vwadd.wv'), stencil = 0xd4002057");
  (7%nat, "[3]: IFactorySpecialCaseComposite::Field ");
  (8%nat, "[default]: 'vwsll.vi', extractor=Extractor 'V_uimm', factory=IFactory('vwsll.vi'), stencil = 0xd4003057");
  (7%nat, "[4]: IFactorySpecialCaseComposite::Field ");
  (8%nat, "[default]: 'vwsll.vx', extractor=Extractor 'V_op', factory=IFactory('vwsll.vx'), stencil = 0xd4004057");
  (7%nat, "[6]: IFactorySpecialCaseComposite::Field ");
  (8%nat, "[default]: 'vwadd.wx', extractor=Extractor 'V_op', factory=IFactory('vwadd.wx'), stencil = 0xd4006057");
  (3%nat, "[3]: IFactoryDenseComposite::Field func1a");
  (4%nat, "[0]: IFactoryDenseComposite::Field func1b");
  (5%nat, "[0]: IFactoryDenseComposite::Field func1c");
  (6%nat, "[0]: IFactoryDenseComposite::Field func3b");
  (7%nat, "[0]: IFactorySpecialCaseComposite::Field ");
  (8%nat, "[default]: 'vmaxu.vv', extractor=Extractor 'V_op', factory=IFactory('vmaxu.vv'), stencil = 0x18000057");
  (7%nat, "[1]: IFactorySpecialCaseComposite::Field ");
  (8%nat, "[default]: 'vfmax.vv', extractor=Extractor 'V_op', factory=IFactory('vfmax.vv'), stencil = 0x18001057");
  (7%nat, "[2]: IFactorySpecialCaseComposite::Field ");
  (8%nat, "[default]: 'vredmaxu.vs', extractor=Extractor 'V_op', factory=IFactory('vredmaxu.vs'), stencil = 0x18002057");
  (7%nat, "[4]: IFactorySpecialCaseComposite::Field ");
  (8%nat, "[default]: 'vmaxu.vx', extractor=Extractor 'V_op', factory=IFactory('vmaxu.vx'), stencil = 0x18004057");
  (7%nat, "[5]: IFactorySpecialCaseComposite::Field ");
  (8%nat, "[default]: 'vfmax.vf', extractor=Extractor 'V_op', factory=IFactory('vfmax.vf'), stencil = 0x18005057");
  (6%nat, "[1]: IFactoryDenseComposite::Field func3b");
  (7%nat, "[0]: IFactorySpecialCaseComposite::Field ");
  (8%nat, "[default]: 'vmax.vv', extractor=Extractor 'V_op', factory=IFactory('vmax.vv'), stencil = 0x1c000057");
  (7%nat, "[1]: IFactorySpecialCaseComposite::Field ");
  (8%nat, "[default]: 'vfredmax.vs', extractor=Extractor 'V_op', factory=IFactory('vfredmax.vs'), stencil = 0x1c001057");
  (7%nat, "[2]: IFactorySpecialCaseComposite::Field ");
  (8%nat, "[default]: 'vredmax.vs', extractor=Extractor 'V_op', factory=IFactory('vredmax.vs'), stencil = 0x1c002057");
  (7%nat, "[4]: IFactorySpecialCaseComposite::Field ");
  (8%nat, "[default]: 'vmax.vx', extractor=Extractor 'V_op', factory=IFactory('vmax.vx'), stencil = 0x1c004057");
  (5%nat, "[1]: IFactoryDenseComposite::Field func1c");
  (6%nat, "[1]: IFactoryDenseComposite::Field func3b");
  (7%nat, "[0]: IFactorySpecialCaseComposite::Field ");
  (8%nat, "[0]: 'vmv.v.v', mask=0x3f00000, field_set=0x30, value=0x2000000, nfixed=2, extractor=Extractor 'V', factory=IFactory('vmv.v.v'), stencil = 0x5e000057");
  (8%nat, "[1]: 'vmerge.vvm', mask=0x2000000, field_set=0x10, value=0x0, nfixed=1, extractor=Extractor 'V', factory=IFactory('vmerge.vvm'), stencil = 0x5c000057");
  (7%nat, "[2]: IFactorySpecialCaseComposite::Field ");
  (8%nat, "[0]: 'vcompress.vm', mask=0x2000000, field_set=0x10, value=0x2000000, nfixed=1, extractor=Extractor 'V', factory=IFactory('vcompress.vm'), stencil = 0x5e002057");
  (7%nat, "[3]: IFactorySpecialCaseComposite::Field ");
  (8%nat, "[0]: 'vmv.v.i', mask=0x3f00000, field_set=0x30, value=0x2000000, nfixed=2, extractor=Extractor 'V_simm', factory=IFactory('vmv.v.i'), stencil = 0x5e003057");
  (8%nat, "[1]: 'vmerge.vim', mask=0x2000000, field_set=0x10, value=0x0, nfixed=1, extractor=Extractor 'V_simm', factory=IFactory('vmerge.vim'), stencil = 0x5c003057");
  (7%nat, "[4]: IFactorySpecialCaseComposite::Field ");
  (8%nat, "[0]: 'vmv.v.x', mask=0x3f00000, field_set=0x30, value=0x2000000, nfixed=2, extractor=Extractor 'V', factory=IFactory('vmv.v.x'), stencil = 0x5e004057");
  (8%nat, "[1]: 'vmerge.vxm', mask=0x2000000, field_set=0x10, value=0x0, nfixed=1, extractor=Extractor 'V', factory=IFactory('vmerge.vxm'), stencil = 0x5c004057");
  (7%nat, "[5]: IFactorySpecialCaseComposite::Field ");
  (8%nat, "[0]: 'vfmv.v.f', mask=0x3f00000, field_set=0x30, value=0x2000000, nfixed=2, extractor=Extractor 'V', factory=IFactory('vfmv.v.f'), stencil = 0x5e005057");
  (8%nat, "[1]: 'vfmerge.vfm', mask=0x2000000, field_set=0x10, value=0x0, nfixed=1, extractor=Extractor 'V', factory=IFactory('vfmerge.vfm'), stencil = 0x5c005057");
  (4%nat, "[1]: IFactoryDenseComposite::Field func1b");
  (5%nat, "[0]: IFactoryDenseComposite::Field func1c");
  (6%nat, "[0]: IFactoryDenseComposite::Field func3b");
  (7%nat, "[2]: IFactorySpecialCaseComposite::Field ");
  (8%nat, "[default]: 'vmulhsu.vv', extractor=Extractor 'V_op', factory=IFactory('vmulhsu.vv'), stencil = 0x98002057");
  (7%nat, "[6]: IFactorySpecialCaseComposite::Field ");
  (8%nat, "[default]: 'vmulhsu.vx', extractor=Extractor 'V_op', factory=IFactory('vmulhsu.vx'), stencil = 0x98006057");
  (6%nat, "[1]: IFactoryDenseComposite::Field func3b");
  (7%nat, "[0]: IFactorySpecialCaseComposite::Field ");
  (8%nat, "[default]: 'vsmul.vv', extractor=Extractor 'V_op', factory=IFactory('vsmul.vv'), stencil = 0x9c000057");
  (7%nat, "[2]: IFactorySpecialCaseComposite::Field ");
  (8%nat, "[default]: 'vmulh.vv', extractor=Extractor 'V_op', factory=IFactory('vmulh.vv'), stencil = 0x9c002057");
  (7%nat, "[3]: IFactorySpecialCaseComposite::Field ");
  (8%nat, "[0]: 'vmv1r.v', mask=0x20f8000, field_set=0x50, value=0x2000000, nfixed=2, extractor=Extractor 'V', factory=IFactory('vmv1r.v'), stencil = 0x9e003057");
  (8%nat, "[1]: 'vmv2r.v', mask=0x20f8000, field_set=0x50, value=0x2008000, nfixed=2, extractor=Extractor 'V', factory=IFactory('vmv2r.v'), stencil = 0x9e00b057");
  (8%nat, "[2]: 'vmv4r.v', mask=0x20f8000, field_set=0x50, value=0x2018000, nfixed=2, extractor=Extractor 'V', factory=IFactory('vmv4r.v'), stencil = 0x9e01b057");
  (8%nat, "[3]: 'vmv8r.v', mask=0x20f8000, field_set=0x50, value=0x2038000, nfixed=2, extractor=Extractor 'V', factory=IFactory('vmv8r.v'), stencil = 0x9e03b057");
  (7%nat, "[4]: IFactorySpecialCaseComposite::Field ");
  (8%nat, "[default]: 'vsmul.vx', extractor=Extractor 'V_op', factory=IFactory('vsmul.vx'), stencil = 0x9c004057");
  (7%nat, "[5]: IFactorySpecialCaseComposite::Field ");
  (8%nat, "[default]: 'vfrsub.vf', extractor=Extractor 'V_op', factory=IFactory('vfrsub.vf'), stencil = 0x9c005057");
  (7%nat, "[6]: IFactorySpecialCaseComposite::Field ");
  (8%nat, "[default]: 'vmulh.vx', extractor=Extractor 'V_op', factory=IFactory('vmulh.vx'), stencil = 0x9c006057");
  (5%nat, "[1]: IFactoryDenseComposite::Field func1c");
  (6%nat, "[0]: IFactoryDenseComposite::Field func3b");
  (7%nat, "[1]: IFactorySpecialCaseComposite::Field ");
  (8%nat, "[default]: 'vfwsub.wv', extractor=Extractor 'V', factory=IFactory('vfwsub.wv'), stencil = 0xd8001057");
  (7%nat, "[2]: IFactorySpecialCaseComposite::Field ");
  (8%nat, "[default]: 'vwsubu.wv', extractor=Extractor 'V_op', factory=IFactory('vwsubu.wv'), stencil = 0xd8002057");
  (7%nat, "[5]: IFactorySpecialCaseComposite::Field ");
  (8%nat, "[default]: 'vfwsub.wf', extractor=Extractor 'V', factory=IFactory('vfwsub.wf'), stencil = 0xd8005057");
  (7%nat, "[6]: IFactorySpecialCaseComposite::Field ");
  (8%nat, "[default]: 'vwsubu.wx', extractor=Extractor 'V_op', factory=IFactory('vwsubu.wx'), stencil = 0xd8006057");
  (6%nat, "[1]: IFactoryDenseComposite::Field func3b");
  (7%nat, "[2]: IFactorySpecialCaseComposite::Field ");
  (8%nat, "[default]: 'vwsub.wv', extractor=Extractor 'V_op', factory=IFactory('vwsub.wv'), stencil = 0xdc002057");
  (7%nat, "[6]: IFactorySpecialCaseComposite::Field ");
  (8%nat, "[default]: 'vwsub.wx', extractor=Extractor 'V_op', factory=IFactory('vwsub.wx'), stencil = 0xdc006057");
  (3%nat, "[4]: IFactoryDenseComposite::Field func1a");
  (4%nat, "[0]: IFactoryDenseComposite::Field func1b");
  (5%nat, "[0]: IFactoryDenseComposite::Field func1c");
  (6%nat, "[0]: IFactoryDenseComposite::Field func3b");
  (7%nat, "[1]: IFactorySpecialCaseComposite::Field ");
  (8%nat, "[default]: 'vfsgnj.vv', extractor=Extractor 'V_op', factory=IFactory('vfsgnj.vv'), stencil = 0x20001057");
  (7%nat, "[2]: IFactorySpecialCaseComposite::Field ");
  (8%nat, "[default]: 'vaaddu.vv', extractor=Extractor 'V_op', factory=IFactory('vaaddu.vv'), stencil = 0x20002057");
  (7%nat, "[5]: IFactorySpecialCaseComposite::Field ");
  (8%nat, "[default]: 'vfsgnj.vf', extractor=Extractor 'V_op', factory=IFactory('vfsgnj.vf'), stencil = 0x20005057");
  (7%nat, "[6]: IFactorySpecialCaseComposite::Field ");
  (8%nat, "[default]: 'vaaddu.vx', extractor=Extractor 'V_op', factory=IFactory('vaaddu.vx'), stencil = 0x20006057");
  (6%nat, "[1]: IFactoryDenseComposite::Field func3b");
  (7%nat, "[0]: IFactorySpecialCaseComposite::Field ");
  (8%nat, "[default]: 'vand.vv', extractor=Extractor 'V_op', factory=IFactory('vand.vv'), stencil = 0x24000057");
  (7%nat, "[1]: IFactorySpecialCaseComposite::Field ");
  (8%nat, "[default]: 'vfsgnjn.vv', extractor=Extractor 'V_op', factory=IFactory('vfsgnjn.vv'), stencil = 0x24001057");
  (7%nat, "[2]: IFactorySpecialCaseComposite::Field ");
  (8%nat, "[default]: 'vaadd.vv', extractor=Extractor 'V_op', factory=IFactory('vaadd.vv'), stencil = 0x24002057");
  (7%nat, "[3]: IFactorySpecialCaseComposite::Field ");
  (8%nat, "[default]: 'vand.vi', extractor=Extractor 'V_simm', factory=IFactory('vand.vi'), stencil = 0x24003057");
  (7%nat, "[4]: IFactorySpecialCaseComposite::Field ");
  (8%nat, "[default]: 'vand.vx', extractor=Extractor 'V_op', factory=IFactory('vand.vx'), stencil = 0x24004057");
  (7%nat, "[5]: IFactorySpecialCaseComposite::Field ");
  (8%nat, "[default]: 'vfsgnjn.vf', extractor=Extractor 'V_op', factory=IFactory('vfsgnjn.vf'), stencil = 0x24005057");
  (7%nat, "[6]: IFactorySpecialCaseComposite::Field ");
  (8%nat, "[default]: 'vaadd.vx', extractor=Extractor 'V_op', factory=IFactory('vaadd.vx'), stencil = 0x24006057");
  (5%nat, "[1]: IFactoryDenseComposite::Field func1c");
  (6%nat, "[0]: IFactoryDenseComposite::Field func3b");
  (7%nat, "[0]: IFactorySpecialCaseComposite::Field ");
  (8%nat, "[default]: 'vmseq.vv', extractor=Extractor 'V_op', factory=IFactory('vmseq.vv'), stencil = 0x60000057");
  (7%nat, "[1]: IFactorySpecialCaseComposite::Field ");
  (8%nat, "[default]: 'vmfeq.vv', extractor=Extractor 'V_op', factory=IFactory('vmfeq.vv'), stencil = 0x60001057");
  (7%nat, "[2]: IFactorySpecialCaseComposite::Field ");
  (8%nat, "[default]: 'vmandn.mm', extractor=Extractor 'V', factory=IFactory('vmandn.mm'), stencil = 0x60002057");
  (7%nat, "[3]: IFactorySpecialCaseComposite::Field ");
  (8%nat, "[default]: 'vmseq.vi', extractor=Extractor 'V_simm', factory=IFactory('vmseq.vi'), stencil = 0x60003057");
  (7%nat, "[4]: IFactorySpecialCaseComposite::Field ");
  (8%nat, "[default]: 'vmseq.vx', extractor=Extractor 'V_op', factory=IFactory('vmseq.vx'), stencil = 0x60004057");
  (7%nat, "[5]: IFactorySpecialCaseComposite::Field ");
  (8%nat, "[default]: 'vmfeq.vf', extractor=Extractor 'V_op', factory=IFactory('vmfeq.vf'), stencil = 0x60005057");
  (6%nat, "[1]: IFactoryDenseComposite::Field func3b");
  (7%nat, "[0]: IFactorySpecialCaseComposite::Field ");
  (8%nat, "[default]: 'vmsne.vv', extractor=Extractor 'V_op', factory=IFactory('vmsne.vv'), stencil = 0x64000057");
  (7%nat, "[1]: IFactorySpecialCaseComposite::Field ");
  (8%nat, "[default]: 'vmfle.vv', extractor=Extractor 'V_op', factory=IFactory('vmfle.vv'), stencil = 0x64001057");
  (7%nat, "[2]: IFactorySpecialCaseComposite::Field ");
  (8%nat, "[default]: 'vmand.mm', extractor=Extractor 'V', factory=IFactory('vmand.mm'), stencil = 0x64002057");
  (7%nat, "[3]: IFactorySpecialCaseComposite::Field ");
  (8%nat, "[default]: 'vmsne.vi', extractor=Extractor 'V_simm', factory=IFactory('vmsne.vi'), stencil = 0x64003057");
  (7%nat, "[4]: IFactorySpecialCaseComposite::Field ");
  (8%nat, "[default]: 'vmsne.vx', extractor=Extractor 'V_op', factory=IFactory('vmsne.vx'), stencil = 0x64004057");
  (7%nat, "[5]: IFactorySpecialCaseComposite::Field ");
  (8%nat, "[default]: 'vmfle.vf', extractor=Extractor 'V_op', factory=IFactory('vmfle.vf'), stencil = 0x64005057");
  (4%nat, "[1]: IFactoryDenseComposite::Field func1b");
  (5%nat, "[0]: IFactoryDenseComposite::Field func1c");
  (6%nat, "[0]: IFactoryDenseComposite::Field func3b");
  (7%nat, "[0]: IFactorySpecialCaseComposite::Field ");
  (8%nat, "[default]: 'vsrl.vv', extractor=Extractor 'V_op', factory=IFactory('vsrl.vv'), stencil = 0xa0000057");
  (7%nat, "[1]: IFactorySpecialCaseComposite::Field ");
  (8%nat, "[default]: 'vfmadd.vv', extractor=Extractor 'V_implied', factory=IFactory('vfmadd.vv'), stencil = 0xa0001057");
  (7%nat, "[3]: IFactorySpecialCaseComposite::Field ");
  (8%nat, "[default]: 'vsrl.vi', extractor=Extractor 'V_uimm', factory=IFactory('vsrl.vi'), stencil = 0xa0003057");
  (7%nat, "[4]: IFactorySpecialCaseComposite::Field ");
  (8%nat, "[default]: 'vsrl.vx', extractor=Extractor 'V_op', factory=IFactory('vsrl.vx'), stencil = 0xa0004057");
  (7%nat, "[5]: IFactorySpecialCaseComposite::Field ");
  (8%nat, "[default]: 'vfmadd.vf', extractor=Extractor 'V_implied', factory=IFactory('vfmadd.vf'), stencil = 0xa0005057");
  (6%nat, "[1]: IFactoryDenseComposite::Field func3b");
  (7%nat, "[0]: IFactorySpecialCaseComposite::Field ");
  (8%nat, "[default]: 'vsra.vv', extractor=Extractor 'V_op', factory=IFactory('vsra.vv'), stencil = 0xa4000057");
  (7%nat, "[1]: IFactorySpecialCaseComposite::Field ");
  (8%nat, "[default]: 'vfnmadd.vv', extractor=Extractor 'V_implied', factory=IFactory('vfnmadd.vv'), stencil = 0xa4001057");
  (7%nat, "[2]: IFactorySpecialCaseComposite::Field ");
  (8%nat, "[default]: 'vmadd.vv', extractor=Extractor 'V_implied', factory=IFactory('vmadd.vv'), stencil = 0xa4002057");
  (7%nat, "[3]: IFactorySpecialCaseComposite::Field ");
  (8%nat, "[default]: 'vsra.vi', extractor=Extractor 'V_uimm', factory=IFactory('vsra.vi'), stencil = 0xa4003057");
  (7%nat, "[4]: IFactorySpecialCaseComposite::Field ");
  (8%nat, "[default]: 'vsra.vx', extractor=Extractor 'V_op', factory=IFactory('vsra.vx'), stencil = 0xa4004057");
  (7%nat, "[5]: IFactorySpecialCaseComposite::Field ");
  (8%nat, "[default]: 'vfnmadd.vf', extractor=Extractor 'V_implied', factory=IFactory('vfnmadd.vf'), stencil = 0xa4005057");
  (7%nat, "[6]: IFactorySpecialCaseComposite::Field ");
  (8%nat, "[default]: 'vmadd.vx', extractor=Extractor 'V_implied', factory=IFactory('vmadd.vx'), stencil = 0xa4006057");
  (5%nat, "[1]: IFactoryDenseComposite::Field func1c");
  (6%nat, "[0]: IFactoryDenseComposite::Field func3b");
  (7%nat, "[1]: IFactorySpecialCaseComposite::Field ");
  (8%nat, "[default]: 'vfwmul.vv', extractor=Extractor 'V_op', factory=IFactory('vfwmul.vv'), stencil = 0xe0001057");
  (7%nat, "[2]: IFactorySpecialCaseComposite::Field ");
  (8%nat, "[default]: 'vwmulu.vv', extractor=Extractor 'V_op', factory=IFactory('vwmulu.vv'), stencil = 0xe0002057");
  (7%nat, "[5]: IFactorySpecialCaseComposite::Field ");
  (8%nat, "[default]: 'vfwmul.vf', extractor=Extractor 'V_op', factory=IFactory('vfwmul.vf'), stencil = 0xe0005057");
  (7%nat, "[6]: IFactorySpecialCaseComposite::Field ");
  (8%nat, "[default]: 'vwmulu.vx', extractor=Extractor 'V_op', factory=IFactory('vwmulu.vx'), stencil = 0xe0006057");
  (6%nat, "[1]: IFactoryDenseComposite::Field func3b");
  (7%nat, "[1]: IFactorySpecialCaseComposite::Field ");
  (8%nat, "[default]: 'vfdot.vv', extractor=Extractor 'V_op', factory=IFactory('vfdot.vv'), stencil = 0xe4001057");
  (3%nat, "[5]: IFactoryDenseComposite::Field func1a");
  (4%nat, "[0]: IFactoryDenseComposite::Field func1b");
  (5%nat, "[0]: IFactoryDenseComposite::Field func1c");
  (6%nat, "[0]: IFactoryDenseComposite::Field func3b");
  (7%nat, "[0]: IFactorySpecialCaseComposite::Field ");
  (8%nat, "[default]: 'vor.vv', extractor=Extractor 'V_op', factory=IFactory('vor.vv'), stencil = 0x28000057");
  (7%nat, "[1]: IFactorySpecialCaseComposite::Field ");
  (8%nat, "[default]: 'vfsgnjx.vv', extractor=Extractor 'V_op', factory=IFactory('vfsgnjx.vv'), stencil = 0x28001057");
  (7%nat, "[2]: IFactorySpecialCaseComposite::Field ");
  (8%nat, "[default]: 'vasubu.vv', extractor=Extractor 'V_op', factory=IFactory('vasubu.vv'), stencil = 0x28002057");
  (7%nat, "[3]: IFactorySpecialCaseComposite::Field ");
  (8%nat, "[default]: 'vor.vi', extractor=Extractor 'V_simm', factory=IFactory('vor.vi'), stencil = 0x28003057");
  (7%nat, "[4]: IFactorySpecialCaseComposite::Field ");
  (8%nat, "[default]: 'vor.vx', extractor=Extractor 'V_op', factory=IFactory('vor.vx'), stencil = 0x28004057");
  (7%nat, "[5]: IFactorySpecialCaseComposite::Field ");
  (8%nat, "[default]: 'vfsgnjx.vf', extractor=Extractor 'V_op', factory=IFactory('vfsgnjx.vf'), stencil = 0x28005057");
  (7%nat, "[6]: IFactorySpecialCaseComposite::Field ");
  (8%nat, "[default]: 'vasubu.vx', extractor=Extractor 'V_op', factory=IFactory('vasubu.vx'), stencil = 0x28006057");
  (6%nat, "[1]: IFactoryDenseComposite::Field func3b");
  (7%nat, "[0]: IFactorySpecialCaseComposite::Field ");
  (8%nat, "[default]: 'vxor.vv', extractor=Extractor 'V_op', factory=IFactory('vxor.vv'), stencil = 0x2c000057");
  (7%nat, "[2]: IFactorySpecialCaseComposite::Field ");
  (8%nat, "[default]: 'vasub.vv', extractor=Extractor 'V_op', factory=IFactory('vasub.vv'), stencil = 0x2c002057");
  (7%nat, "[3]: IFactorySpecialCaseComposite::Field ");
  (8%nat, "[default]: 'vxor.vi', extractor=Extractor 'V_simm', factory=IFactory('vxor.vi'), stencil = 0x2c003057");
  (7%nat, "[4]: IFactorySpecialCaseComposite::Field ");
  (8%nat, "[default]: 'vxor.vx', extractor=Extractor 'V_op', factory=IFactory('vxor.vx'), stencil = 0x2c004057");
  (7%nat, "[6]: IFactorySpecialCaseComposite::Field ");
  (8%nat, "[default]: 'vasub.vx', extractor=Extractor 'V_op', factory=IFactory('vasub.vx'), stencil = 0x2c006057");
  (5%nat, "[1]: IFactoryDenseComposite::Field func1c");
  (6%nat, "[0]: IFactoryDenseComposite::Field func3b");
  (7%nat, "[0]: IFactorySpecialCaseComposite::Field ");
  (8%nat, "[default]: 'vmsltu.vv', extractor=Extractor 'V_op', factory=IFactory('vmsltu.vv'), stencil = 0x68000057");
  (7%nat, "[2]: IFactorySpecialCaseComposite::Field ");
  (8%nat, "[default]: 'vmor.mm', extractor=Extractor 'V', factory=IFactory('vmor.mm'), stencil = 0x68002057");
  (7%nat, "[4]: IFactorySpecialCaseComposite::Field ");
  (8%nat, "[default]: 'vmsltu.vx', extractor=Extractor 'V_op', factory=IFactory('vmsltu.vx'), stencil = 0x68004057");
  (6%nat, "[1]: IFactoryDenseComposite::Field func3b");
  (7%nat, "[0]: IFactorySpecialCaseComposite::Field ");
  (8%nat, "[default]: 'vmslt.vv', extractor=Extractor 'V_op', factory=IFactory('vmslt.vv'), stencil = 0x6c000057");
  (7%nat, "[1]: IFactorySpecialCaseComposite::Field ");
  (8%nat, "[default]: 'vmflt.vv', extractor=Extractor 'V_op', factory=IFactory('vmflt.vv'), stencil = 0x6c001057");
  (7%nat, "[2]: IFactorySpecialCaseComposite::Field ");
  (8%nat, "[default]: 'vmxor.mm', extractor=Extractor 'V', factory=IFactory('vmxor.mm'), stencil = 0x6c002057");
  (7%nat, "[4]: IFactorySpecialCaseComposite::Field ");
  (8%nat, "[default]: 'vmslt.vx', extractor=Extractor 'V_op', factory=IFactory('vmslt.vx'), stencil = 0x6c004057");
  (7%nat, "[5]: IFactorySpecialCaseComposite::Field ");
  (8%nat, "[default]: 'vmflt.vf', extractor=Extractor 'V_op', factory=IFactory('vmflt.vf'), stencil = 0x6c005057");
  (4%nat, "[1]: IFactoryDenseComposite::Field func1b");
  (5%nat, "[0]: IFactoryDenseComposite::Field func1c");
  (6%nat, "[0]: IFactoryDenseComposite::Field func3b");
  (7%nat, "[0]: IFactorySpecialCaseComposite::Field ");
  (8%nat, "[default]: 'vssrl.vv', extractor=Extractor 'V_op', factory=IFactory('vssrl.vv'), stencil = 0xa8000057");
  (7%nat, "[1]: IFactorySpecialCaseComposite::Field ");
  (8%nat, "[default]: 'vfmsub.vv', extractor=Extractor 'V_implied', factory=IFactory('vfmsub.vv'), stencil = 0xa8001057");
  (7%nat, "[3]: IFactorySpecialCaseComposite::Field ");
  (8%nat, "[default]: 'vssrl.vi', extractor=Extractor 'V_uimm', factory=IFactory('vssrl.vi'), stencil = 0xa8003057");
  (7%nat, "[4]: IFactorySpecialCaseComposite::Field ");
  (8%nat, "[default]: 'vssrl.vx', extractor=Extractor 'V_op', factory=IFactory('vssrl.vx'), stencil = 0xa8004057");
  (7%nat, "[5]: IFactorySpecialCaseComposite::Field ");
  (8%nat, "[default]: 'vfmsub.vf', extractor=Extractor 'V_implied', factory=IFactory('vfmsub.vf'), stencil = 0xa8005057");
  (6%nat, "[1]: IFactoryDenseComposite::Field func3b");
  (7%nat, "[0]: IFactorySpecialCaseComposite::Field ");
  (8%nat, "[default]: 'vssra.vv', extractor=Extractor 'V_op', factory=IFactory('vssra.vv'), stencil = 0xac000057");
  (7%nat, "[1]: IFactorySpecialCaseComposite::Field ");
  (8%nat, "[default]: 'vfnmsub.vv', extractor=Extractor 'V_implied', factory=IFactory('vfnmsub.vv'), stencil = 0xac001057");
  (7%nat, "[2]: IFactorySpecialCaseComposite::Field ");
  (8%nat, "[default]: 'vnmsub.vv', extractor=Extractor 'V_implied', factory=IFactory('vnmsub.vv'), stencil = 0xac002057");
  (7%nat, "[3]: IFactorySpecialCaseComposite::Field ");
  (8%nat, "[default]: 'vssra.vi', extractor=Extractor 'V_uimm', factory=IFactory('vssra.vi'), stencil = 0xac003057");
  (7%nat, "[4]: IFactorySpecialCaseComposite::Field ");
  (8%nat, "[default]: 'vssra.vx', extractor=Extractor 'V_op', factory=IFactory('vssra.vx'), stencil = 0xac004057");
  (7%nat, "[5]: IFactorySpecialCaseComposite::Field ");
  (8%nat, "[default]: 'vfnmsub.vf', extractor=Extractor 'V_implied', factory=IFactory('vfnmsub.vf'), stencil = 0xac005057");
  (7%nat, "[6]: IFactorySpecialCaseComposite::Field ");
  (8%nat, "[default]: 'vnmsub.vx', extractor=Extractor 'V_implied', factory=IFactory('vnmsub.vx'), stencil = 0xac006057");
  (5%nat, "[1]: IFactoryDenseComposite::Field func1c");
  (6%nat, "[0]: IFactoryDenseComposite::Field func3b");
  (7%nat, "[2]: IFactorySpecialCaseComposite::Field ");
  (8%nat, "[default]: 'vwmulsu.vv', extractor=Extractor 'V_op', factory=IFactory('vwmulsu.vv'), stencil = 0xe8002057");
  (7%nat, "[6]: IFactorySpecialCaseComposite::Field ");
  (8%nat, "[default]: 'vwmulsu.vx', extractor=Extractor 'V_op', factory=IFactory('vwmulsu.vx'), stencil = 0xe8006057");
  (6%nat, "[1]: IFactoryDenseComposite::Field func3b");
  (7%nat, "[1]: IFactorySpecialCaseComposite::Field ");
  (8%nat, "[default]: 'vfwmaccbf16.vv', extractor=Extractor 'V_op', factory=IFactory('vfwmaccbf16.vv'), stencil = 0xec001057");
  (7%nat, "[2]: IFactorySpecialCaseComposite::Field ");
  (8%nat, "[default]: 'vwmul.vv', extractor=Extractor 'V_op', factory=IFactory('vwmul.vv'), stencil = 0xec002057");
  (7%nat, "[5]: IFactorySpecialCaseComposite::Field ");
  (8%nat, "[default]: 'vfwmaccbf16.vf', extractor=Extractor 'V_op', factory=IFactory('vfwmaccbf16.vf'), stencil = 0xec005057");
  (7%nat, "[6]: IFactorySpecialCaseComposite::Field ");
  (8%nat, "[default]: 'vwmul.vx', extractor=Extractor 'V_op', factory=IFactory('vwmul.vx'), stencil = 0xec006057");
  (3%nat, "[6]: IFactoryDenseComposite::Field func1a");
  (4%nat, "[0]: IFactoryDenseComposite::Field func1b");
  (5%nat, "[0]: IFactoryDenseComposite::Field func1c");
  (6%nat, "[0]: IFactoryDenseComposite::Field func3b");
  (7%nat, "[0]: IFactorySpecialCaseComposite::Field ");
  (8%nat, "[default]: 'vrgather.vv', extractor=Extractor 'V_op', factory=IFactory('vrgather.vv'), stencil = 0x30000057");
  (7%nat, "[2]: IFactorySpecialCaseComposite::Field ");
  (8%nat, "[default]: 'vclmul.vv', extractor=Extractor 'V_op', factory=IFactory('vclmul.vv'), stencil = 0x30002057");
  (7%nat, "[3]: IFactorySpecialCaseComposite::Field ");
  (8%nat, "[default]: 'vrgather.vi', extractor=Extractor 'V_uimm', factory=IFactory('vrgather.vi'), stencil = 0x30003057");
  (7%nat, "[4]: IFactorySpecialCaseComposite::Field ");
  (8%nat, "[default]: 'vrgather.vx', extractor=Extractor 'V_op', factory=IFactory('vrgather.vx'), stencil = 0x30004057");
  (7%nat, "[6]: IFactorySpecialCaseComposite::Field ");
  (8%nat, "[default]: 'vclmul.vx', extractor=Extractor 'V_op', factory=IFactory('vclmul.vx'), stencil = 0x30006057");
  (6%nat, "[1]: IFactoryDenseComposite::Field func3b");
  (7%nat, "[2]: IFactorySpecialCaseComposite::Field ");
  (8%nat, "[default]: 'vclmulh.vv', extractor=Extractor 'V_op', factory=IFactory('vclmulh.vv'), stencil = 0x34002057");
  (7%nat, "[6]: IFactorySpecialCaseComposite::Field ");
  (8%nat, "[default]: 'vclmulh.vx', extractor=Extractor 'V_op', factory=IFactory('vclmulh.vx'), stencil = 0x34006057");
  (5%nat, "[1]: IFactoryDenseComposite::Field func1c");
  (6%nat, "[0]: IFactoryDenseComposite::Field func3b");
  (7%nat, "[0]: IFactorySpecialCaseComposite::Field ");
  (8%nat, "[default]: 'vmsleu.vv', extractor=Extractor 'V_op', factory=IFactory('vmsleu.vv'), stencil = 0x70000057");
  (7%nat, "[1]: IFactorySpecialCaseComposite::Field ");
  (8%nat, "[default]: 'vmfne.vv', extractor=Extractor 'V_op', factory=IFactory('vmfne.vv'), stencil = 0x70001057");
  (7%nat, "[2]: IFactorySpecialCaseComposite::Field ");
  (8%nat, "[default]: 'vmorn.mm', extractor=Extractor 'V', factory=IFactory('vmorn.mm'), stencil = 0x70002057");
  (7%nat, "[3]: IFactorySpecialCaseComposite::Field ");
  (8%nat, "[default]: 'vmsleu.vi', extractor=Extractor 'V_simm', factory=IFactory('vmsleu.vi'), stencil = 0x70003057");
  (7%nat, "[4]: IFactorySpecialCaseComposite::Field ");
  (8%nat, "[default]: 'vmsleu.vx', extractor=Extractor 'V_op', factory=IFactory('vmsleu.vx'), stencil = 0x70004057");
  (7%nat, "[5]: IFactorySpecialCaseComposite::Field ");
  (8%nat, "[default]: 'vmfne.vf', extractor=Extractor 'V_op', factory=IFactory('vmfne.vf'), stencil = 0x70005057");
  (6%nat, "[1]: IFactoryDenseComposite::Field func3b");
  (7%nat, "[0]: IFactorySpecialCaseComposite::Field ");
  (8%nat, "[default]: 'vmsle.vv', extractor=Extractor 'V_op', factory=IFactory('vmsle.vv'), stencil = 0x74000057");
  (7%nat, "[2]: IFactorySpecialCaseComposite::Field ");
  (8%nat, "[default]: 'vmnand.mm', extractor=Extractor 'V', factory=IFactory('vmnand.mm'), stencil = 0x74002057");
  (7%nat, "[3]: IFactorySpecialCaseComposite::Field ");
  (8%nat, "[default]: 'vmsle.vi', extractor=Extractor 'V_simm', factory=IFactory('vmsle.vi'), stencil = 0x74003057");
  (7%nat, "[4]: IFactorySpecialCaseComposite::Field ");
  (8%nat, "[default]: 'vmsle.vx', extractor=Extractor 'V_op', factory=IFactory('vmsle.vx'), stencil = 0x74004057");
  (7%nat, "[5]: IFactorySpecialCaseComposite::Field ");
  (8%nat, "[default]: 'vmfgt.vf', extractor=Extractor 'V_op', factory=IFactory('vmfgt.vf'), stencil = 0x74005057");
  (4%nat, "[1]: IFactoryDenseComposite::Field func1b");
  (5%nat, "[0]: IFactoryDenseComposite::Field func1c");
  (6%nat, "[0]: IFactoryDenseComposite::Field func3b");
  (7%nat, "[0]: IFactorySpecialCaseComposite::Field ");
  (8%nat, "[default]: 'vnsrl.wv', extractor=Extractor 'V', factory=IFactory('vnsrl.wv'), stencil = 0xb0000057");
  (7%nat, "[1]: IFactorySpecialCaseComposite::Field ");
  (8%nat, "[default]: 'vfmacc.vv', extractor=Extractor 'V_implied', factory=IFactory('vfmacc.vv'), stencil = 0xb0001057");
  (7%nat, "[3]: IFactorySpecialCaseComposite::Field ");
  (8%nat, "[default]: 'vnsrl.wi', extractor=Extractor 'V_uimm', factory=IFactory('vnsrl.wi'), stencil = 0xb0003057");
  (7%nat, "[4]: IFactorySpecialCaseComposite::Field ");
  (8%nat, "[default]: 'vnsrl.wx', extractor=Extractor 'V', factory=IFactory('vnsrl.wx'), stencil = 0xb0004057");
  (7%nat, "[5]: IFactorySpecialCaseComposite::Field ");
  (8%nat, "[default]: 'vfmacc.vf', extractor=Extractor 'V_implied', factory=IFactory('vfmacc.vf'), stencil = 0xb0005057");
  (6%nat, "[1]: IFactoryDenseComposite::Field func3b");
  (7%nat, "[0]: IFactorySpecialCaseComposite::Field ");
  (8%nat, "[default]: 'vnsra.wv', extractor=Extractor 'V', factory=IFactory('vnsra.wv'), stencil = 0xb4000057");
  (7%nat, "[1]: IFactorySpecialCaseComposite::Field ");
  (8%nat, "[default]: 'vfnmacc.vv', extractor=Extractor 'V_implied', factory=IFactory('vfnmacc.vv'), stencil = 0xb4001057");
  (7%nat, "[2]: IFactorySpecialCaseComposite::Field ");
  (8%nat, "[default]: 'vmacc.vv', extractor=Extractor 'V_implied', factory=IFactory('vmacc.vv'), stencil = 0xb4002057");
  (7%nat, "[3]: IFactorySpecialCaseComposite::Field ");
  (8%nat, "[default]: 'vnsra.wi', extractor=Extractor 'V_uimm', factory=IFactory('vnsra.wi'), stencil = 0xb4003057");
  (7%nat, "[4]: IFactorySpecialCaseComposite::Field ");
  (8%nat, "[default]: 'vnsra.wx', extractor=Extractor 'V', factory=IFactory('vnsra.wx'), stencil = 0xb4004057");
  (7%nat, "[5]: IFactorySpecialCaseComposite::Field ");
  (8%nat, "[default]: 'vfnmacc.vf', extractor=Extractor 'V_implied', factory=IFactory('vfnmacc.vf'), stencil = 0xb4005057");
  (7%nat, "[6]: IFactorySpecialCaseComposite::Field ");
  (8%nat, "[default]: 'vmacc.vx', extractor=Extractor 'V_implied', factory=IFactory('vmacc.vx'), stencil = 0xb4006057");
  (5%nat, "[1]: IFactoryDenseComposite::Field func1c");
  (6%nat, "[0]: IFactoryDenseComposite::Field func3b");
  (7%nat, "[1]: IFactorySpecialCaseComposite::Field ");
  (8%nat, "[default]: 'vfwmacc.vv', extractor=Extractor 'V_implied', factory=IFactory('vfwmacc.vv'), stencil = 0xf0001057");
  (7%nat, "[2]: IFactorySpecialCaseComposite::Field ");
  (8%nat, "[default]: 'vwmaccu.vv', extractor=Extractor 'V_implied', factory=IFactory('vwmaccu.vv'), stencil = 0xf0002057");
  (7%nat, "[5]: IFactorySpecialCaseComposite::Field ");
  (8%nat, "[default]: 'vfwmacc.vf', extractor=Extractor 'V_implied', factory=IFactory('vfwmacc.vf'), stencil = 0xf0005057");
  (7%nat, "[6]: IFactorySpecialCaseComposite::Field ");
  (8%nat, "[default]: 'vwmaccu.vx', extractor=Extractor 'V_implied', factory=IFactory('vwmaccu.vx'), stencil = 0xf0006057");
  (6%nat, "[1]: IFactoryDenseComposite::Field func3b");
  (7%nat, "[1]: IFactorySpecialCaseComposite::Field ");
  (8%nat, "[default]: 'vfwnmacc.vv', extractor=Extractor 'V_implied', factory=IFactory('vfwnmacc.vv'), stencil = 0xf4001057");
  (7%nat, "[2]: IFactorySpecialCaseComposite::Field ");
  (8%nat, "[default]: 'vwmacc.vv', extractor=Extractor 'V_implied', factory=IFactory('vwmacc.vv'), stencil = 0xf4002057");
  (7%nat, "[5]: IFactorySpecialCaseComposite::Field ");
  (8%nat, "[default]: 'vfwnmacc.vf', extractor=Extractor 'V_implied', factory=IFactory('vfwnmacc.vf'), stencil = 0xf4005057");
  (7%nat, "[6]: IFactorySpecialCaseComposite::Field ");
  (8%nat, "[default]: 'vwmacc.vx', extractor=Extractor 'V_implied', factory=IFactory('vwmacc.vx'), stencil = 0xf4006057");
  (3%nat, "[7]: IFactoryDenseComposite::Field func1a");
  (4%nat, "[0]: IFactoryDenseComposite::Field func1b");
  (5%nat, "[0]: IFactoryDenseComposite::Field func1c");
  (6%nat, "[0]: IFactoryDenseComposite::Field func3b");
  (7%nat, "[0]: IFactorySpecialCaseComposite::Field ");
  (8%nat, "[default]: 'vrgatherei16.vv', extractor=Extractor 'V_op', factory=IFactory('vrgatherei16.vv'), stencil = 0x38000057");
  (7%nat, "[3]: IFactorySpecialCaseComposite::Field ");
  (8%nat, "[default]: 'vslideup.vi', extractor=Extractor 'V_uimm', factory=IFactory('vslideup.vi'), stencil = 0x38003057");
  (7%nat, "[4]: IFactorySpecialCaseComposite::Field ");
  (8%nat, "[default]: 'vslideup.vx', extractor=Extractor 'V_op', factory=IFactory('vslideup.vx'), stencil = 0x38004057");
  (7%nat, "[5]: IFactorySpecialCaseComposite::Field ");
  (8%nat, "[default]: 'vfslide1up.vf', extractor=Extractor 'V_op', factory=IFactory('vfslide1up.vf'), stencil = 0x38005057");
  (7%nat, "[6]: IFactorySpecialCaseComposite::Field ");
  (8%nat, "[default]: 'vslide1up.vx', extractor=Extractor 'V_op', factory=IFactory('vslide1up.vx'), stencil = 0x38006057");
  (6%nat, "[1]: IFactoryDenseComposite::Field func3b");
  (7%nat, "[3]: IFactorySpecialCaseComposite::Field ");
  (8%nat, "[default]: 'vslidedown.vi', extractor=Extractor 'V_uimm', factory=IFactory('vslidedown.vi'), stencil = 0x3c003057");
  (7%nat, "[4]: IFactorySpecialCaseComposite::Field ");
  (8%nat, "[default]: 'vslidedown.vx', extractor=Extractor 'V_op', factory=IFactory('vslidedown.vx'), stencil = 0x3c004057");
  (7%nat, "[5]: IFactorySpecialCaseComposite::Field ");
  (8%nat, "[default]: 'vfslide1down.vf', extractor=Extractor 'V_op', factory=IFactory('vfslide1down.vf'), stencil = 0x3c005057");
  (7%nat, "[6]: IFactorySpecialCaseComposite::Field ");
  (8%nat, "[default]: 'vslide1down.vx', extractor=Extractor 'V_op', factory=IFactory('vslide1down.vx'), stencil = 0x3c006057");
  (5%nat, "[1]: IFactoryDenseComposite::Field func1c");
  (6%nat, "[0]: IFactoryDenseComposite::Field func3b");
  (7%nat, "[2]: IFactorySpecialCaseComposite::Field ");
  (8%nat, "[default]: 'vmnor.mm', extractor=Extractor 'V', factory=IFactory('vmnor.mm'), stencil = 0x78002057");
  (7%nat, "[3]: IFactorySpecialCaseComposite::Field ");
  (8%nat, "[default]: 'vmsgtu.vi', extractor=Extractor 'V_simm', factory=IFactory('vmsgtu.vi'), stencil = 0x78003057");
  (7%nat, "[4]: IFactorySpecialCaseComposite::Field ");
  (8%nat, "[default]: 'vmsgtu.vx', extractor=Extractor 'V_op', factory=IFactory('vmsgtu.vx'), stencil = 0x78004057");
  (6%nat, "[1]: IFactoryDenseComposite::Field func3b");
  (7%nat, "[2]: IFactorySpecialCaseComposite::Field ");
  (8%nat, "[default]: 'vmxnor.mm', extractor=Extractor 'V', factory=IFactory('vmxnor.mm'), stencil = 0x7c002057");
  (7%nat, "[3]: IFactorySpecialCaseComposite::Field ");
  (8%nat, "[default]: 'vmsgt.vi', extractor=Extractor 'V_simm', factory=IFactory('vmsgt.vi'), stencil = 0x7c003057");
  (7%nat, "[4]: IFactorySpecialCaseComposite::Field ");
  (8%nat, "[default]: 'vmsgt.vx', extractor=Extractor 'V_op', factory=IFactory('vmsgt.vx'), stencil = 0x7c004057");
  (7%nat, "[5]: IFactorySpecialCaseComposite::Field ");
  (8%nat, "[default]: 'vmfge.vf', extractor=Extractor 'V_op', factory=IFactory('vmfge.vf'), stencil = 0x7c005057");
  (4%nat, "[1]: IFactoryDenseComposite::Field func1b");
  (5%nat, "[0]: IFactoryDenseComposite::Field func1c");
  (6%nat, "[0]: IFactoryDenseComposite::Field func3b");
  (7%nat, "[0]: IFactorySpecialCaseComposite::Field ");
  (8%nat, "[default]: 'vnclipu.wv', extractor=Extractor 'V', factory=IFactory('vnclipu.wv'), stencil = 0xb8000057");
  (7%nat, "[1]: IFactorySpecialCaseComposite::Field ");
  (8%nat, "[default]: 'vfmsac.vv', extractor=Extractor 'V_implied', factory=IFactory('vfmsac.vv'), stencil = 0xb8001057");
  (7%nat, "[3]: IFactorySpecialCaseComposite::Field ");
  (8%nat, "[default]: 'vnclipu.wi', extractor=Extractor 'V_uimm', factory=IFactory('vnclipu.wi'), stencil = 0xb8003057");
  (7%nat, "[4]: IFactorySpecialCaseComposite::Field ");
  (8%nat, "[default]: 'vnclipu.wx', extractor=Extractor 'V', factory=IFactory('vnclipu.wx'), stencil = 0xb8004057");
  (7%nat, "[5]: IFactorySpecialCaseComposite::Field ");
  (8%nat, "[default]: 'vfmsac.vf', extractor=Extractor 'V_implied', factory=IFactory('vfmsac.vf'), stencil = 0xb8005057");
  (6%nat, "[1]: IFactoryDenseComposite::Field func3b");
  (7%nat, "[0]: IFactorySpecialCaseComposite::Field ");
  (8%nat, "[default]: 'vnclip.wv', extractor=Extractor 'V', factory=IFactory('vnclip.wv'), stencil = 0xbc000057");
  (7%nat, "[1]: IFactorySpecialCaseComposite::Field ");
  (8%nat, "[default]: 'vfnmsac.vv', extractor=Extractor 'V_implied', factory=IFactory('vfnmsac.vv'), stencil = 0xbc001057");
  (7%nat, "[2]: IFactorySpecialCaseComposite::Field ");
  (8%nat, "[default]: 'vnmsac.vv', extractor=Extractor 'V_implied', factory=IFactory('vnmsac.vv'), stencil = 0xbc002057");
  (7%nat, "[3]: IFactorySpecialCaseComposite::Field ");
  (8%nat, "[default]: 'vnclip.wi', extractor=Extractor 'V_uimm', factory=IFactory('vnclip.wi'), stencil = 0xbc003057");
  (7%nat, "[4]: IFactorySpecialCaseComposite::Field ");
  (8%nat, "[default]: 'vnclip.wx', extractor=Extractor 'V', factory=IFactory('vnclip.wx'), stencil = 0xbc004057");
  (7%nat, "[5]: IFactorySpecialCaseComposite::Field ");
  (8%nat, "[default]: 'vfnmsac.vf', extractor=Extractor 'V_implied', factory=IFactory('vfnmsac.vf'), stencil = 0xbc005057");
  (7%nat, "[6]: IFactorySpecialCaseComposite::Field ");
  (8%nat, "[default]: 'vnmsac.vx', extractor=Extractor 'V_implied', factory=IFactory('vnmsac.vx'), stencil = 0xbc006057");
  (5%nat, "[1]: IFactoryDenseComposite::Field func1c");
  (6%nat, "[0]: IFactoryDenseComposite::Field func3b");
  (7%nat, "[1]: IFactorySpecialCaseComposite::Field ");
  (8%nat, "[default]: 'vfwmsac.vv', extractor=Extractor 'V_implied', factory=IFactory('vfwmsac.vv'), stencil = 0xf8001057");
  (7%nat, "[5]: IFactorySpecialCaseComposite::Field ");
  (8%nat, "[default]: 'vfwmsac.vf', extractor=Extractor 'V_implied', factory=IFactory('vfwmsac.vf'), stencil = 0xf8005057");
  (7%nat, "[6]: IFactorySpecialCaseComposite::Field ");
  (8%nat, "[default]: 'vwmaccus.vx', extractor=Extractor 'V_implied', factory=IFactory('vwmaccus.vx'), stencil = 0xf8006057");
  (6%nat, "[1]: IFactoryDenseComposite::Field func3b");
  (7%nat, "[1]: IFactorySpecialCaseComposite::Field ");
  (8%nat, "[default]: 'vfwnmsac.vv', extractor=Extractor 'V_implied', factory=IFactory('vfwnmsac.vv'), stencil = 0xfc001057");
  (7%nat, "[2]: IFactorySpecialCaseComposite::Field ");
  (8%nat, "[default]: 'vwmaccsu.vv', extractor=Extractor 'V_implied', factory=IFactory('vwmaccsu.vv'), stencil = 0xfc002057");
  (7%nat, "[5]: IFactorySpecialCaseComposite::Field ");
  (8%nat, "[default]: 'vfwnmsac.vf', extractor=Extractor 'V_implied', factory=IFactory('vfwnmsac.vf'), stencil = 0xfc005057");
  (7%nat, "[6]: IFactorySpecialCaseComposite::Field ");
  (8%nat, "[default]: 'vwmaccsu.vx', extractor=Extractor 'V_implied', factory=IFactory('vwmaccsu.vx'), stencil = 0xfc006057");
  (3%nat, "[default]: IFactoryDenseComposite::Field func1a");
  (4%nat, "[0]: IFactoryDenseComposite::Field func1b");
  (5%nat, "[default]: IFactoryDenseComposite::Field func1c");
  (6%nat, "[default]: IFactoryDenseComposite::Field func3b");
  (7%nat, "[7]: IFactorySpecialCaseComposite::Field ");
  (8%nat, "[default]: 'vsetvli', extractor=Extractor 'V_vsetvli', factory=IFactory('vsetvli'), stencil = 0x7057");
  (4%nat, "[1]: IFactoryDenseComposite::Field func1b");
  (5%nat, "[1]: IFactoryDenseComposite::Field func1c");
  (6%nat, "[default]: IFactoryDenseComposite::Field func3b");
  (7%nat, "[7]: IFactorySpecialCaseComposite::Field ");
  (8%nat, "[default]: 'vsetivli', extractor=Extractor 'V_vsetivli', factory=IFactory('vsetivli'), stencil = 0xc0007057");
  (2%nat, "[63]: IFactoryDenseComposite::Field func3");
  (3%nat, "[0]: IFactorySpecialCaseComposite::Field ");
  (4%nat, "[default]: 'beq', extractor=Extractor 'B', factory=IFactory('beq'), stencil = 0x63");
  (3%nat, "[1]: IFactorySpecialCaseComposite::Field ");
  (4%nat, "[default]: 'bne', extractor=Extractor 'B', factory=IFactory('bne'), stencil = 0x1063");
  (3%nat, "[4]: IFactorySpecialCaseComposite::Field ");
  (4%nat, "[default]: 'blt', extractor=Extractor 'B', factory=IFactory('blt'), stencil = 0x4063");
  (3%nat, "[5]: IFactorySpecialCaseComposite::Field ");
  (4%nat, "[default]: 'bge', extractor=Extractor 'B', factory=IFactory('bge'), stencil = 0x5063");
  (3%nat, "[6]: IFactorySpecialCaseComposite::Field ");
  (4%nat, "[default]: 'bltu', extractor=Extractor 'B', factory=IFactory('bltu'), stencil = 0x6063");
  (3%nat, "[7]: IFactorySpecialCaseComposite::Field ");
  (4%nat, "[default]: 'bgeu', extractor=Extractor 'B', factory=IFactory('bgeu'), stencil = 0x7063");
  (2%nat, "[67]: IFactoryDenseComposite::Field func3");
  (3%nat, "[0]: IFactorySpecialCaseComposite::Field ");
  (4%nat, "[default]: 'jalr', extractor=Extractor 'I', factory=IFactory('jalr'), stencil = 0x67");
  (2%nat, "[6f]: IFactorySpecialCaseComposite::Field ");
  (3%nat, "[default]: 'jal', extractor=Extractor 'J', factory=IFactory('jal'), stencil = 0x6f");
  (2%nat, "[73]: IFactoryDenseComposite::Field func3");
  (3%nat, "[0]: IFactoryDenseComposite::Field func7");
  (4%nat, "[0]: IFactorySpecialCaseComposite::Field ");
  (5%nat, "[0]: 'ecall', mask=0x1ff8f80, field_set=0x16, value=0x0, nfixed=3, extractor=Extractor 'R', factory=IFactory('ecall'), stencil = 0x73");
  (5%nat, "[1]: 'ebreak', mask=0x1ff8f80, field_set=0x16, value=0x100000, nfixed=3, extractor=Extractor 'R', factory=IFactory('ebreak'), stencil = 0x100073");
  (5%nat, "[2]: 'uret', mask=0x1ff8f80, field_set=0x16, value=0x200000, nfixed=3, extractor=Extractor 'R', factory=IFactory('uret'), stencil = 0x200073");
  (5%nat, "[3]: 'wrs.nto', mask=0x1ff8f80, field_set=0x16, value=0xd00000, nfixed=3, extractor=Extractor 'R', factory=IFactory('wrs.nto'), stencil = 0xd00073");
  (5%nat, "[4]: 'wrs.sto', mask=0x1ff8f80, field_set=0x16, value=0x1d00000, nfixed=3, extractor=Extractor 'R', factory=IFactory('wrs.sto'), stencil = 0x1d00073");
  (4%nat, "[8]: IFactorySpecialCaseComposite::Field ");
  (5%nat, "[0]: 'sret', mask=0x1ff8f80, field_set=0x16, value=0x200000, nfixed=3, extractor=Extractor 'R', factory=IFactory('sret'), stencil = 0x10200073");
  (5%nat, "[1]: 'wfi', mask=0x1ff8f80, field_set=0x16, value=0x500000, nfixed=3, extractor=Extractor 'R', factory=IFactory('wfi'), stencil = 0x10500073");
  (4%nat, "[9]: IFactorySpecialCaseComposite::Field ");
  (5%nat, "[0]: 'sfence.vma', mask=0xf80, field_set=0x10, value=0x0, nfixed=1, extractor=Extractor 'R', factory=IFactory('sfence.vma'), stencil = 0x12000073");
  (4%nat, "[11]: IFactorySpecialCaseComposite::Field ");
  (5%nat, "[0]: 'hfence.vvma', mask=0xf80, field_set=0x10, value=0x0, nfixed=1, extractor=Extractor 'R', factory=IFactory('hfence.vvma'), stencil = 0x22000073");
  (4%nat, "[18]: IFactorySpecialCaseComposite::Field ");
  (5%nat, "[0]: 'mret', mask=0x1ff8f80, field_set=0x16, value=0x200000, nfixed=3, extractor=Extractor 'R', factory=IFactory('mret'), stencil = 0x30200073");
  (4%nat, "[31]: IFactorySpecialCaseComposite::Field ");
  (5%nat, "[0]: 'hfence.gvma', mask=0xf80, field_set=0x10, value=0x0, nfixed=1, extractor=Extractor 'R', factory=IFactory('hfence.gvma'), stencil = 0x62000073");
  (4%nat, "[3d]: IFactorySpecialCaseComposite::Field ");
  (5%nat, "[0]: 'dret', mask=0x1ff8f80, field_set=0x16, value=0x1200000, nfixed=3, extractor=Extractor 'R', factory=IFactory('dret'), stencil = 0x7b200073");
  (4%nat, "[7e]: IFactorySpecialCaseComposite::Field ");
  (5%nat, "[0]: 'cflush.d.l1', mask=0x1f00f80, field_set=0x12, value=0x0, nfixed=2, extractor=Extractor 'R', factory=IFactory('cflush.d.l1'), stencil = 0xfc000073");
  (5%nat, "[1]: 'cdiscard.d.l1', mask=0x1f00f80, field_set=0x12, value=0x200000, nfixed=2, extractor=Extractor 'R', factory=IFactory('cdiscard.d.l1'), stencil = 0xfc200073");
  (5%nat, "[2]: 'cflush.i.l1', mask=0x1f00f80, field_set=0x12, value=0x100000, nfixed=2, extractor=Extractor 'R', factory=IFactory('cflush.i.l1'), stencil = 0xfc100073");
  (3%nat, "[1]: IFactoryDenseComposite::Field func7");
  (4%nat, "[default]: IFactorySpecialCaseComposite::Field ");
  (5%nat, "[default]: 'csrrw', extractor=Extractor 'CSR', factory=IFactory('csr'), stencil = 0x1073");
  (3%nat, "[2]: IFactoryDenseComposite::Field func7");
  (4%nat, "[default]: IFactorySpecialCaseComposite::Field ");
  (5%nat, "[default]: 'csrrs', extractor=Extractor 'CSR', factory=IFactory('csr'), stencil = 0x1073");
  (3%nat, "[3]: IFactoryDenseComposite::Field func7");
  (4%nat, "[default]: IFactorySpecialCaseComposite::Field ");
  (5%nat, "[default]: 'csrrc', extractor=Extractor 'CSR', factory=IFactory('csr'), stencil = 0x1073");
  (3%nat, "[4]: IFactoryDenseComposite::Field func7");
  (4%nat, "[30]: IFactorySpecialCaseComposite::Field ");
  (5%nat, "[0]: 'hlv.b', mask=0x1f00000, field_set=0x2, value=0x0, nfixed=1, extractor=Extractor 'R', factory=IFactory('hlv.b'), stencil = 0x60004073");
  (5%nat, "[1]: 'hlv.bu', mask=0x1f00000, field_set=0x2, value=0x100000, nfixed=1, extractor=Extractor 'R', factory=IFactory('hlv.bu'), stencil = 0x60104073");
  (4%nat, "[31]: IFactorySpecialCaseComposite::Field ");
  (5%nat, "[0]: 'hsv.b', mask=0xf80, field_set=0x10, value=0x0, nfixed=1, extractor=Extractor 'R', factory=IFactory('hsv.b'), stencil = 0x62004073");
  (4%nat, "[32]: IFactorySpecialCaseComposite::Field ");
  (5%nat, "[0]: 'hlv.h', mask=0x1f00000, field_set=0x2, value=0x0, nfixed=1, extractor=Extractor 'R', factory=IFactory('hlv.h'), stencil = 0x64004073");
  (5%nat, "[1]: 'hlv.hu', mask=0x1f00000, field_set=0x2, value=0x100000, nfixed=1, extractor=Extractor 'R', factory=IFactory('hlv.hu'), stencil = 0x64104073");
  (5%nat, "[2]: 'hlvx.hu', mask=0x1f00000, field_set=0x2, value=0x300000, nfixed=1, extractor=Extractor 'R', factory=IFactory('hlvx.hu'), stencil = 0x64304073");
  (4%nat, "[33]: IFactorySpecialCaseComposite::Field ");
  (5%nat, "[0]: 'hsv.h', mask=0xf80, field_set=0x10, value=0x0, nfixed=1, extractor=Extractor 'R', factory=IFactory('hsv.h'), stencil = 0x66004073");
  (4%nat, "[34]: IFactorySpecialCaseComposite::Field ");
  (5%nat, "[0]: 'hlv.w', mask=0x1f00000, field_set=0x2, value=0x0, nfixed=1, extractor=Extractor 'R', factory=IFactory('hlv.w'), stencil = 0x68004073");
  (5%nat, "[1]: 'hlvx.wu', mask=0x1f00000, field_set=0x2, value=0x300000, nfixed=1, extractor=Extractor 'R', factory=IFactory('hlvx.wu'), stencil = 0x68304073");
  (5%nat, "[2]: 'hlv.wu', mask=0x1f00000, field_set=0x2, value=0x100000, nfixed=1, extractor=Extractor 'R', factory=IFactory('hlv.wu'), stencil = 0x68104073");
  (4%nat, "[35]: IFactorySpecialCaseComposite::Field ");
  (5%nat, "[0]: 'hsv.w', mask=0xf80, field_set=0x10, value=0x0, nfixed=1, extractor=Extractor 'R', factory=IFactory('hsv.w'), stencil = 0x6a004073");
  (4%nat, "[36]: IFactorySpecialCaseComposite::Field ");
  (5%nat, "[0]: 'hlv.d', mask=0x1f00000, field_set=0x2, value=0x0, nfixed=1, extractor=Extractor 'R', factory=IFactory('hlv.d'), stencil = 0x6c004073");
  (4%nat, "[37]: IFactorySpecialCaseComposite::Field ");
  (5%nat, "[0]: 'hsv.d', mask=0xf80, field_set=0x10, value=0x0, nfixed=1, extractor=Extractor 'R', factory=IFactory('hsv.d'), stencil = 0x6e004073");
  (3%nat, "[5]: IFactoryDenseComposite::Field func7");
  (4%nat, "[default]: IFactorySpecialCaseComposite::Field ");
  (5%nat, "[default]: 'csrrwi', extractor=Extractor 'CSRI', factory=IFactory('csr'), stencil = 0x1073");
  (3%nat, "[6]: IFactoryDenseComposite::Field func7");
  (4%nat, "[default]: IFactorySpecialCaseComposite::Field ");
  (5%nat, "[default]: 'csrrsi', extractor=Extractor 'CSRI', factory=IFactory('csr'), stencil = 0x1073");
  (3%nat, "[7]: IFactoryDenseComposite::Field func7");
  (4%nat, "[default]: IFactorySpecialCaseComposite::Field ");
  (5%nat, "[default]: 'csrrci', extractor=Extractor 'CSRI', factory=IFactory('csr'), stencil = 0x1073");
  (2%nat, "[77]: IFactoryDenseComposite::Field func3a");
  (3%nat, "[0]: IFactoryDenseComposite::Field func1a");
  (4%nat, "[1]: IFactoryDenseComposite::Field func1b");
  (5%nat, "[0]: IFactoryDenseComposite::Field func1c");
  (6%nat, "[0]: IFactoryDenseComposite::Field func3b");
  (7%nat, "[2]: IFactorySpecialCaseComposite::Field ");
  (8%nat, "[0]: 'vsm3me.vv', mask=0x2000000, field_set=0x10, value=0x2000000, nfixed=1, extractor=Extractor 'V_op', factory=IFactory('vsm3me.vv'), stencil = 0x82002077");
  (6%nat, "[1]: IFactoryDenseComposite::Field func3b");
  (7%nat, "[2]: IFactorySpecialCaseComposite::Field ");
  (8%nat, "[0]: 'vsm4k.vi', mask=0x2000000, field_set=0x10, value=0x2000000, nfixed=1, extractor=Extractor 'V_uimm', factory=IFactory('vsm4k.vi'), stencil = 0x86002077");
  (3%nat, "[1]: IFactoryDenseComposite::Field func1a");
  (4%nat, "[1]: IFactoryDenseComposite::Field func1b");
  (5%nat, "[0]: IFactoryDenseComposite::Field func1c");
  (6%nat, "[0]: IFactoryDenseComposite::Field func3b");
  (7%nat, "[2]: IFactorySpecialCaseComposite::Field ");
  (8%nat, "[0]: 'vaeskf1.vi', mask=0x2000000, field_set=0x10, value=0x2000000, nfixed=1, extractor=Extractor 'V_uimm', factory=IFactory('vaeskf1.vi'), stencil = 0x8a002077");
  (3%nat, "[4]: IFactoryDenseComposite::Field func1a");
  (4%nat, "[1]: IFactoryDenseComposite::Field func1b");
  (5%nat, "[0]: IFactoryDenseComposite::Field func1c");
  (6%nat, "[0]: IFactoryDenseComposite::Field func3b");
  (7%nat, "[2]: IFactorySpecialCaseComposite::Field ");
  (8%nat, "[0]: 'vaesdf.vv', mask=0x20f8000, field_set=0x50, value=0x2008000, nfixed=2, extractor=Extractor 'V_op_implied', factory=IFactory('vaesdf.vv'), stencil = 0xa200a077");
  (8%nat, "[1]: 'vaesdm.vv', mask=0x20f8000, field_set=0x50, value=0x2000000, nfixed=2, extractor=Extractor 'V_op_implied', factory=IFactory('vaesdm.vv'), stencil = 0xa2002077");
  (8%nat, "[2]: 'vaesef.vv', mask=0x20f8000, field_set=0x50, value=0x2018000, nfixed=2, extractor=Extractor 'V_op_implied', factory=IFactory('vaesef.vv'), stencil = 0xa201a077");
  (8%nat, "[3]: 'vaesem.vv', mask=0x20f8000, field_set=0x50, value=0x2010000, nfixed=2, extractor=Extractor 'V_op_implied', factory=IFactory('vaesem.vv'), stencil = 0xa2012077");
  (8%nat, "[4]: 'vgmul.vv', mask=0x20f8000, field_set=0x50, value=0x2088000, nfixed=2, extractor=Extractor 'V_op_implied', factory=IFactory('vgmul.vv'), stencil = 0xa208a077");
  (8%nat, "[5]: 'vsm4r.vv', mask=0x20f8000, field_set=0x50, value=0x2080000, nfixed=2, extractor=Extractor 'V_op_implied', factory=IFactory('vsm4r.vv'), stencil = 0xa2082077");
  (6%nat, "[1]: IFactoryDenseComposite::Field func3b");
  (7%nat, "[2]: IFactorySpecialCaseComposite::Field ");
  (8%nat, "[0]: 'vaesdf.vs', mask=0x20f8000, field_set=0x50, value=0x2008000, nfixed=2, extractor=Extractor 'V_op_implied', factory=IFactory('vaesdf.vs'), stencil = 0xa600a077");
  (8%nat, "[1]: 'vaesdm.vs', mask=0x20f8000, field_set=0x50, value=0x2000000, nfixed=2, extractor=Extractor 'V_op_implied', factory=IFactory('vaesdm.vs'), stencil = 0xa6002077");
  (8%nat, "[2]: 'vaesef.vs', mask=0x20f8000, field_set=0x50, value=0x2018000, nfixed=2, extractor=Extractor 'V_op_implied', factory=IFactory('vaesef.vs'), stencil = 0xa601a077");
  (8%nat, "[3]: 'vaesem.vs', mask=0x20f8000, field_set=0x50, value=0x2010000, nfixed=2, extractor=Extractor 'V_op_implied', factory=IFactory('vaesem.vs'), stencil = 0xa6012077");
  (8%nat, "[4]: 'vaesz.vs', mask=0x20f8000, field_set=0x50, value=0x2038000, nfixed=2, extractor=Extractor 'V_op_implied', factory=IFactory('vaesz.vs'), stencil = 0xa603a077");
  (8%nat, "[5]: 'vsm4r.vs', mask=0x20f8000, field_set=0x50, value=0x2080000, nfixed=2, extractor=Extractor 'V_op_implied', factory=IFactory('vsm4r.vs'), stencil = 0xa6082077");
  (3%nat, "[5]: IFactoryDenseComposite::Field func1a");
  (4%nat, "[1]: IFactoryDenseComposite::Field func1b");
  (5%nat, "[0]: IFactoryDenseComposite::Field func1c");
  (6%nat, "[0]: IFactoryDenseComposite::Field func3b");
  (7%nat, "[2]: IFactorySpecialCaseComposite::Field ");
  (8%nat, "[0]: 'vaeskf2.vi', mask=0x2000000, field_set=0x10, value=0x2000000, nfixed=1, extractor=Extractor 'V_uimm_implied', factory=IFactory('vaeskf2.vi'), stencil = 0xaa002077");
  (6%nat, "[1]: IFactoryDenseComposite::Field func3b");
  (7%nat, "[2]: IFactorySpecialCaseComposite::Field ");
  (8%nat, "[0]: 'vsm3c.vi', mask=0x2000000, field_set=0x10, value=0x2000000, nfixed=1, extractor=Extractor 'V_uimm_implied', factory=IFactory('vsm3c.vi'), stencil = 0xae002077");
  (3%nat, "[6]: IFactoryDenseComposite::Field func1a");
  (4%nat, "[1]: IFactoryDenseComposite::Field func1b");
  (5%nat, "[0]: IFactoryDenseComposite::Field func1c");
  (6%nat, "[0]: IFactoryDenseComposite::Field func3b");
  (7%nat, "[2]: IFactorySpecialCaseComposite::Field ");
  (8%nat, "[0]: 'vghsh.vv', mask=0x2000000, field_set=0x10, value=0x2000000, nfixed=1, extractor=Extractor 'V_op_implied', factory=IFactory('vghsh.vv'), stencil = 0xb2002077");
  (6%nat, "[1]: IFactoryDenseComposite::Field func3b");
  (7%nat, "[2]: IFactorySpecialCaseComposite::Field ");
  (8%nat, "[0]: 'vsha2ms.vv', mask=0x2000000, field_set=0x10, value=0x2000000, nfixed=1, extractor=Extractor 'V_op_implied', factory=IFactory('vsha2ms.vv'), stencil = 0xb6002077");
  (3%nat, "[7]: IFactoryDenseComposite::Field func1a");
  (4%nat, "[1]: IFactoryDenseComposite::Field func1b");
  (5%nat, "[0]: IFactoryDenseComposite::Field func1c");
  (6%nat, "[0]: IFactoryDenseComposite::Field func3b");
  (7%nat, "[2]: IFactorySpecialCaseComposite::Field ");
  (8%nat, "[0]: 'vsha2ch.vv', mask=0x2000000, field_set=0x10, value=0x2000000, nfixed=1, extractor=Extractor 'V_op_implied', factory=IFactory('vsha2ch.vv'), stencil = 0xba002077");
  (6%nat, "[1]: IFactoryDenseComposite::Field func3b");
  (7%nat, "[2]: IFactorySpecialCaseComposite::Field ");
  (8%nat, "[0]: 'vsha2cl.vv', mask=0x2000000, field_set=0x10, value=0x2000000, nfixed=1, extractor=Extractor 'V_op_implied', factory=IFactory('vsha2cl.vv'), stencil = 0xbe002077")].

(** The files of table NEW, in order. *)
Definition files_NEW : list (list raw) :=
  [isa_rv64i; isa_rv64m; isa_rv64a; isa_rv64f; isa_rv64d; isa_rv64c; isa_rv64cf; isa_rv64cd; isa_rv64zicsr; isa_rv64zifencei; isa_rv64v; isa_rv64vf; isa_rv64zfh; isa_rv64zfh_d; isa_rv64zba; isa_rv64zbb; isa_rv64zbc; isa_rv64zbs; isa_rv64zicbo; isa_rv64zcb; isa_rv64zihintntl; isa_rv64zihintpause; isa_rv64zicond].

(** The disassembly expected of opcodes with table NEW (with the line of main.cpp). *)
Definition dasm_NEW : list (N * N * string) := [
  (267, 0x9c61, "c.zext.b	x8,x8");
  (274, 0x9c69, "c.zext.h	x8,x8");
  (283, 0x9c71, "c.zext.w	x8,x8");
  (292, 0x60401013, "sext.b	x0,x0")].

(** What main.cpp asserts or golden.out shows of opcodes with table NEW. *)
Definition obs_NEW : list (N * N * gobs) := [
  (268, 0x9c61, GHasImm true);
  (269, 0x9c61, GImm 0xff);
  (275, 0x9c69, GHasImm true);
  (276, 0x9c69, GImm 0x0);
  (277, 0x9c69, GField Src RS2 true);
  (278, 0x9c69, GValue Src RS2 0);
  (284, 0x9c71, GHasImm true);
  (285, 0x9c71, GImm 0x0);
  (286, 0x9c71, GField Src RS2 true);
  (287, 0x9c71, GValue Src RS2 0);
  (293, 0x60401013, GMnemonic "sext.b")].

(** The text expected for the tree of table NEW: depth and text of each line. *)
Definition tree_NEW : list (nat * string) := [
  (0%nat, "IFactoryMatchListComposite::Field family");
  (1%nat, "[0]: IFactoryDenseComposite::Field opcode");
  (2%nat, "[0]: IFactoryDenseComposite::Field func3");
  (3%nat, "[0]: IFactoryDenseComposite::Field func2A");
  (4%nat, "[default]: IFactorySpecialCaseComposite::Field ");
  (5%nat, "[default]: 'c.addi4spn', extractor=Extractor 'CIW_sp', factory=IFactory('addi'), stencil = 0x13");
  (3%nat, "[1]: IFactoryDenseComposite::Field func2A");
  (4%nat, "[default]: IFactorySpecialCaseComposite::Field ");
  (5%nat, "[default]: 'c.fld', extractor=Extractor 'C0_load_double', factory=IFactory('fld'), stencil = 0x3007");
  (3%nat, "[2]: IFactoryDenseComposite::Field func2A");
  (4%nat, "[default]: IFactorySpecialCaseComposite::Field ");
  (5%nat, "[default]: 'c.lw', extractor=Extractor 'C0_load_word', factory=IFactory('lw'), stencil = 0x2003");
  (3%nat, "[3]: IFactoryDenseComposite::Field func2A");
  (4%nat, "[default]: IFactorySpecialCaseComposite::Field ");
  (5%nat, "[default]: 'c.ld', extractor=Extractor 'C0_load_double', factory=IFactory('ld'), stencil = 0x3003");
  (3%nat, "[4]: IFactoryDenseComposite::Field func2A");
  (4%nat, "[0]: IFactorySpecialCaseComposite::Field ");
  (5%nat, "[0]: 'c.lhu', mask=0x1c00, field_set=0x2, value=0x400, nfixed=1, extractor=Extractor 'C0_load_half', factory=IFactory('lhu'), stencil = 0x5003");
  (5%nat, "[1]: 'c.sh', mask=0x1c00, field_set=0x2, value=0xc00, nfixed=1, extractor=Extractor 'C0_store_half', factory=IFactory('sh'), stencil = 0x1023");
  (4%nat, "[1]: IFactorySpecialCaseComposite::Field ");
  (5%nat, "[0]: 'c.lh', mask=0x1c00, field_set=0x2, value=0x400, nfixed=1, extractor=Extractor 'C0_load_half', factory=IFactory('lh'), stencil = 0x1003");
  (4%nat, "[default]: IFactorySpecialCaseComposite::Field ");
  (5%nat, "[0]: 'c.lbu', mask=0x1c00, field_set=0x2, value=0x0, nfixed=1, extractor=Extractor 'C0_load_byte', factory=IFactory('lbu'), stencil = 0x4003");
  (5%nat, "[1]: 'c.sb', mask=0x1c00, field_set=0x2, value=0x800, nfixed=1, extractor=Extractor 'C0_store_byte', factory=IFactory('sb'), stencil = 0x23");
  (3%nat, "[5]: IFactoryDenseComposite::Field func2A");
  (4%nat, "[default]: IFactorySpecialCaseComposite::Field ");
  (5%nat, "[default]: 'c.fsd', extractor=Extractor 'C0_store_double', factory=IFactory('fsd'), stencil = 0x3027");
  (3%nat, "[6]: IFactoryDenseComposite::Field func2A");
  (4%nat, "[default]: IFactorySpecialCaseComposite::Field ");
  (5%nat, "[default]: 'c.sw', extractor=Extractor 'C0_store_word', factory=IFactory('sw'), stencil = 0x2023");
  (3%nat, "[7]: IFactoryDenseComposite::Field func2A");
  (4%nat, "[default]: IFactorySpecialCaseComposite::Field ");
  (5%nat, "[default]: 'c.sd', extractor=Extractor 'C0_store_double', factory=IFactory('sd'), stencil = 0x3023");
  (2%nat, "[1]: IFactoryDenseComposite::Field func3");
  (3%nat, "[0]: IFactoryDenseComposite::Field func2");
  (4%nat, "[0]: IFactoryDenseComposite::Field func2b");
  (5%nat, "[default]: IFactoryDenseComposite::Field func1");
  (6%nat, "[default]: IFactorySpecialCaseComposite::Field ");
  (7%nat, "[0]: 'c.nop', mask=0x380, field_set=0x8, value=0x0, nfixed=1, extractor=Extractor 'CI_addi', factory=CUSTOM IFactory('nop'): type = I");
  (4%nat, "[default]: IFactoryDenseComposite::Field func2b");
  (5%nat, "[default]: IFactoryDenseComposite::Field func1");
  (6%nat, "[default]: IFactorySpecialCaseComposite::Field ");
  (7%nat, "[default]: 'c.addi', extractor=Extractor 'CI_addi', factory=IFactory('addi'), stencil = 0x13");
  (3%nat, "[1]: IFactoryDenseComposite::Field func2");
  (4%nat, "[default]: IFactoryDenseComposite::Field func2b");
  (5%nat, "[default]: IFactoryDenseComposite::Field func1");
  (6%nat, "[default]: IFactorySpecialCaseComposite::Field ");
  (7%nat, "[default]: 'c.addiw', extractor=Extractor 'CI_addiw', factory=IFactory('addiw'), stencil = 0x1b");
  (3%nat, "[2]: IFactoryDenseComposite::Field func2");
  (4%nat, "[default]: IFactoryDenseComposite::Field func2b");
  (5%nat, "[default]: IFactoryDenseComposite::Field func1");
  (6%nat, "[default]: IFactorySpecialCaseComposite::Field ");
  (7%nat, "[default]: 'c.li', extractor=Extractor 'CI_rD_only', factory=IFactory('li'), stencil = 0x13");
  (3%nat, "[3]: IFactoryDenseComposite::Field func2");
  (4%nat, "[0]: IFactoryDenseComposite::Field func2b");
  (5%nat, "[default]: IFactoryDenseComposite::Field func1");
  (6%nat, "[default]: IFactorySpecialCaseComposite::Field ");
  (7%nat, "[0]: 'c.addi16sp', mask=0x380, field_set=0x8, value=0x100, nfixed=1, extractor=Extractor 'CI_sp', factory=IFactory('addi'), stencil = 0x13");
  (4%nat, "[default]: IFactoryDenseComposite::Field func2b");
  (5%nat, "[default]: IFactoryDenseComposite::Field func1");
  (6%nat, "[default]: IFactorySpecialCaseComposite::Field ");
  (7%nat, "[default]: 'c.lui', extractor=Extractor 'CI_rD_shifted', factory=IFactory('lui'), stencil = 0x37");
  (3%nat, "[4]: IFactoryDenseComposite::Field func2");
  (4%nat, "[0]: IFactoryDenseComposite::Field func2b");
  (5%nat, "[default]: IFactoryDenseComposite::Field func1");
  (6%nat, "[default]: IFactorySpecialCaseComposite::Field ");
  (7%nat, "[default]: 'c.srli', extractor=Extractor 'CIX', factory=IFactory('srli'), stencil = 0x5013");
  (4%nat, "[1]: IFactoryDenseComposite::Field func2b");
  (5%nat, "[default]: IFactoryDenseComposite::Field func1");
  (6%nat, "[default]: IFactorySpecialCaseComposite::Field ");
  (7%nat, "[default]: 'c.srai', extractor=Extractor 'CIX', factory=IFactory('srai'), stencil = 0x40005013");
  (4%nat, "[2]: IFactoryDenseComposite::Field func2b");
  (5%nat, "[default]: IFactoryDenseComposite::Field func1");
  (6%nat, "[default]: IFactorySpecialCaseComposite::Field ");
  (7%nat, "[default]: 'c.andi', extractor=Extractor 'CIX_andi', factory=IFactory('andi'), stencil = 0x7013");
  (4%nat, "[3]: IFactoryDenseComposite::Field func2b");
  (5%nat, "[0]: IFactoryDenseComposite::Field func1");
  (6%nat, "[0]: IFactorySpecialCaseComposite::Field ");
  (7%nat, "[default]: 'c.sub', extractor=Extractor 'CA', factory=IFactory('sub'), stencil = 0x40000033");
  (6%nat, "[1]: IFactorySpecialCaseComposite::Field ");
  (7%nat, "[default]: 'c.subw', extractor=Extractor 'CA', factory=IFactory('subw'), stencil = 0x4000003b");
  (5%nat, "[1]: IFactoryDenseComposite::Field func1");
  (6%nat, "[0]: IFactorySpecialCaseComposite::Field ");
  (7%nat, "[default]: 'c.xor', extractor=Extractor 'CA', factory=IFactory('xor'), stencil = 0x4033");
  (6%nat, "[1]: IFactorySpecialCaseComposite::Field ");
  (7%nat, "[default]: 'c.addw', extractor=Extractor 'CA', factory=IFactory('addw'), stencil = 0x3b");
  (5%nat, "[2]: IFactoryDenseComposite::Field func1");
  (6%nat, "[0]: IFactorySpecialCaseComposite::Field ");
  (7%nat, "[default]: 'c.or', extractor=Extractor 'CA', factory=IFactory('or'), stencil = 0x6033");
  (6%nat, "[1]: IFactorySpecialCaseComposite::Field ");
  (7%nat, "[default]: 'c.mul', extractor=Extractor 'CA', factory=IFactory('mul'), stencil = 0x2000033");
  (5%nat, "[3]: IFactoryDenseComposite::Field func1");
  (6%nat, "[0]: IFactorySpecialCaseComposite::Field ");
  (7%nat, "[default]: 'c.and', extractor=Extractor 'CA', factory=IFactory('and'), stencil = 0x7033");
  (6%nat, "[1]: IFactorySpecialCaseComposite::Field ");
  (7%nat, "[0]: 'c.zext.b', mask=0x1c, field_set=0x40, value=0x0, nfixed=1, extractor=Extractor 'C1_rsd_I0xFF', factory=IFactory('andi'), stencil = 0x7013");
  (7%nat, "[1]: 'c.sext.b', mask=0x1c, field_set=0x40, value=0x4, nfixed=1, extractor=Extractor 'C1_rsd', factory=IFactory('sext.b'), stencil = 0x60401013");
  (7%nat, "[2]: 'c.zext.h', mask=0x1c, field_set=0x40, value=0x8, nfixed=1, extractor=Extractor 'C1_rsd_zext_I0', factory=IFactory('packw'), stencil = 0x800403b");
  (7%nat, "[3]: 'c.sext.h', mask=0x1c, field_set=0x40, value=0xc, nfixed=1, extractor=Extractor 'C1_rsd', factory=IFactory('sext.h'), stencil = 0x60501013");
  (7%nat, "[4]: 'c.zext.w', mask=0x1c, field_set=0x40, value=0x10, nfixed=1, extractor=Extractor 'C1_rsd_zext_I0', factory=IFactory('add.uw'), stencil = 0x800003b");
  (7%nat, "[5]: 'c.not', mask=0x1c, field_set=0x40, value=0x14, nfixed=1, extractor=Extractor 'C1_rsd_Ineg1', factory=IFactory('xori'), stencil = 0x4013");
  (3%nat, "[5]: IFactoryDenseComposite::Field func2");
  (4%nat, "[default]: IFactoryDenseComposite::Field func2b");
  (5%nat, "[default]: IFactoryDenseComposite::Field func1");
  (6%nat, "[default]: IFactorySpecialCaseComposite::Field ");
  (7%nat, "[default]: 'c.j', extractor=Extractor 'CJ', factory=IFactory('jal'), stencil = 0x6f");
  (3%nat, "[6]: IFactoryDenseComposite::Field func2");
  (4%nat, "[default]: IFactoryDenseComposite::Field func2b");
  (5%nat, "[default]: IFactoryDenseComposite::Field func1");
  (6%nat, "[default]: IFactorySpecialCaseComposite::Field ");
  (7%nat, "[default]: 'c.beqz', extractor=Extractor 'CB', factory=IFactory('beq'), stencil = 0x63");
  (3%nat, "[7]: IFactoryDenseComposite::Field func2");
  (4%nat, "[default]: IFactoryDenseComposite::Field func2b");
  (5%nat, "[default]: IFactoryDenseComposite::Field func1");
  (6%nat, "[default]: IFactorySpecialCaseComposite::Field ");
  (7%nat, "[default]: 'c.bnez', extractor=Extractor 'CB', factory=IFactory('bne'), stencil = 0x1063");
  (2%nat, "[2]: IFactoryDenseComposite::Field func3");
  (3%nat, "[0]: IFactoryDenseComposite::Field func1");
  (4%nat, "[default]: IFactorySpecialCaseComposite::Field ");
  (5%nat, "[default]: 'c.slli', extractor=Extractor 'C2_slli', factory=IFactory('slli'), stencil = 0x1013");
  (3%nat, "[1]: IFactoryDenseComposite::Field func1");
  (4%nat, "[default]: IFactorySpecialCaseComposite::Field ");
  (5%nat, "[default]: 'c.fldsp', extractor=Extractor 'C2_sp_load_float_double', factory=IFactory('fld'), stencil = 0x3007");
  (3%nat, "[2]: IFactoryDenseComposite::Field func1");
  (4%nat, "[default]: IFactorySpecialCaseComposite::Field ");
  (5%nat, "[default]: 'c.lwsp', extractor=Extractor 'C2_sp_load_word', factory=IFactory('lw'), stencil = 0x2003");
  (3%nat, "[3]: IFactoryDenseComposite::Field func1");
  (4%nat, "[default]: IFactorySpecialCaseComposite::Field ");
  (5%nat, "[default]: 'c.ldsp', extractor=Extractor 'C2_sp_load_double', factory=IFactory('ld'), stencil = 0x3003");
  (3%nat, "[4]: IFactoryDenseComposite::Field func1");
  (4%nat, "[0]: IFactorySpecialCaseComposite::Field ");
  (5%nat, "[0]: 'c.jr', mask=0x7c, field_set=0x40, value=0x0, nfixed=1, extractor=Extractor 'CJR', factory=IFactory('jalr'), stencil = 0x67");
  (5%nat, "[default]: 'c.mv', extractor=Extractor 'C2_mv', factory=IFactory('add'), stencil = 0x33");
  (4%nat, "[1]: IFactorySpecialCaseComposite::Field ");
  (5%nat, "[0]: 'c.ebreak', mask=0xffc, field_set=0x50, value=0x0, nfixed=2, extractor=Extractor 'C2', factory=IFactory('ebreak'), stencil = 0x100073");
  (5%nat, "[1]: 'c.ntl.p1', mask=0xffc, field_set=0x50, value=0x8, nfixed=2, extractor=Extractor 'NTL_hint', factory=IFactory('ntl.p1'), stencil = 0x200033");
  (5%nat, "[2]: 'c.ntl.pall', mask=0xffc, field_set=0x50, value=0xc, nfixed=2, extractor=Extractor 'NTL_hint', factory=IFactory('ntl.pall'), stencil = 0x300033");
  (5%nat, "[3]: 'c.ntl.s1', mask=0xffc, field_set=0x50, value=0x10, nfixed=2, extractor=Extractor 'NTL_hint', factory=IFactory('ntl.s1'), stencil = 0x400033");
  (5%nat, "[4]: 'c.ntl.all', mask=0xffc, field_set=0x50, value=0x14, nfixed=2, extractor=Extractor 'NTL_hint', factory=IFactory('ntl.all'), stencil = 0x500033");
  (5%nat, "[5]: 'c.jalr', mask=0x7c, field_set=0x40, value=0x0, nfixed=1, extractor=Extractor 'CJALR', factory=IFactory('jalr'), stencil = 0x67");
  (5%nat, "[default]: 'c.add', extractor=Extractor 'C2_add', factory=IFactory('add'), stencil = 0x33");
  (3%nat, "[5]: IFactoryDenseComposite::Field func1");
  (4%nat, "[default]: IFactorySpecialCaseComposite::Field ");
  (5%nat, "[default]: 'c.fsdsp', extractor=Extractor 'C2_sp_store_double', factory=IFactory('fsd'), stencil = 0x3027");
  (3%nat, "[6]: IFactoryDenseComposite::Field func1");
  (4%nat, "[default]: IFactorySpecialCaseComposite::Field ");
  (5%nat, "[default]: 'c.swsp', extractor=Extractor 'C2_sp_store_word', factory=IFactory('sw'), stencil = 0x2023");
  (3%nat, "[7]: IFactoryDenseComposite::Field func1");
  (4%nat, "[default]: IFactorySpecialCaseComposite::Field ");
  (5%nat, "[default]: 'c.sdsp', extractor=Extractor 'C2_sp_store_double', factory=IFactory('sd'), stencil = 0x3023");
  (1%nat, "[1]: IFactoryDenseComposite::Field opcode");
  (2%nat, "[3]: IFactoryDenseComposite::Field func3");
  (3%nat, "[0]: IFactorySpecialCaseComposite::Field ");
  (4%nat, "[default]: 'lb', extractor=Extractor 'I_load', factory=IFactory('lb'), stencil = 0x3");
  (3%nat, "[1]: IFactorySpecialCaseComposite::Field ");
  (4%nat, "[default]: 'lh', extractor=Extractor 'I_load', factory=IFactory('lh'), stencil = 0x1003");
  (3%nat, "[2]: IFactorySpecialCaseComposite::Field ");
  (4%nat, "[default]: 'lw', extractor=Extractor 'I_load', factory=IFactory('lw'), stencil = 0x2003");
  (3%nat, "[3]: IFactorySpecialCaseComposite::Field ");
  (4%nat, "[default]: 'ld', extractor=Extractor 'I_load', factory=IFactory('ld'), stencil = 0x3003");
  (3%nat, "[4]: IFactorySpecialCaseComposite::Field ");
  (4%nat, "[default]: 'lbu', extractor=Extractor 'I_load', factory=IFactory('lbu'), stencil = 0x4003");
  (3%nat, "[5]: IFactorySpecialCaseComposite::Field ");
  (4%nat, "[default]: 'lhu', extractor=Extractor 'I_load', factory=IFactory('lhu'), stencil = 0x5003");
  (3%nat, "[6]: IFactorySpecialCaseComposite::Field ");
  (4%nat, "[default]: 'lwu', extractor=Extractor 'I_load', factory=IFactory('lwu'), stencil = 0x6003");
  (2%nat, "[7]: IFactoryDenseComposite::Field width");
  (3%nat, "[0]: IFactoryDenseComposite::Field mewop");
  (4%nat, "[0]: IFactorySpecialCaseComposite::Field ");
  (5%nat, "[0]: 'vlm.v', mask=0xe3f00000, field_set=0xd, value=0x2b00000, nfixed=3, extractor=Extractor 'V_load', factory=IFactory('vlm.v'), stencil = 0x2b00007");
  (5%nat, "[1]: 'vl1re8.v', mask=0xe3f00000, field_set=0xd, value=0x2800000, nfixed=3, extractor=Extractor 'V_load', factory=IFactory('vl1re8.v'), stencil = 0x2800007");
  (5%nat, "[2]: 'vl2re8.v', mask=0xe3f00000, field_set=0xd, value=0x22800000, nfixed=3, extractor=Extractor 'V_load', factory=IFactory('vl2re8.v'), stencil = 0x22800007");
  (5%nat, "[3]: 'vl4re8.v', mask=0xe3f00000, field_set=0xd, value=0x62800000, nfixed=3, extractor=Extractor 'V_load', factory=IFactory('vl4re8.v'), stencil = 0x62800007");
  (5%nat, "[4]: 'vl8re8.v', mask=0xe3f00000, field_set=0xd, value=0xe2800000, nfixed=3, extractor=Extractor 'V_load', factory=IFactory('vl8re8.v'), stencil = 0xe2800007");
  (5%nat, "[5]: 'vle8.v', mask=0x1f00000, field_set=0x8, value=0x0, nfixed=1, extractor=Extractor 'V_load', factory=IFactory('vle8.v'), stencil = 0x7");
  (5%nat, "[6]: 'vle8ff.v', mask=0x1f00000, field_set=0x8, value=0x1000000, nfixed=1, extractor=Extractor 'V_load', factory=IFactory('vle8ff.v'), stencil = 0x1000007");
  (4%nat, "[1]: IFactorySpecialCaseComposite::Field ");
  (5%nat, "[default]: 'vluxei8.v', extractor=Extractor 'V_load', factory=IFactory('vluxei8.v'), stencil = 0x4000007");
  (4%nat, "[2]: IFactorySpecialCaseComposite::Field ");
  (5%nat, "[default]: 'vlse8.v', extractor=Extractor 'V_load', factory=IFactory('vlse8.v'), stencil = 0x8000007");
  (4%nat, "[3]: IFactorySpecialCaseComposite::Field ");
  (5%nat, "[default]: 'vloxei8.v', extractor=Extractor 'V_load', factory=IFactory('vloxei8.v'), stencil = 0xc000007");
  (3%nat, "[1]: IFactoryDenseComposite::Field mewop");
  (4%nat, "[default]: IFactorySpecialCaseComposite::Field ");
  (5%nat, "[default]: 'flh', extractor=Extractor 'I_load', factory=IFactory('flh'), stencil = 0x1007");
  (3%nat, "[2]: IFactoryDenseComposite::Field mewop");
  (4%nat, "[default]: IFactorySpecialCaseComposite::Field ");
  (5%nat, "[default]: 'flw', extractor=Extractor 'I_load', factory=IFactory('flw'), stencil = 0x2007");
  (3%nat, "[3]: IFactoryDenseComposite::Field mewop");
  (4%nat, "[default]: IFactorySpecialCaseComposite::Field ");
  (5%nat, "[default]: 'fld', extractor=Extractor 'I_load', factory=IFactory('fld'), stencil = 0x3007");
  (3%nat, "[5]: IFactoryDenseComposite::Field mewop");
  (4%nat, "[0]: IFactorySpecialCaseComposite::Field ");
  (5%nat, "[0]: 'vl1re16.v', mask=0xe3f00000, field_set=0xd, value=0x2800000, nfixed=3, extractor=Extractor 'V_load', factory=IFactory('vl1re16.v'), stencil = 0x2805007");
  (5%nat, "[1]: 'vl2re16.v', mask=0xe3f00000, field_set=0xd, value=0x22800000, nfixed=3, extractor=Extractor 'V_load', factory=IFactory('vl2re16.v'), stencil = 0x22805007");
  (5%nat, "[2]: 'vl4re16.v', mask=0xe3f00000, field_set=0xd, value=0x62800000, nfixed=3, extractor=Extractor 'V_load', factory=IFactory('vl4re16.v'), stencil = 0x62805007");
  (5%nat, "[3]: 'vl8re16.v', mask=0xe3f00000, field_set=0xd, value=0xe2800000, nfixed=3, extractor=Extractor 'V_load', factory=IFactory('vl8re16.v'), stencil = 0xe2805007");
  (5%nat, "[4]: 'vle16.v', mask=0x1f00000, field_set=0x8, value=0x0, nfixed=1, extractor=Extractor 'V_load', factory=IFactory('vle16.v'), stencil = 0x5007");
  (5%nat, "[5]: 'vle16ff.v', mask=0x1f00000, field_set=0x8, value=0x1000000, nfixed=1, extractor=Extractor 'V_load', factory=IFactory('vle16ff.v'), stencil = 0x1005007");
  (4%nat, "[1]: IFactorySpecialCaseComposite::Field ");
  (5%nat, "[default]: 'vluxei16.v', extractor=Extractor 'V_load', factory=IFactory('vluxei16.v'), stencil = 0x4005007");
  (4%nat, "[2]: IFactorySpecialCaseComposite::Field ");
  (5%nat, "[default]: 'vlse16.v', extractor=Extractor 'V_load', factory=IFactory('vlse16.v'), stencil = 0x8005007");
  (4%nat, "[3]: IFactorySpecialCaseComposite::Field ");
  (5%nat, "[default]: 'vloxei16.v', extractor=Extractor 'V_load', factory=IFactory('vloxei16.v'), stencil = 0xc005007");
  (3%nat, "[6]: IFactoryDenseComposite::Field mewop");
  (4%nat, "[0]: IFactorySpecialCaseComposite::Field ");
  (5%nat, "[0]: 'vl1re32.v', mask=0xe3f00000, field_set=0xd, value=0x2800000, nfixed=3, extractor=Extractor 'V_load', factory=IFactory('vl1re32.v'), stencil = 0x2806007");
  (5%nat, "[1]: 'vl2re32.v', mask=0xe3f00000, field_set=0xd, value=0x22800000, nfixed=3, extractor=Extractor 'V_load', factory=IFactory('vl2re32.v'), stencil = 0x22806007");
  (5%nat, "[2]: 'vl4re32.v', mask=0xe3f00000, field_set=0xd, value=0x62800000, nfixed=3, extractor=Extractor 'V_load', factory=IFactory('vl4re32.v'), stencil = 0x62806007");
  (5%nat, "[3]: 'vl8re32.v', mask=0xe3f00000, field_set=0xd, value=0xe2800000, nfixed=3, extractor=Extractor 'V_load', factory=IFactory('vl8re32.v'), stencil = 0xe2806007");
  (5%nat, "[4]: 'vle32.v', mask=0x1f00000, field_set=0x8, value=0x0, nfixed=1, extractor=Extractor 'V_load', factory=IFactory('vle32.v'), stencil = 0x6007");
  (5%nat, "[5]: 'vle32ff.v', mask=0x1f00000, field_set=0x8, value=0x1000000, nfixed=1, extractor=Extractor 'V_load', factory=IFactory('vle32ff.v'), stencil = 0x1006007");
  (4%nat, "[1]: IFactorySpecialCaseComposite::Field ");
  (5%nat, "[default]: 'vluxei32.v', extractor=Extractor 'V_load', factory=IFactory('vluxei32.v'), stencil = 0x4006007");
  (4%nat, "[2]: IFactorySpecialCaseComposite::Field ");
  (5%nat, "[default]: 'vlse32.v', extractor=Extractor 'V_load', factory=IFactory('vlse32.v'), stencil = 0x8006007");
  (4%nat, "[3]: IFactorySpecialCaseComposite::Field ");
  (5%nat, "[default]: 'vloxei32.v', extractor=Extractor 'V_load', factory=IFactory('vloxei32.v'), stencil = 0xc006007");
  (3%nat, "[7]: IFactoryDenseComposite::Field mewop");
  (4%nat, "[0]: IFactorySpecialCaseComposite::Field ");
  (5%nat, "[0]: 'vl1re64.v', mask=0xe3f00000, field_set=0xd, value=0x2800000, nfixed=3, extractor=Extractor 'V_load', factory=IFactory('vl1re64.v'), stencil = 0x2807007");
  (5%nat, "[1]: 'vl2re64.v', mask=0xe3f00000, field_set=0xd, value=0x22800000, nfixed=3, extractor=Extractor 'V_load', factory=IFactory('vl2re64.v'), stencil = 0x22807007");
  (5%nat, "[2]: 'vl4re64.v', mask=0xe3f00000, field_set=0xd, value=0x62800000, nfixed=3, extractor=Extractor 'V_load', factory=IFactory('vl4re64.v'), stencil = 0x62807007");
  (5%nat, "[3]: 'vl8re64.v', mask=0xe3f00000, field_set=0xd, value=0xe2800000, nfixed=3, extractor=Extractor 'V_load', factory=IFactory('vl8re64.v'), stencil = 0xe2807007");
  (5%nat, "[4]: 'vle64.v', mask=0x1f00000, field_set=0x8, value=0x0, nfixed=1, extractor=Extractor 'V_load', factory=IFactory('vle64.v'), stencil = 0x7007");
  (5%nat, "[5]: 'vle64ff.v', mask=0x1f00000, field_set=0x8, value=0x1000000, nfixed=1, extractor=Extractor 'V_load', factory=IFactory('vle64ff.v'), stencil = 0x1007007");
  (4%nat, "[1]: IFactorySpecialCaseComposite::Field ");
  (5%nat, "[default]: 'vluxei64.v', extractor=Extractor 'V_load', factory=IFactory('vluxei64.v'), stencil = 0x4007007");
  (4%nat, "[2]: IFactorySpecialCaseComposite::Field ");
  (5%nat, "[default]: 'vlse64.v', extractor=Extractor 'V_load', factory=IFactory('vlse64.v'), stencil = 0x8007007");
  (4%nat, "[3]: IFactorySpecialCaseComposite::Field ");
  (5%nat, "[default]: 'vloxei64.v', extractor=Extractor 'V_load', factory=IFactory('vloxei64.v'), stencil = 0xc007007");
  (2%nat, "[f]: IFactoryDenseComposite::Field func3");
  (3%nat, "[0]: IFactorySpecialCaseComposite::Field ");
  (4%nat, "[default]: 'fence', extractor=Extractor 'FENCE', factory=IFactory('fence'), stencil = 0xf");
  (3%nat, "[1]: IFactorySpecialCaseComposite::Field ");
  (4%nat, "[default]: 'fence.i', extractor=Extractor 'I', factory=IFactory('fence.i'), stencil = 0x100f");
  (3%nat, "[2]: IFactoryDenseComposite::Field func7");
  (4%nat, "[0]: IFactorySpecialCaseComposite::Field ");
  (5%nat, "[0]: 'cbo.clean', mask=0x1f00f80, field_set=0x12, value=0x100000, nfixed=2, extractor=Extractor 'R', factory=IFactory('cbo.clean'), stencil = 0x10200f");
  (5%nat, "[1]: 'cbo.flush', mask=0x1f00f80, field_set=0x12, value=0x200000, nfixed=2, extractor=Extractor 'R', factory=IFactory('cbo.flush'), stencil = 0x20200f");
  (5%nat, "[2]: 'cbo.inval', mask=0x1f00f80, field_set=0x12, value=0x0, nfixed=2, extractor=Extractor 'R', factory=IFactory('cbo.inval'), stencil = 0x200f");
  (5%nat, "[3]: 'cbo.zero', mask=0x1f00f80, field_set=0x12, value=0x400000, nfixed=2, extractor=Extractor 'R', factory=IFactory('cbo.zero'), stencil = 0x40200f");
  (2%nat, "[13]: IFactoryDenseComposite::Field func3");
  (3%nat, "[0]: IFactoryDenseComposite::Field func6");
  (4%nat, "[default]: IFactorySpecialCaseComposite::Field ");
  (5%nat, "[0]: 'li', mask=0xf8000, field_set=0x4, value=0x0, nfixed=1, extractor=Extractor 'I', factory=IFactory('li'), stencil = 0x13");
  (5%nat, "[default]: 'addi', extractor=Extractor 'I', factory=IFactory('addi'), stencil = 0x13");
  (3%nat, "[1]: IFactoryDenseComposite::Field func6");
  (4%nat, "[0]: IFactorySpecialCaseComposite::Field ");
  (5%nat, "[default]: 'slli', extractor=Extractor 'ISH', factory=IFactory('slli'), stencil = 0x1013");
  (4%nat, "[a]: IFactorySpecialCaseComposite::Field ");
  (5%nat, "[default]: 'bseti', extractor=Extractor 'ISH', factory=IFactory('bseti'), stencil = 0x28001013");
  (4%nat, "[12]: IFactorySpecialCaseComposite::Field ");
  (5%nat, "[default]: 'bclri', extractor=Extractor 'ISH', factory=IFactory('bclri'), stencil = 0x48001013");
  (4%nat, "[18]: IFactorySpecialCaseComposite::Field ");
  (5%nat, "[0]: 'clz', mask=0x3f00000, field_set=0x2, value=0x0, nfixed=1, extractor=Extractor 'ISH', factory=IFactory('clz'), stencil = 0x60001013");
  (5%nat, "[1]: 'ctz', mask=0x3f00000, field_set=0x2, value=0x100000, nfixed=1, extractor=Extractor 'ISH', factory=IFactory('ctz'), stencil = 0x60101013");
  (5%nat, "[2]: 'cpop', mask=0x3f00000, field_set=0x2, value=0x200000, nfixed=1, extractor=Extractor 'ISH', factory=IFactory('cpop'), stencil = 0x60201013");
  (5%nat, "[3]: 'sext.b', mask=0x3f00000, field_set=0x2, value=0x400000, nfixed=1, extractor=Extractor 'ISH', factory=IFactory('sext.b'), stencil = 0x60401013");
  (5%nat, "[4]: 'sext.h', mask=0x3f00000, field_set=0x2, value=0x500000, nfixed=1, extractor=Extractor 'ISH', factory=IFactory('sext.h'), stencil = 0x60501013");
  (4%nat, "[1a]: IFactorySpecialCaseComposite::Field ");
  (5%nat, "[default]: 'binvi', extractor=Extractor 'ISH', factory=IFactory('binvi'), stencil = 0x68001013");
  (3%nat, "[2]: IFactoryDenseComposite::Field func6");
  (4%nat, "[default]: IFactorySpecialCaseComposite::Field ");
  (5%nat, "[default]: 'slti', extractor=Extractor 'I', factory=IFactory('slti'), stencil = 0x2013");
  (3%nat, "[3]: IFactoryDenseComposite::Field func6");
  (4%nat, "[default]: IFactorySpecialCaseComposite::Field ");
  (5%nat, "[default]: 'sltiu', extractor=Extractor 'I', factory=IFactory('sltiu'), stencil = 0x3013");
  (3%nat, "[4]: IFactoryDenseComposite::Field func6");
  (4%nat, "[default]: IFactorySpecialCaseComposite::Field ");
  (5%nat, "[default]: 'xori', extractor=Extractor 'I', factory=IFactory('xori'), stencil = 0x4013");
  (3%nat, "[5]: IFactoryDenseComposite::Field func6");
  (4%nat, "[0]: IFactorySpecialCaseComposite::Field ");
  (5%nat, "[default]: 'srli', extractor=Extractor 'ISH', factory=IFactory('srli'), stencil = 0x5013");
  (4%nat, "[a]: IFactorySpecialCaseComposite::Field ");
  (5%nat, "[default]: 'gorci', extractor=Extractor 'ISH', factory=IFactory('gorci'), stencil = 0x28005013");
  (4%nat, "[10]: IFactorySpecialCaseComposite::Field ");
  (5%nat, "[default]: 'srai', extractor=Extractor 'ISH', factory=IFactory('srai'), stencil = 0x40005013");
  (4%nat, "[12]: IFactorySpecialCaseComposite::Field ");
  (5%nat, "[default]: 'bexti', extractor=Extractor 'ISH', factory=IFactory('bexti'), stencil = 0x48005013");
  (4%nat, "[18]: IFactorySpecialCaseComposite::Field ");
  (5%nat, "[default]: 'rori', extractor=Extractor 'ISH', factory=IFactory('rori'), stencil = 0x60005013");
  (4%nat, "[1a]: IFactorySpecialCaseComposite::Field ");
  (5%nat, "[default]: 'grevi', extractor=Extractor 'ISH', factory=IFactory('grevi'), stencil = 0x68005013");
  (3%nat, "[6]: IFactoryDenseComposite::Field func6");
  (4%nat, "[default]: IFactorySpecialCaseComposite::Field ");
  (5%nat, "[default]: 'ori', extractor=Extractor 'I', factory=IFactory('ori'), stencil = 0x6013");
  (3%nat, "[7]: IFactoryDenseComposite::Field func6");
  (4%nat, "[default]: IFactorySpecialCaseComposite::Field ");
  (5%nat, "[default]: 'andi', extractor=Extractor 'I', factory=IFactory('andi'), stencil = 0x7013");
  (2%nat, "[17]: IFactorySpecialCaseComposite::Field ");
  (3%nat, "[default]: 'auipc', extractor=Extractor 'U', factory=IFactory('auipc'), stencil = 0x17");
  (2%nat, "[1b]: IFactoryDenseComposite::Field func3");
  (3%nat, "[0]: IFactoryDenseComposite::Field func7");
  (4%nat, "[default]: IFactorySpecialCaseComposite::Field ");
  (5%nat, "[default]: 'addiw', extractor=Extractor 'I', factory=IFactory('addiw'), stencil = 0x1b");
  (3%nat, "[1]: IFactoryDenseComposite::Field func7");
  (4%nat, "[0]: IFactorySpecialCaseComposite::Field ");
  (5%nat, "[default]: 'slliw', extractor=Extractor 'ISHW', factory=IFactory('slliw'), stencil = 0x101b");
  (4%nat, "[4]: IFactorySpecialCaseComposite::Field ");
  (5%nat, "[default]: 'slli.uw', extractor=Extractor 'ISH', factory=IFactory('slli.uw'), stencil = 0x800101b");
  (4%nat, "[5]: IFactorySpecialCaseComposite::Field ");
  (5%nat, "[default]: 'slli.uw', extractor=Extractor 'ISH', factory=IFactory('slli.uw'), stencil = 0x800101b");
  (4%nat, "[30]: IFactorySpecialCaseComposite::Field ");
  (5%nat, "[0]: 'clzw', mask=0x1f00000, field_set=0x2, value=0x0, nfixed=1, extractor=Extractor 'ISHW', factory=IFactory('clzw'), stencil = 0x6000101b");
  (5%nat, "[1]: 'ctzw', mask=0x1f00000, field_set=0x2, value=0x100000, nfixed=1, extractor=Extractor 'ISHW', factory=IFactory('ctzw'), stencil = 0x6010101b");
  (5%nat, "[2]: 'cpopw', mask=0x1f00000, field_set=0x2, value=0x200000, nfixed=1, extractor=Extractor 'ISHW', factory=IFactory('cpopw'), stencil = 0x6020101b");
  (3%nat, "[5]: IFactoryDenseComposite::Field func7");
  (4%nat, "[0]: IFactorySpecialCaseComposite::Field ");
  (5%nat, "[default]: 'srliw', extractor=Extractor 'ISHW', factory=IFactory('srliw'), stencil = 0x501b");
  (4%nat, "[20]: IFactorySpecialCaseComposite::Field ");
  (5%nat, "[default]: 'sraiw', extractor=Extractor 'ISHW', factory=IFactory('sraiw'), stencil = 0x4000501b");
  (4%nat, "[30]: IFactorySpecialCaseComposite::Field ");
  (5%nat, "[default]: 'roriw', extractor=Extractor 'ISHW', factory=IFactory('roriw'), stencil = 0x6000501b");
  (2%nat, "[23]: IFactoryDenseComposite::Field func3");
  (3%nat, "[0]: IFactorySpecialCaseComposite::Field ");
  (4%nat, "[default]: 'sb', extractor=Extractor 'S', factory=IFactory('sb'), stencil = 0x23");
  (3%nat, "[1]: IFactorySpecialCaseComposite::Field ");
  (4%nat, "[default]: 'sh', extractor=Extractor 'S', factory=IFactory('sh'), stencil = 0x1023");
  (3%nat, "[2]: IFactorySpecialCaseComposite::Field ");
  (4%nat, "[default]: 'sw', extractor=Extractor 'S', factory=IFactory('sw'), stencil = 0x2023");
  (3%nat, "[3]: IFactorySpecialCaseComposite::Field ");
  (4%nat, "[default]: 'sd', extractor=Extractor 'S', factory=IFactory('sd'), stencil = 0x3023");
  (2%nat, "[27]: IFactoryDenseComposite::Field width");
  (3%nat, "[0]: IFactoryDenseComposite::Field mewop");
  (4%nat, "[0]: IFactorySpecialCaseComposite::Field ");
  (5%nat, "[0]: 'vsm.v', mask=0xe3f00000, field_set=0xd, value=0x2b00000, nfixed=3, extractor=Extractor 'V_store', factory=IFactory('vsm.v'), stencil = 0x2b00027");
  (5%nat, "[1]: 'vs1r.v', mask=0xe3f00000, field_set=0xd, value=0x2800000, nfixed=3, extractor=Extractor 'V_store', factory=IFactory('vs1r.v'), stencil = 0x2800027");
  (5%nat, "[2]: 'vs2r.v', mask=0xe3f00000, field_set=0xd, value=0x22800000, nfixed=3, extractor=Extractor 'V_store', factory=IFactory('vs2r.v'), stencil = 0x22800027");
  (5%nat, "[3]: 'vs4r.v', mask=0xe3f00000, field_set=0xd, value=0x62800000, nfixed=3, extractor=Extractor 'V_store', factory=IFactory('vs4r.v'), stencil = 0x62800027");
  (5%nat, "[4]: 'vs8r.v', mask=0xe3f00000, field_set=0xd, value=0xe2800000, nfixed=3, extractor=Extractor 'V_store', factory=IFactory('vs8r.v'), stencil = 0xe2800027");
  (5%nat, "[5]: 'vse8.v', mask=0x1f00000, field_set=0x8, value=0x0, nfixed=1, extractor=Extractor 'V_store', factory=IFactory('vse8.v'), stencil = 0x27");
  (4%nat, "[1]: IFactorySpecialCaseComposite::Field ");
  (5%nat, "[default]: 'vsuxei8.v', extractor=Extractor 'V_store', factory=IFactory('vsuxei8.v'), stencil = 0x4000027");
  (4%nat, "[2]: IFactorySpecialCaseComposite::Field ");
  (5%nat, "[default]: 'vsse8.v', extractor=Extractor 'V_store', factory=IFactory('vsse8.v'), stencil = 0x8000027");
  (4%nat, "[3]: IFactorySpecialCaseComposite::Field ");
  (5%nat, "[default]: 'vsoxei8.v', extractor=Extractor 'V_store', factory=IFactory('vsoxei8.v'), stencil = 0xc000027");
  (3%nat, "[1]: IFactoryDenseComposite::Field mewop");
  (4%nat, "[default]: IFactorySpecialCaseComposite::Field ");
  (5%nat, "[default]: 'fsh', extractor=Extractor 'S', factory=IFactory('fsh'), stencil = 0x1027");
  (3%nat, "[2]: IFactoryDenseComposite::Field mewop");
  (4%nat, "[default]: IFactorySpecialCaseComposite::Field ");
  (5%nat, "[default]: 'fsw', extractor=Extractor 'S', factory=IFactory('fsw'), stencil = 0x2027");
  (3%nat, "[3]: IFactoryDenseComposite::Field mewop");
  (4%nat, "[default]: IFactorySpecialCaseComposite::Field ");
  (5%nat, "[default]: 'fsd', extractor=Extractor 'S', factory=IFactory('fsd'), stencil = 0x3027");
  (3%nat, "[5]: IFactoryDenseComposite::Field mewop");
  (4%nat, "[0]: IFactorySpecialCaseComposite::Field ");
  (5%nat, "[0]: 'vse16.v', mask=0x1f00000, field_set=0x8, value=0x0, nfixed=1, extractor=Extractor 'V_store', factory=IFactory('vse16.v'), stencil = 0x5027");
  (4%nat, "[1]: IFactorySpecialCaseComposite::Field ");
  (5%nat, "[default]: 'vsuxei16.v', extractor=Extractor 'V_store', factory=IFactory('vsuxei16.v'), stencil = 0x4005027");
  (4%nat, "[2]: IFactorySpecialCaseComposite::Field ");
  (5%nat, "[default]: 'vsse16.v', extractor=Extractor 'V_store', factory=IFactory('vsse16.v'), stencil = 0x8005027");
  (4%nat, "[3]: IFactorySpecialCaseComposite::Field ");
  (5%nat, "[default]: 'vsoxei16.v', extractor=Extractor 'V_store', factory=IFactory('vsoxei16.v'), stencil = 0xc005027");
  (3%nat, "[6]: IFactoryDenseComposite::Field mewop");
  (4%nat, "[0]: IFactorySpecialCaseComposite::Field ");
  (5%nat, "[0]: 'vse32.v', mask=0x1f00000, field_set=0x8, value=0x0, nfixed=1, extractor=Extractor 'V_store', factory=IFactory('vse32.v'), stencil = 0x6027");
  (4%nat, "[1]: IFactorySpecialCaseComposite::Field ");
  (5%nat, "[default]: 'vsuxei32.v', extractor=Extractor 'V_store', factory=IFactory('vsuxei32.v'), stencil = 0x4006027");
  (4%nat, "[2]: IFactorySpecialCaseComposite::Field ");
  (5%nat, "[default]: 'vsse32.v', extractor=Extractor 'V_store', factory=IFactory('vsse32.v'), stencil = 0x8006027");
  (4%nat, "[3]: IFactorySpecialCaseComposite::Field ");
  (5%nat, "[default]: 'vsoxei32.v', extractor=Extractor 'V_store', factory=IFactory('vsoxei32.v'), stencil = 0xc006027");
  (3%nat, "[7]: IFactoryDenseComposite::Field mewop");
  (4%nat, "[0]: IFactorySpecialCaseComposite::Field ");
  (5%nat, "[0]: 'vse64.v', mask=0x1f00000, field_set=0x8, value=0x0, nfixed=1, extractor=Extractor 'V_store', factory=IFactory('vse64.v'), stencil = 0x7027");
  (4%nat, "[1]: IFactorySpecialCaseComposite::Field ");
  (5%nat, "[default]: 'vsuxei64.v', extractor=Extractor 'V_store', factory=IFactory('vsuxei64.v'), stencil = 0x4007027");
  (4%nat, "[2]: IFactorySpecialCaseComposite::Field ");
  (5%nat, "[default]: 'vsse64.v', extractor=Extractor 'V_store', factory=IFactory('vsse64.v'), stencil = 0x8007027");
  (4%nat, "[3]: IFactorySpecialCaseComposite::Field ");
  (5%nat, "[default]: 'vsoxei64.v', extractor=Extractor 'V_store', factory=IFactory('vsoxei64.v'), stencil = 0xc007027");
  (2%nat, "[2f]: IFactoryDenseComposite::Field func3");
  (3%nat, "[2]: IFactoryDenseComposite::Field func5");
  (4%nat, "[0]: IFactorySpecialCaseComposite::Field ");
  (5%nat, "[default]: 'amoadd.w', extractor=Extractor 'AMO', factory=IFactory('amoadd.w'), stencil = 0x202f");
  (4%nat, "[1]: IFactorySpecialCaseComposite::Field ");
  (5%nat, "[default]: 'amoswap.w', extractor=Extractor 'AMO', factory=IFactory('amoswap.w'), stencil = 0x800202f");
  (4%nat, "[2]: IFactorySpecialCaseComposite::Field ");
  (5%nat, "[0]: 'lr.w', mask=0x1f00000, field_set=0x20, value=0x0, nfixed=1, extractor=Extractor 'AMO', factory=IFactory('lr.w'), stencil = 0x1000202f");
  (4%nat, "[3]: IFactorySpecialCaseComposite::Field ");
  (5%nat, "[default]: 'sc.w', extractor=Extractor 'AMO', factory=IFactory('sc.w'), stencil = 0x1800202f");
  (4%nat, "[4]: IFactorySpecialCaseComposite::Field ");
  (5%nat, "[default]: 'amoxor.w', extractor=Extractor 'AMO', factory=IFactory('amoxor.w'), stencil = 0x2000202f");
  (4%nat, "[8]: IFactorySpecialCaseComposite::Field ");
  (5%nat, "[default]: 'amoor.w', extractor=Extractor 'AMO', factory=IFactory('amoor.w'), stencil = 0x4000202f");
  (4%nat, "[c]: IFactorySpecialCaseComposite::Field ");
  (5%nat, "[default]: 'amoand.w', extractor=Extractor 'AMO', factory=IFactory('amoand.w'), stencil = 0x6000202f");
  (4%nat, "[10]: IFactorySpecialCaseComposite::Field ");
  (5%nat, "[default]: 'amomin.w', extractor=Extractor 'AMO', factory=IFactory('amomin.w'), stencil = 0x8000202f");
  (4%nat, "[14]: IFactorySpecialCaseComposite::Field ");
  (5%nat, "[default]: 'amomax.w', extractor=Extractor 'AMO', factory=IFactory('amomax.w'), stencil = 0xa000202f");
  (4%nat, "[18]: IFactorySpecialCaseComposite::Field ");
  (5%nat, "[default]: 'amominu.w', extractor=Extractor 'AMO', factory=IFactory('amominu.w'), stencil = 0xc000202f");
  (4%nat, "[1c]: IFactorySpecialCaseComposite::Field ");
  (5%nat, "[default]: 'amomaxu.w', extractor=Extractor 'AMO', factory=IFactory('amomaxu.w'), stencil = 0xe000202f");
  (3%nat, "[3]: IFactoryDenseComposite::Field func5");
  (4%nat, "[0]: IFactorySpecialCaseComposite::Field ");
  (5%nat, "[default]: 'amoadd.d', extractor=Extractor 'AMO', factory=IFactory('amoadd.d'), stencil = 0x302f");
  (4%nat, "[1]: IFactorySpecialCaseComposite::Field ");
  (5%nat, "[default]: 'amoswap.d', extractor=Extractor 'AMO', factory=IFactory('amoswap.d'), stencil = 0x800302f");
  (4%nat, "[2]: IFactorySpecialCaseComposite::Field ");
  (5%nat, "[0]: 'lr.d', mask=0x1f00000, field_set=0x20, value=0x0, nfixed=1, extractor=Extractor 'AMO', factory=IFactory('lr.d'), stencil = 0x1000302f");
  (4%nat, "[3]: IFactorySpecialCaseComposite::Field ");
  (5%nat, "[default]: 'sc.d', extractor=Extractor 'AMO', factory=IFactory('sc.d'), stencil = 0x1800302f");
  (4%nat, "[4]: IFactorySpecialCaseComposite::Field ");
  (5%nat, "[default]: 'amoxor.d', extractor=Extractor 'AMO', factory=IFactory('amoxor.d'), stencil = 0x2000302f");
  (4%nat, "[8]: IFactorySpecialCaseComposite::Field ");
  (5%nat, "[default]: 'amoor.d', extractor=Extractor 'AMO', factory=IFactory('amoor.d'), stencil = 0x4000302f");
  (4%nat, "[c]: IFactorySpecialCaseComposite::Field ");
  (5%nat, "[default]: 'amoand.d', extractor=Extractor 'AMO', factory=IFactory('amoand.d'), stencil = 0x6000302f");
  (4%nat, "[10]: IFactorySpecialCaseComposite::Field ");
  (5%nat, "[default]: 'amomin.d', extractor=Extractor 'AMO', factory=IFactory('amomin.d'), stencil = 0x8000302f");
  (4%nat, "[14]: IFactorySpecialCaseComposite::Field ");
  (5%nat, "[default]: 'amomax.d', extractor=Extractor 'AMO', factory=IFactory('amomax.d'), stencil = 0xa000302f");
  (4%nat, "[18]: IFactorySpecialCaseComposite::Field ");
  (5%nat, "[default]: 'amominu.d', extractor=Extractor 'AMO', factory=IFactory('amominu.d'), stencil = 0xc000302f");
  (4%nat, "[1c]: IFactorySpecialCaseComposite::Field ");
  (5%nat, "[default]: 'amomaxu.d', extractor=Extractor 'AMO', factory=IFactory('amomaxu.d'), stencil = 0xe000302f");
  (2%nat, "[33]: IFactoryDenseComposite::Field func3");
  (3%nat, "[0]: IFactoryDenseComposite::Field func7");
  (4%nat, "[0]: IFactorySpecialCaseComposite::Field ");
  (5%nat, "[0]: 'ntl.p1', mask=0x1ff8f80, field_set=0x16, value=0x200000, nfixed=3, extractor=Extractor 'NTL_hint', factory=IFactory('ntl.p1'), stencil = 0x200033");
  (5%nat, "[1]: 'ntl.pall', mask=0x1ff8f80, field_set=0x16, value=0x300000, nfixed=3, extractor=Extractor 'NTL_hint', factory=IFactory('ntl.pall'), stencil = 0x300033");
  (5%nat, "[2]: 'ntl.s1', mask=0x1ff8f80, field_set=0x16, value=0x400000, nfixed=3, extractor=Extractor 'NTL_hint', factory=IFactory('ntl.s1'), stencil = 0x400033");
  (5%nat, "[3]: 'ntl.all', mask=0x1ff8f80, field_set=0x16, value=0x500000, nfixed=3, extractor=Extractor 'NTL_hint', factory=IFactory('ntl.all'), stencil = 0x500033");
  (5%nat, "[default]: 'add', extractor=Extractor 'R', factory=IFactory('add'), stencil = 0x33");
  (4%nat, "[1]: IFactorySpecialCaseComposite::Field ");
  (5%nat, "[default]: 'mul', extractor=Extractor 'R', factory=IFactory('mul'), stencil = 0x2000033");
  (4%nat, "[20]: IFactorySpecialCaseComposite::Field ");
  (5%nat, "[default]: 'sub', extractor=Extractor 'R', factory=IFactory('sub'), stencil = 0x40000033");
  (3%nat, "[1]: IFactoryDenseComposite::Field func7");
  (4%nat, "[0]: IFactorySpecialCaseComposite::Field ");
  (5%nat, "[default]: 'sll', extractor=Extractor 'R', factory=IFactory('sll'), stencil = 0x1033");
  (4%nat, "[1]: IFactorySpecialCaseComposite::Field ");
  (5%nat, "[default]: 'mulh', extractor=Extractor 'R', factory=IFactory('mulh'), stencil = 0x2001033");
  (4%nat, "[5]: IFactorySpecialCaseComposite::Field ");
  (5%nat, "[default]: 'clmul', extractor=Extractor 'R', factory=IFactory('clmul'), stencil = 0xa001033");
  (4%nat, "[14]: IFactorySpecialCaseComposite::Field ");
  (5%nat, "[default]: 'bset', extractor=Extractor 'R', factory=IFactory('bset'), stencil = 0x28001033");
  (4%nat, "[24]: IFactorySpecialCaseComposite::Field ");
  (5%nat, "[default]: 'bclr', extractor=Extractor 'R', factory=IFactory('bclr'), stencil = 0x48001033");
  (4%nat, "[30]: IFactorySpecialCaseComposite::Field ");
  (5%nat, "[default]: 'rol', extractor=Extractor 'R', factory=IFactory('rol'), stencil = 0x60001033");
  (4%nat, "[34]: IFactorySpecialCaseComposite::Field ");
  (5%nat, "[default]: 'binv', extractor=Extractor 'R', factory=IFactory('binv'), stencil = 0x68001033");
  (3%nat, "[2]: IFactoryDenseComposite::Field func7");
  (4%nat, "[0]: IFactorySpecialCaseComposite::Field ");
  (5%nat, "[default]: 'slt', extractor=Extractor 'R', factory=IFactory('slt'), stencil = 0x2033");
  (4%nat, "[1]: IFactorySpecialCaseComposite::Field ");
  (5%nat, "[default]: 'mulhsu', extractor=Extractor 'R', factory=IFactory('mulhsu'), stencil = 0x2002033");
  (4%nat, "[5]: IFactorySpecialCaseComposite::Field ");
  (5%nat, "[default]: 'clmulr', extractor=Extractor 'R', factory=IFactory('clmulr'), stencil = 0xa002033");
  (4%nat, "[10]: IFactorySpecialCaseComposite::Field ");
  (5%nat, "[default]: 'sh1add', extractor=Extractor 'R', factory=IFactory('sh1add'), stencil = 0x20002033");
  (3%nat, "[3]: IFactoryDenseComposite::Field func7");
  (4%nat, "[0]: IFactorySpecialCaseComposite::Field ");
  (5%nat, "[default]: 'sltu', extractor=Extractor 'R', factory=IFactory('sltu'), stencil = 0x3033");
  (4%nat, "[1]: IFactorySpecialCaseComposite::Field ");
  (5%nat, "[default]: 'mulhu', extractor=Extractor 'R', factory=IFactory('mulhu'), stencil = 0x2003033");
  (4%nat, "[5]: IFactorySpecialCaseComposite::Field ");
  (5%nat, "[default]: 'clmulh', extractor=Extractor 'R', factory=IFactory('clmulh'), stencil = 0xa003033");
  (3%nat, "[4]: IFactoryDenseComposite::Field func7");
  (4%nat, "[0]: IFactorySpecialCaseComposite::Field ");
  (5%nat, "[default]: 'xor', extractor=Extractor 'R', factory=IFactory('xor'), stencil = 0x4033");
  (4%nat, "[1]: IFactorySpecialCaseComposite::Field ");
  (5%nat, "[default]: 'div', extractor=Extractor 'R', factory=IFactory('div'), stencil = 0x2004033");
  (4%nat, "[4]: IFactorySpecialCaseComposite::Field ");
  (5%nat, "[default]: 'pack', extractor=Extractor 'R', factory=IFactory('pack'), stencil = 0x8004033");
  (4%nat, "[5]: IFactorySpecialCaseComposite::Field ");
  (5%nat, "[default]: 'min', extractor=Extractor 'R', factory=IFactory('min'), stencil = 0xa004033");
  (4%nat, "[10]: IFactorySpecialCaseComposite::Field ");
  (5%nat, "[default]: 'sh2add', extractor=Extractor 'R', factory=IFactory('sh2add'), stencil = 0x20004033");
  (4%nat, "[20]: IFactorySpecialCaseComposite::Field ");
  (5%nat, "[default]: 'xnor', extractor=Extractor 'R', factory=IFactory('xnor'), stencil = 0x40004033");
  (4%nat, "[24]: IFactorySpecialCaseComposite::Field ");
  (5%nat, "[default]: 'packu', extractor=Extractor 'R', factory=IFactory('packu'), stencil = 0x48004033");
  (3%nat, "[5]: IFactoryDenseComposite::Field func7");
  (4%nat, "[0]: IFactorySpecialCaseComposite::Field ");
  (5%nat, "[default]: 'srl', extractor=Extractor 'R', factory=IFactory('srl'), stencil = 0x5033");
  (4%nat, "[1]: IFactorySpecialCaseComposite::Field ");
  (5%nat, "[default]: 'divu', extractor=Extractor 'R', factory=IFactory('divu'), stencil = 0x2005033");
  (4%nat, "[5]: IFactorySpecialCaseComposite::Field ");
  (5%nat, "[default]: 'minu', extractor=Extractor 'R', factory=IFactory('minu'), stencil = 0xa005033");
  (4%nat, "[7]: IFactorySpecialCaseComposite::Field ");
  (5%nat, "[default]: 'czero.eqz', extractor=Extractor 'R', factory=IFactory('czero.eqz'), stencil = 0xe005033");
  (4%nat, "[20]: IFactorySpecialCaseComposite::Field ");
  (5%nat, "[default]: 'sra', extractor=Extractor 'R', factory=IFactory('sra'), stencil = 0x40005033");
  (4%nat, "[24]: IFactorySpecialCaseComposite::Field ");
  (5%nat, "[default]: 'bext', extractor=Extractor 'R', factory=IFactory('bext'), stencil = 0x48005033");
  (4%nat, "[30]: IFactorySpecialCaseComposite::Field ");
  (5%nat, "[default]: 'ror', extractor=Extractor 'R', factory=IFactory('ror'), stencil = 0x60005033");
  (3%nat, "[6]: IFactoryDenseComposite::Field func7");
  (4%nat, "[0]: IFactorySpecialCaseComposite::Field ");
  (5%nat, "[default]: 'or', extractor=Extractor 'R', factory=IFactory('or'), stencil = 0x6033");
  (4%nat, "[1]: IFactorySpecialCaseComposite::Field ");
  (5%nat, "[default]: 'rem', extractor=Extractor 'R', factory=IFactory('rem'), stencil = 0x2006033");
  (4%nat, "[5]: IFactorySpecialCaseComposite::Field ");
  (5%nat, "[default]: 'max', extractor=Extractor 'R', factory=IFactory('max'), stencil = 0xa006033");
  (4%nat, "[10]: IFactorySpecialCaseComposite::Field ");
  (5%nat, "[default]: 'sh3add', extractor=Extractor 'R', factory=IFactory('sh3add'), stencil = 0x20006033");
  (4%nat, "[20]: IFactorySpecialCaseComposite::Field ");
  (5%nat, "[default]: 'orn', extractor=Extractor 'R', factory=IFactory('orn'), stencil = 0x40006033");
  (3%nat, "[7]: IFactoryDenseComposite::Field func7");
  (4%nat, "[0]: IFactorySpecialCaseComposite::Field ");
  (5%nat, "[default]: 'and', extractor=Extractor 'R', factory=IFactory('and'), stencil = 0x7033");
  (4%nat, "[1]: IFactorySpecialCaseComposite::Field ");
  (5%nat, "[default]: 'remu', extractor=Extractor 'R', factory=IFactory('remu'), stencil = 0x2007033");
  (4%nat, "[5]: IFactorySpecialCaseComposite::Field ");
  (5%nat, "[default]: 'maxu', extractor=Extractor 'R', factory=IFactory('maxu'), stencil = 0xa007033");
  (4%nat, "[7]: IFactorySpecialCaseComposite::Field ");
  (5%nat, "[default]: 'czero.nez', extractor=Extractor 'R', factory=IFactory('czero.nez'), stencil = 0xe007033");
  (4%nat, "[20]: IFactorySpecialCaseComposite::Field ");
  (5%nat, "[default]: 'andn', extractor=Extractor 'R', factory=IFactory('andn'), stencil = 0x40007033");
  (2%nat, "[37]: IFactorySpecialCaseComposite::Field ");
  (3%nat, "[default]: 'lui', extractor=Extractor 'U', factory=IFactory('lui'), stencil = 0x37");
  (2%nat, "[3b]: IFactoryDenseComposite::Field func3");
  (3%nat, "[0]: IFactoryDenseComposite::Field func7");
  (4%nat, "[0]: IFactorySpecialCaseComposite::Field ");
  (5%nat, "[default]: 'addw', extractor=Extractor 'R', factory=IFactory('addw'), stencil = 0x3b");
  (4%nat, "[1]: IFactorySpecialCaseComposite::Field ");
  (5%nat, "[default]: 'mulw', extractor=Extractor 'R', factory=IFactory('mulw'), stencil = 0x200003b");
  (4%nat, "[4]: IFactorySpecialCaseComposite::Field ");
  (5%nat, "[default]: 'add.uw', extractor=Extractor 'R', factory=IFactory('add.uw'), stencil = 0x800003b");
  (4%nat, "[20]: IFactorySpecialCaseComposite::Field ");
  (5%nat, "[default]: 'subw', extractor=Extractor 'R', factory=IFactory('subw'), stencil = 0x4000003b");
  (3%nat, "[1]: IFactoryDenseComposite::Field func7");
  (4%nat, "[0]: IFactorySpecialCaseComposite::Field ");
  (5%nat, "[default]: 'sllw', extractor=Extractor 'R', factory=IFactory('sllw'), stencil = 0x103b");
  (4%nat, "[30]: IFactorySpecialCaseComposite::Field ");
  (5%nat, "[default]: 'rolw', extractor=Extractor 'R', factory=IFactory('rolw'), stencil = 0x6000103b");
  (3%nat, "[2]: IFactoryDenseComposite::Field func7");
  (4%nat, "[10]: IFactorySpecialCaseComposite::Field ");
  (5%nat, "[default]: 'sh1add.uw', extractor=Extractor 'R', factory=IFactory('sh1add.uw'), stencil = 0x2000203b");
  (3%nat, "[4]: IFactoryDenseComposite::Field func7");
  (4%nat, "[1]: IFactorySpecialCaseComposite::Field ");
  (5%nat, "[default]: 'divw', extractor=Extractor 'R', factory=IFactory('divw'), stencil = 0x200403b");
  (4%nat, "[4]: IFactorySpecialCaseComposite::Field ");
  (5%nat, "[default]: 'packw', extractor=Extractor 'R', factory=IFactory('packw'), stencil = 0x800403b");
  (4%nat, "[10]: IFactorySpecialCaseComposite::Field ");
  (5%nat, "[default]: 'sh2add.uw', extractor=Extractor 'R', factory=IFactory('sh2add.uw'), stencil = 0x2000403b");
  (4%nat, "[24]: IFactorySpecialCaseComposite::Field ");
  (5%nat, "[default]: 'packuw', extractor=Extractor 'R', factory=IFactory('packuw'), stencil = 0x4800403b");
  (3%nat, "[5]: IFactoryDenseComposite::Field func7");
  (4%nat, "[0]: IFactorySpecialCaseComposite::Field ");
  (5%nat, "[default]: 'srlw', extractor=Extractor 'R', factory=IFactory('srlw'), stencil = 0x503b");
  (4%nat, "[1]: IFactorySpecialCaseComposite::Field ");
  (5%nat, "[default]: 'divuw', extractor=Extractor 'R', factory=IFactory('divuw'), stencil = 0x200503b");
  (4%nat, "[20]: IFactorySpecialCaseComposite::Field ");
  (5%nat, "[default]: 'sraw', extractor=Extractor 'R', factory=IFactory('sraw'), stencil = 0x4000503b");
  (4%nat, "[30]: IFactorySpecialCaseComposite::Field ");
  (5%nat, "[default]: 'rorw', extractor=Extractor 'R', factory=IFactory('rorw'), stencil = 0x6000503b");
  (3%nat, "[6]: IFactoryDenseComposite::Field func7");
  (4%nat, "[1]: IFactorySpecialCaseComposite::Field ");
  (5%nat, "[default]: 'remw', extractor=Extractor 'R', factory=IFactory('remw'), stencil = 0x200603b");
  (4%nat, "[10]: IFactorySpecialCaseComposite::Field ");
  (5%nat, "[default]: 'sh3add.uw', extractor=Extractor 'R', factory=IFactory('sh3add.uw'), stencil = 0x2000603b");
  (3%nat, "[7]: IFactoryDenseComposite::Field func7");
  (4%nat, "[1]: IFactorySpecialCaseComposite::Field ");
  (5%nat, "[default]: 'remuw', extractor=Extractor 'R', factory=IFactory('remuw'), stencil = 0x200703b");
  (2%nat, "[43]: IFactoryDenseComposite::Field func2");
  (3%nat, "[0]: IFactorySpecialCaseComposite::Field ");
  (4%nat, "[default]: 'fmadd.s', extractor=Extractor 'R4', factory=IFactory('fmadd.s'), stencil = 0x43");
  (3%nat, "[1]: IFactorySpecialCaseComposite::Field ");
  (4%nat, "[default]: 'fmadd.d', extractor=Extractor 'R4', factory=IFactory('fmadd.d'), stencil = 0x2000043");
  (3%nat, "[2]: IFactorySpecialCaseComposite::Field ");
  (4%nat, "[default]: 'fmadd.h', extractor=Extractor 'R4', factory=IFactory('fmadd.h'), stencil = 0x4000043");
  (2%nat, "[47]: IFactoryDenseComposite::Field func2");
  (3%nat, "[0]: IFactorySpecialCaseComposite::Field ");
  (4%nat, "[default]: 'fmsub.s', extractor=Extractor 'R4', factory=IFactory('fmsub.s'), stencil = 0x47");
  (3%nat, "[1]: IFactorySpecialCaseComposite::Field ");
  (4%nat, "[default]: 'fmsub.d', extractor=Extractor 'R4', factory=IFactory('fmsub.d'), stencil = 0x2000047");
  (3%nat, "[2]: IFactorySpecialCaseComposite::Field ");
  (4%nat, "[default]: 'fmsub.h', extractor=Extractor 'R4', factory=IFactory('fmsub.h'), stencil = 0x4000047");
  (2%nat, "[4b]: IFactoryDenseComposite::Field func2");
  (3%nat, "[0]: IFactorySpecialCaseComposite::Field ");
  (4%nat, "[default]: 'fnmsub.s', extractor=Extractor 'R4', factory=IFactory('fnmsub.s'), stencil = 0x4b");
  (3%nat, "[1]: IFactorySpecialCaseComposite::Field ");
  (4%nat, "[default]: 'fnmsub.d', extractor=Extractor 'R4', factory=IFactory('fnmsub.d'), stencil = 0x200004b");
  (3%nat, "[2]: IFactorySpecialCaseComposite::Field ");
  (4%nat, "[default]: 'fnmsub.h', extractor=Extractor 'R4', factory=IFactory('fnmsub.h'), stencil = 0x400004b");
  (2%nat, "[4f]: IFactoryDenseComposite::Field func2");
  (3%nat, "[0]: IFactorySpecialCaseComposite::Field ");
  (4%nat, "[default]: 'fnmadd.s', extractor=Extractor 'R4', factory=IFactory('fnmadd.s'), stencil = 0x4f");
  (3%nat, "[1]: IFactorySpecialCaseComposite::Field ");
  (4%nat, "[default]: 'fnmadd.d', extractor=Extractor 'R4', factory=IFactory('fnmadd.d'), stencil = 0x200004f");
  (3%nat, "[2]: IFactorySpecialCaseComposite::Field ");
  (4%nat, "[default]: 'fnmadd.h', extractor=Extractor 'R4', factory=IFactory('fnmadd.h'), stencil = 0x400004f");
  (2%nat, "[53]: IFactoryDenseComposite::Field func7");
  (3%nat, "[0]: IFactorySpecialCaseComposite::Field ");
  (4%nat, "[default]: 'fadd.s', extractor=Extractor 'Rfloat', factory=IFactory('fadd.s'), stencil = 0x53");
  (3%nat, "[1]: IFactorySpecialCaseComposite::Field ");
  (4%nat, "[default]: 'fadd.d', extractor=Extractor 'Rfloat', factory=IFactory('fadd.d'), stencil = 0x2000053");
  (3%nat, "[2]: IFactorySpecialCaseComposite::Field ");
  (4%nat, "[default]: 'fadd.h', extractor=Extractor 'Rfloat', factory=IFactory('fadd.h'), stencil = 0x4000053");
  (3%nat, "[4]: IFactorySpecialCaseComposite::Field ");
  (4%nat, "[default]: 'fsub.s', extractor=Extractor 'Rfloat', factory=IFactory('fsub.s'), stencil = 0x8000053");
  (3%nat, "[5]: IFactorySpecialCaseComposite::Field ");
  (4%nat, "[default]: 'fsub.d', extractor=Extractor 'Rfloat', factory=IFactory('fsub.d'), stencil = 0xa000053");
  (3%nat, "[6]: IFactorySpecialCaseComposite::Field ");
  (4%nat, "[default]: 'fsub.h', extractor=Extractor 'Rfloat', factory=IFactory('fsub.h'), stencil = 0xc000053");
  (3%nat, "[8]: IFactorySpecialCaseComposite::Field ");
  (4%nat, "[default]: 'fmul.s', extractor=Extractor 'Rfloat', factory=IFactory('fmul.s'), stencil = 0x10000053");
  (3%nat, "[9]: IFactorySpecialCaseComposite::Field ");
  (4%nat, "[default]: 'fmul.d', extractor=Extractor 'Rfloat', factory=IFactory('fmul.d'), stencil = 0x12000053");
  (3%nat, "[a]: IFactorySpecialCaseComposite::Field ");
  (4%nat, "[default]: 'fmul.h', extractor=Extractor 'Rfloat', factory=IFactory('fmul.h'), stencil = 0x14000053");
  (3%nat, "[c]: IFactorySpecialCaseComposite::Field ");
  (4%nat, "[default]: 'fdiv.s', extractor=Extractor 'Rfloat', factory=IFactory('fdiv.s'), stencil = 0x18000053");
  (3%nat, "[d]: IFactorySpecialCaseComposite::Field ");
  (4%nat, "[default]: 'fdiv.d', extractor=Extractor 'Rfloat', factory=IFactory('fdiv.d'), stencil = 0x1a000053");
  (3%nat, "[e]: IFactorySpecialCaseComposite::Field ");
  (4%nat, "[default]: 'fdiv.h', extractor=Extractor 'Rfloat', factory=IFactory('fdiv.h'), stencil = 0x1c000053");
  (3%nat, "[10]: IFactorySpecialCaseComposite::Field ");
  (4%nat, "[0]: 'fsgnj.s', mask=0x7000, field_set=0x8, value=0x0, nfixed=1, extractor=Extractor 'Rfloat', factory=IFactory('fsgnj.s'), stencil = 0x20000053");
  (4%nat, "[1]: 'fsgnjn.s', mask=0x7000, field_set=0x8, value=0x1000, nfixed=1, extractor=Extractor 'Rfloat', factory=IFactory('fsgnjn.s'), stencil = 0x20001053");
  (4%nat, "[2]: 'fsgnjx.s', mask=0x7000, field_set=0x8, value=0x2000, nfixed=1, extractor=Extractor 'Rfloat', factory=IFactory('fsgnjx.s'), stencil = 0x20002053");
  (3%nat, "[11]: IFactorySpecialCaseComposite::Field ");
  (4%nat, "[0]: 'fsgnj.d', mask=0x7000, field_set=0x8, value=0x0, nfixed=1, extractor=Extractor 'Rfloat', factory=IFactory('fsgnj.d'), stencil = 0x22000053");
  (4%nat, "[1]: 'fsgnjn.d', mask=0x7000, field_set=0x8, value=0x1000, nfixed=1, extractor=Extractor 'Rfloat', factory=IFactory('fsgnjn.d'), stencil = 0x22001053");
  (4%nat, "[2]: 'fsgnjx.d', mask=0x7000, field_set=0x8, value=0x2000, nfixed=1, extractor=Extractor 'Rfloat', factory=IFactory('fsgnjx.d'), stencil = 0x22002053");
  (3%nat, "[12]: IFactorySpecialCaseComposite::Field ");
  (4%nat, "[0]: 'fsgnj.h', mask=0x7000, field_set=0x8, value=0x0, nfixed=1, extractor=Extractor 'Rfloat', factory=IFactory('fsgnj.h'), stencil = 0x24000053");
  (4%nat, "[1]: 'fsgnjn.h', mask=0x7000, field_set=0x8, value=0x1000, nfixed=1, extractor=Extractor 'Rfloat', factory=IFactory('fsgnjn.h'), stencil = 0x24001053");
  (4%nat, "[2]: 'fsgnjx.h', mask=0x7000, field_set=0x8, value=0x2000, nfixed=1, extractor=Extractor 'Rfloat', factory=IFactory('fsgnjx.h'), stencil = 0x24002053");
  (3%nat, "[14]: IFactorySpecialCaseComposite::Field ");
  (4%nat, "[0]: 'fmin.s', mask=0x7000, field_set=0x8, value=0x0, nfixed=1, extractor=Extractor 'Rfloat', factory=IFactory('fmin.s'), stencil = 0x28000053");
  (4%nat, "[1]: 'fmax.s', mask=0x7000, field_set=0x8, value=0x1000, nfixed=1, extractor=Extractor 'Rfloat', factory=IFactory('fmax.s'), stencil = 0x28001053");
  (4%nat, "[2]: 'fmaxm.s', mask=0x7000, field_set=0x8, value=0x3000, nfixed=1, extractor=Extractor 'Rfloat', factory=IFactory('fmaxm.s'), stencil = 0x28003053");
  (4%nat, "[3]: 'fminm.s', mask=0x7000, field_set=0x8, value=0x2000, nfixed=1, extractor=Extractor 'Rfloat', factory=IFactory('fminm.s'), stencil = 0x28002053");
  (3%nat, "[15]: IFactorySpecialCaseComposite::Field ");
  (4%nat, "[0]: 'fmin.d', mask=0x7000, field_set=0x8, value=0x0, nfixed=1, extractor=Extractor 'Rfloat', factory=IFactory('fmin.d'), stencil = 0x2a000053");
  (4%nat, "[1]: 'fmax.d', mask=0x7000, field_set=0x8, value=0x1000, nfixed=1, extractor=Extractor 'Rfloat', factory=IFactory('fmax.d'), stencil = 0x2a001053");
  (4%nat, "[2]: 'fmaxm.d', mask=0x7000, field_set=0x8, value=0x3000, nfixed=1, extractor=Extractor 'Rfloat', factory=IFactory('fmaxm.d'), stencil = 0x2a003053");
  (4%nat, "[3]: 'fminm.d', mask=0x7000, field_set=0x8, value=0x2000, nfixed=1, extractor=Extractor 'Rfloat', factory=IFactory('fminm.d'), stencil = 0x2a002053");
  (3%nat, "[16]: IFactorySpecialCaseComposite::Field ");
  (4%nat, "[0]: 'fmin.h', mask=0x7000, field_set=0x8, value=0x0, nfixed=1, extractor=Extractor 'Rfloat', factory=IFactory('fmin.h'), stencil = 0x2c000053");
  (4%nat, "[1]: 'fmax.h', mask=0x7000, field_set=0x8, value=0x1000, nfixed=1, extractor=Extractor 'Rfloat', factory=IFactory('fmax.h'), stencil = 0x2c001053");
  (4%nat, "[2]: 'fmaxm.h', mask=0x7000, field_set=0x8, value=0x3000, nfixed=1, extractor=Extractor 'Rfloat', factory=IFactory('fmaxm.h'), stencil = 0x2c003053");
  (4%nat, "[3]: 'fminm.h', mask=0x7000, field_set=0x8, value=0x2000, nfixed=1, extractor=Extractor 'Rfloat', factory=IFactory('fminm.h'), stencil = 0x2c002053");
  (3%nat, "[20]: IFactorySpecialCaseComposite::Field ");
  (4%nat, "[0]: 'fround.s', mask=0x1f00000, field_set=0x2, value=0x400000, nfixed=1, extractor=Extractor 'Rfloat', factory=IFactory('fround.s'), stencil = 0x40400053");
  (4%nat, "[1]: 'froundnx.s', mask=0x1f00000, field_set=0x2, value=0x500000, nfixed=1, extractor=Extractor 'Rfloat', factory=IFactory('froundnx.s'), stencil = 0x40500053");
  (4%nat, "[2]: 'fcvt.s.d', mask=0x1f00000, field_set=0x2, value=0x100000, nfixed=1, extractor=Extractor 'Rfloat', factory=IFactory('fcvt.s.d'), stencil = 0x40100053");
  (4%nat, "[3]: 'fcvt.s.h', mask=0x1f00000, field_set=0x2, value=0x200000, nfixed=1, extractor=Extractor 'Rfloat', factory=IFactory('fcvt.s.h'), stencil = 0x40200053");
  (3%nat, "[21]: IFactorySpecialCaseComposite::Field ");
  (4%nat, "[0]: 'fcvt.d.s', mask=0x1f00000, field_set=0x2, value=0x0, nfixed=1, extractor=Extractor 'Rfloat', factory=IFactory('fcvt.d.s'), stencil = 0x42000053");
  (4%nat, "[1]: 'fround.d', mask=0x1f00000, field_set=0x2, value=0x400000, nfixed=1, extractor=Extractor 'Rfloat', factory=IFactory('fround.d'), stencil = 0x42400053");
  (4%nat, "[2]: 'froundnx.d', mask=0x1f00000, field_set=0x2, value=0x500000, nfixed=1, extractor=Extractor 'Rfloat', factory=IFactory('froundnx.d'), stencil = 0x42500053");
  (4%nat, "[3]: 'fcvt.d.h', mask=0x1f00000, field_set=0x2, value=0x200000, nfixed=1, extractor=Extractor 'Rfloat', factory=IFactory('fcvt.d.h'), stencil = 0x42200053");
  (3%nat, "[22]: IFactorySpecialCaseComposite::Field ");
  (4%nat, "[0]: 'fcvt.h.s', mask=0x1f00000, field_set=0x2, value=0x0, nfixed=1, extractor=Extractor 'Rfloat', factory=IFactory('fcvt.h.s'), stencil = 0x44000053");
  (4%nat, "[1]: 'fround.h', mask=0x1f00000, field_set=0x2, value=0x400000, nfixed=1, extractor=Extractor 'Rfloat', factory=IFactory('fround.h'), stencil = 0x44400053");
  (4%nat, "[2]: 'froundnx.h', mask=0x1f00000, field_set=0x2, value=0x500000, nfixed=1, extractor=Extractor 'Rfloat', factory=IFactory('froundnx.h'), stencil = 0x44500053");
  (4%nat, "[3]: 'fcvt.h.d', mask=0x1f00000, field_set=0x2, value=0x100000, nfixed=1, extractor=Extractor 'Rfloat', factory=IFactory('fcvt.h.d'), stencil = 0x44100053");
  (3%nat, "[2c]: IFactorySpecialCaseComposite::Field ");
  (4%nat, "[0]: 'fsqrt.s', mask=0x1f00000, field_set=0x2, value=0x0, nfixed=1, extractor=Extractor 'Rfloat', factory=IFactory('fsqrt.s'), stencil = 0x58000053");
  (3%nat, "[2d]: IFactorySpecialCaseComposite::Field ");
  (4%nat, "[0]: 'fsqrt.d', mask=0x1f00000, field_set=0x2, value=0x0, nfixed=1, extractor=Extractor 'Rfloat', factory=IFactory('fsqrt.d'), stencil = 0x5a000053");
  (3%nat, "[2e]: IFactorySpecialCaseComposite::Field ");
  (4%nat, "[0]: 'fsqrt.h', mask=0x1f00000, field_set=0x2, value=0x0, nfixed=1, extractor=Extractor 'Rfloat', factory=IFactory('fsqrt.h'), stencil = 0x5c000053");
  (3%nat, "[50]: IFactorySpecialCaseComposite::Field ");
  (4%nat, "[0]: 'fle.s', mask=0x7000, field_set=0x8, value=0x0, nfixed=1, extractor=Extractor 'Rfloat', factory=IFactory('fle.s'), stencil = 0xa0000053");
  (4%nat, "[1]: 'flt.s', mask=0x7000, field_set=0x8, value=0x1000, nfixed=1, extractor=Extractor 'Rfloat', factory=IFactory('flt.s'), stencil = 0xa0001053");
  (4%nat, "[2]: 'feq.s', mask=0x7000, field_set=0x8, value=0x2000, nfixed=1, extractor=Extractor 'Rfloat', factory=IFactory('feq.s'), stencil = 0xa0002053");
  (4%nat, "[3]: 'fleq.s', mask=0x7000, field_set=0x8, value=0x4000, nfixed=1, extractor=Extractor 'Rfloat', factory=IFactory('fleq.s'), stencil = 0xa0004053");
  (4%nat, "[4]: 'fltq.s', mask=0x7000, field_set=0x8, value=0x5000, nfixed=1, extractor=Extractor 'Rfloat', factory=IFactory('fltq.s'), stencil = 0xa0005053");
  (3%nat, "[51]: IFactorySpecialCaseComposite::Field ");
  (4%nat, "[0]: 'fle.d', mask=0x7000, field_set=0x8, value=0x0, nfixed=1, extractor=Extractor 'Rfloat', factory=IFactory('fle.d'), stencil = 0xa2000053");
  (4%nat, "[1]: 'flt.d', mask=0x7000, field_set=0x8, value=0x1000, nfixed=1, extractor=Extractor 'Rfloat', factory=IFactory('flt.d'), stencil = 0xa2001053");
  (4%nat, "[2]: 'feq.d', mask=0x7000, field_set=0x8, value=0x2000, nfixed=1, extractor=Extractor 'Rfloat', factory=IFactory('feq.d'), stencil = 0xa2002053");
  (4%nat, "[3]: 'fleq.d', mask=0x7000, field_set=0x8, value=0x4000, nfixed=1, extractor=Extractor 'Rfloat', factory=IFactory('fleq.d'), stencil = 0xa2004053");
  (4%nat, "[4]: 'fltq.d', mask=0x7000, field_set=0x8, value=0x5000, nfixed=1, extractor=Extractor 'Rfloat', factory=IFactory('fltq.d'), stencil = 0xa2005053");
  (3%nat, "[52]: IFactorySpecialCaseComposite::Field ");
  (4%nat, "[0]: 'fle.h', mask=0x7000, field_set=0x8, value=0x0, nfixed=1, extractor=Extractor 'Rfloat', factory=IFactory('fle.h'), stencil = 0xa4000053");
  (4%nat, "[1]: 'flt.h', mask=0x7000, field_set=0x8, value=0x1000, nfixed=1, extractor=Extractor 'Rfloat', factory=IFactory('flt.h'), stencil = 0xa4001053");
  (4%nat, "[2]: 'feq.h', mask=0x7000, field_set=0x8, value=0x2000, nfixed=1, extractor=Extractor 'Rfloat', factory=IFactory('feq.h'), stencil = 0xa4002053");
  (4%nat, "[3]: 'fleq.h', mask=0x7000, field_set=0x8, value=0x4000, nfixed=1, extractor=Extractor 'Rfloat', factory=IFactory('fleq.h'), stencil = 0xa4004053");
  (4%nat, "[4]: 'fltq.h', mask=0x7000, field_set=0x8, value=0x5000, nfixed=1, extractor=Extractor 'Rfloat', factory=IFactory('fltq.h'), stencil = 0xa4005053");
  (3%nat, "[60]: IFactorySpecialCaseComposite::Field ");
  (4%nat, "[0]: 'fcvt.w.s', mask=0x1f00000, field_set=0x2, value=0x0, nfixed=1, extractor=Extractor 'Rfloat', factory=IFactory('fcvt.w.s'), stencil = 0xc0000053");
  (4%nat, "[1]: 'fcvt.wu.s', mask=0x1f00000, field_set=0x2, value=0x100000, nfixed=1, extractor=Extractor 'Rfloat', factory=IFactory('fcvt.wu.s'), stencil = 0xc0100053");
  (4%nat, "[2]: 'fcvt.l.s', mask=0x1f00000, field_set=0x2, value=0x200000, nfixed=1, extractor=Extractor 'Rfloat', factory=IFactory('fcvt.l.s'), stencil = 0xc0200053");
  (4%nat, "[3]: 'fcvt.lu.s', mask=0x1f00000, field_set=0x2, value=0x300000, nfixed=1, extractor=Extractor 'Rfloat', factory=IFactory('fcvt.lu.s'), stencil = 0xc0300053");
  (3%nat, "[61]: IFactorySpecialCaseComposite::Field ");
  (4%nat, "[0]: 'fcvtmod.w.d', mask=0x1f07000, field_set=0xa, value=0x801000, nfixed=2, extractor=Extractor 'Rfloat', factory=IFactory('fcvtmod.w.d'), stencil = 0xc2801053");
  (4%nat, "[1]: 'fcvt.w.d', mask=0x1f00000, field_set=0x2, value=0x0, nfixed=1, extractor=Extractor 'Rfloat', factory=IFactory('fcvt.w.d'), stencil = 0xc2000053");
  (4%nat, "[2]: 'fcvt.wu.d', mask=0x1f00000, field_set=0x2, value=0x100000, nfixed=1, extractor=Extractor 'Rfloat', factory=IFactory('fcvt.wu.d'), stencil = 0xc2100053");
  (4%nat, "[3]: 'fcvt.l.d', mask=0x1f00000, field_set=0x2, value=0x200000, nfixed=1, extractor=Extractor 'Rfloat', factory=IFactory('fcvt.l.d'), stencil = 0xc2200053");
  (4%nat, "[4]: 'fcvt.lu.d', mask=0x1f00000, field_set=0x2, value=0x300000, nfixed=1, extractor=Extractor 'Rfloat', factory=IFactory('fcvt.lu.d'), stencil = 0xc2300053");
  (3%nat, "[62]: IFactorySpecialCaseComposite::Field ");
  (4%nat, "[0]: 'fcvt.w.h', mask=0x1f00000, field_set=0x2, value=0x0, nfixed=1, extractor=Extractor 'Rfloat', factory=IFactory('fcvt.w.h'), stencil = 0xc4000053");
  (4%nat, "[1]: 'fcvt.wu.h', mask=0x1f00000, field_set=0x2, value=0x100000, nfixed=1, extractor=Extractor 'Rfloat', factory=IFactory('fcvt.wu.h'), stencil = 0xc4100053");
  (4%nat, "[2]: 'fcvt.l.h', mask=0x1f00000, field_set=0x2, value=0x200000, nfixed=1, extractor=Extractor 'Rfloat', factory=IFactory('fcvt.l.h'), stencil = 0xc4200053");
  (4%nat, "[3]: 'fcvt.lu.h', mask=0x1f00000, field_set=0x2, value=0x300000, nfixed=1, extractor=Extractor 'Rfloat', factory=IFactory('fcvt.lu.h'), stencil = 0xc4300053");
  (3%nat, "[68]: IFactorySpecialCaseComposite::Field ");
  (4%nat, "[0]: 'fcvt.s.w', mask=0x1f00000, field_set=0x2, value=0x0, nfixed=1, extractor=Extractor 'Rfloat', factory=IFactory('fcvt.s.w'), stencil = 0xd0000053");
  (4%nat, "[1]: 'fcvt.s.wu', mask=0x1f00000, field_set=0x2, value=0x100000, nfixed=1, extractor=Extractor 'Rfloat', factory=IFactory('fcvt.s.wu'), stencil = 0xd0100053");
  (4%nat, "[2]: 'fcvt.s.l', mask=0x1f00000, field_set=0x2, value=0x200000, nfixed=1, extractor=Extractor 'Rfloat', factory=IFactory('fcvt.s.l'), stencil = 0xd0200053");
  (4%nat, "[3]: 'fcvt.s.lu', mask=0x1f00000, field_set=0x2, value=0x300000, nfixed=1, extractor=Extractor 'Rfloat', factory=IFactory('fcvt.s.lu'), stencil = 0xd0300053");
  (3%nat, "[69]: IFactorySpecialCaseComposite::Field ");
  (4%nat, "[0]: 'fcvt.d.w', mask=0x1f00000, field_set=0x2, value=0x0, nfixed=1, extractor=Extractor 'Rfloat', factory=IFactory('fcvt.d.w'), stencil = 0xd2000053");
  (4%nat, "[1]: 'fcvt.d.wu', mask=0x1f00000, field_set=0x2, value=0x100000, nfixed=1, extractor=Extractor 'Rfloat', factory=IFactory('fcvt.d.wu'), stencil = 0xd2100053");
  (4%nat, "[2]: 'fcvt.d.l', mask=0x1f00000, field_set=0x2, value=0x200000, nfixed=1, extractor=Extractor 'Rfloat', factory=IFactory('fcvt.d.l'), stencil = 0xd2200053");
  (4%nat, "[3]: 'fcvt.d.lu', mask=0x1f00000, field_set=0x2, value=0x300000, nfixed=1, extractor=Extractor 'Rfloat', factory=IFactory('fcvt.d.lu'), stencil = 0xd2300053");
  (3%nat, "[6a]: IFactorySpecialCaseComposite::Field ");
  (4%nat, "[0]: 'fcvt.h.l', mask=0x1f00000, field_set=0x2, value=0x200000, nfixed=1, extractor=Extractor 'Rfloat', factory=IFactory('fcvt.h.l'), stencil = 0xd4200053");
  (4%nat, "[1]: 'fcvt.h.lu', mask=0x1f00000, field_set=0x2, value=0x300000, nfixed=1, extractor=Extractor 'Rfloat', factory=IFactory('fcvt.h.lu'), stencil = 0xd4300053");
  (4%nat, "[2]: 'fcvt.h.w', mask=0x1f00000, field_set=0x2, value=0x0, nfixed=1, extractor=Extractor 'Rfloat', factory=IFactory('fcvt.h.w'), stencil = 0xd4000053");
  (4%nat, "[3]: 'fcvt.h.wu', mask=0x1f00000, field_set=0x2, value=0x100000, nfixed=1, extractor=Extractor 'Rfloat', factory=IFactory('fcvt.h.wu'), stencil = 0xd4100053");
  (3%nat, "[70]: IFactorySpecialCaseComposite::Field ");
  (4%nat, "[0]: 'fmv.x.w', mask=0x1f07000, field_set=0xa, value=0x0, nfixed=2, extractor=Extractor 'Rfloat', factory=IFactory('fmv.x.w'), stencil = 0xe0000053");
  (4%nat, "[1]: 'fclass.s', mask=0x1f07000, field_set=0xa, value=0x1000, nfixed=2, extractor=Extractor 'Rfloat', factory=IFactory('fclass.s'), stencil = 0xe0001053");
  (3%nat, "[71]: IFactorySpecialCaseComposite::Field ");
  (4%nat, "[0]: 'fmv.x.d', mask=0x1f07000, field_set=0xa, value=0x0, nfixed=2, extractor=Extractor 'Rfloat', factory=IFactory('fmv.x.d'), stencil = 0xe2000053");
  (4%nat, "[1]: 'fclass.d', mask=0x1f07000, field_set=0xa, value=0x1000, nfixed=2, extractor=Extractor 'Rfloat', factory=IFactory('fclass.d'), stencil = 0xe2001053");
  (3%nat, "[72]: IFactorySpecialCaseComposite::Field ");
  (4%nat, "[0]: 'fmv.x.h', mask=0x1f07000, field_set=0xa, value=0x0, nfixed=2, extractor=Extractor 'Rfloat', factory=IFactory('fmv.x.h'), stencil = 0xe4000053");
  (4%nat, "[1]: 'fclass.h', mask=0x1f07000, field_set=0xa, value=0x1000, nfixed=2, extractor=Extractor 'Rfloat', factory=IFactory('fclass.h'), stencil = 0xe4001053");
  (3%nat, "[78]: IFactorySpecialCaseComposite::Field ");
  (4%nat, "[0]: 'fmv.w.x', mask=0x1f07000, field_set=0xa, value=0x0, nfixed=2, extractor=Extractor 'Rfloat', factory=IFactory('fmv.w.x'), stencil = 0xf0000053");
  (4%nat, "[1]: 'fli.s', mask=0x1f07000, field_set=0xa, value=0x100000, nfixed=2, extractor=Extractor 'Rfloat', factory=IFactory('fli.s'), stencil = 0xf0100053");
  (3%nat, "[79]: IFactorySpecialCaseComposite::Field ");
  (4%nat, "[0]: 'fmv.d.x', mask=0x1f07000, field_set=0xa, value=0x0, nfixed=2, extractor=Extractor 'Rfloat', factory=IFactory('fmv.d.x'), stencil = 0xf2000053");
  (4%nat, "[1]: 'fli.d', mask=0x1f07000, field_set=0xa, value=0x100000, nfixed=2, extractor=Extractor 'Rfloat', factory=IFactory('fli.d'), stencil = 0xf2100053");
  (3%nat, "[7a]: IFactorySpecialCaseComposite::Field ");
  (4%nat, "[0]: 'fmv.h.x', mask=0x1f07000, field_set=0xa, value=0x0, nfixed=2, extractor=Extractor 'Rfloat', factory=IFactory('fmv.h.x'), stencil = 0xf4000053");
  (4%nat, "[1]: 'fli.h', mask=0x1f07000, field_set=0xa, value=0x100000, nfixed=2, extractor=Extractor 'Rfloat', factory=IFactory('fli.h'), stencil = 0xf4100053");
  (2%nat, "[57]: IFactoryDenseComposite::Field func3a");
  (3%nat, "[0]: IFactoryDenseComposite::Field func1a");
  (4%nat, "[0]: IFactoryDenseComposite::Field func1b");
  (5%nat, "[0]: IFactoryDenseComposite::Field func1c");
  (6%nat, "[0]: IFactoryDenseComposite::Field func3b");
  (7%nat, "[0]: IFactorySpecialCaseComposite::Field ");
  (8%nat, "[default]: 'vadd.vv', extractor=Extractor 'V_op', factory=IFactory('vadd.vv'), stencil = 0x57");
  (7%nat, "[1]: IFactorySpecialCaseComposite::Field ");
  (8%nat, "[default]: 'vfadd.vv', extractor=Extractor 'V_op', factory=IFactory('vfadd.vv'), stencil = 0x1057");
  (7%nat, "[2]: IFactorySpecialCaseComposite::Field ");
  (8%nat, "[default]: 'vredsum.vs', extractor=Extractor 'V_op', factory=IFactory('vredsum.vs'), stencil = 0x2057");
  (7%nat, "[3]: IFactorySpecialCaseComposite::Field ");
  (8%nat, "[default]: 'vadd.vi', extractor=Extractor 'V_simm', factory=IFactory('vadd.vi'), stencil = 0x3057");
  (7%nat, "[4]: IFactorySpecialCaseComposite::Field ");
  (8%nat, "[default]: 'vadd.vx', extractor=Extractor 'V_op', factory=IFactory('vadd.vx'), stencil = 0x4057");
  (7%nat, "[5]: IFactorySpecialCaseComposite::Field ");
  (8%nat, "[default]: 'vfadd.vf', extractor=Extractor 'V_op', factory=IFactory('vfadd.vf'), stencil = 0x5057");
  (6%nat, "[1]: IFactoryDenseComposite::Field func3b");
  (7%nat, "[1]: IFactorySpecialCaseComposite::Field ");
  (8%nat, "[default]: 'vfredusum.vs', extractor=Extractor 'V_op', factory=IFactory('vfredusum.vs'), stencil = 0x4001057");
  (7%nat, "[2]: IFactorySpecialCaseComposite::Field ");
  (8%nat, "[default]: 'vredand.vs', extractor=Extractor 'V_op', factory=IFactory('vredand.vs'), stencil = 0x4002057");
  (5%nat, "[1]: IFactoryDenseComposite::Field func1c");
  (6%nat, "[0]: IFactoryDenseComposite::Field func3b");
  (7%nat, "[0]: IFactorySpecialCaseComposite::Field ");
  (8%nat, "[0]: 'vadc.vvm', mask=0x2000000, field_set=0x10, value=0x0, nfixed=1, extractor=Extractor 'V', factory=IFactory('vadc.vvm'), stencil = 0x40000057");
  (7%nat, "[1]: IFactorySpecialCaseComposite::Field ");
  (8%nat, "[0]: 'vfmv.f.s', mask=0x20f8000, field_set=0x50, value=0x2000000, nfixed=2, extractor=Extractor 'V', factory=IFactory('vfmv.f.s'), stencil = 0x42001057");
  (7%nat, "[2]: IFactorySpecialCaseComposite::Field ");
  (8%nat, "[0]: 'vmv.x.s', mask=0x20f8000, field_set=0x50, value=0x2000000, nfixed=2, extractor=Extractor 'V', factory=IFactory('vmv.x.s'), stencil = 0x42002057");
  (8%nat, "[1]: 'vpopc.m', mask=0xf8000, field_set=0x40, value=0x80000, nfixed=1, extractor=Extractor 'V', factory=IFactory('vpopc.m'), stencil = 0x40082057");
  (8%nat, "[2]: 'vfirst.m', mask=0xf8000, field_set=0x40, value=0x88000, nfixed=1, extractor=Extractor 'V', factory=IFactory('vfirst.m'), stencil = 0x4008a057");
  (7%nat, "[3]: IFactorySpecialCaseComposite::Field ");
  (8%nat, "[0]: 'vadc.vim', mask=0x2000000, field_set=0x10, value=0x0, nfixed=1, extractor=Extractor 'V_simm', factory=IFactory('vadc.vim'), stencil = 0x40003057");
  (7%nat, "[4]: IFactorySpecialCaseComposite::Field ");
  (8%nat, "[0]: 'vadc.vxm', mask=0x2000000, field_set=0x10, value=0x0, nfixed=1, extractor=Extractor 'V', factory=IFactory('vadc.vxm'), stencil = 0x40004057");
  (7%nat, "[5]: IFactorySpecialCaseComposite::Field ");
  (8%nat, "[0]: 'vfmv.s.f', mask=0x3f00000, field_set=0x30, value=0x2000000, nfixed=2, extractor=Extractor 'V', factory=IFactory('vfmv.s.f'), stencil = 0x42005057");
  (7%nat, "[6]: IFactorySpecialCaseComposite::Field ");
  (8%nat, "[0]: 'vmv.s.x', mask=0x3f00000, field_set=0x30, value=0x2000000, nfixed=2, extractor=Extractor 'V', factory=IFactory('vmv.s.x'), stencil = 0x42006057");
  (6%nat, "[1]: IFactoryDenseComposite::Field func3b");
  (7%nat, "[0]: IFactorySpecialCaseComposite::Field ");
  (8%nat, "[default]: 'vmadc.vvm', extractor=Extractor 'V', factory=IFactory('vmadc.vvm'), stencil = 0x44000057");
  (7%nat, "[3]: IFactorySpecialCaseComposite::Field ");
  (8%nat, "[default]: 'vmadc.vim', extractor=Extractor 'V_simm', factory=IFactory('vmadc.vim'), stencil = 0x44003057");
  (7%nat, "[4]: IFactorySpecialCaseComposite::Field ");
  (8%nat, "[default]: 'vmadc.vxm', extractor=Extractor 'V', factory=IFactory('vmadc.vxm'), stencil = 0x44004057");
  (4%nat, "[1]: IFactoryDenseComposite::Field func1b");
  (5%nat, "[0]: IFactoryDenseComposite::Field func1c");
  (6%nat, "[0]: IFactoryDenseComposite::Field func3b");
  (7%nat, "[0]: IFactorySpecialCaseComposite::Field ");
  (8%nat, "[default]: 'vsaddu.vv', extractor=Extractor 'V_op', factory=IFactory('vsaddu.vv'), stencil = 0x80000057");
  (7%nat, "[1]: IFactorySpecialCaseComposite::Field ");
  (8%nat, "[default]: 'vfdiv.vv', extractor=Extractor 'V_op', factory=IFactory('vfdiv.vv'), stencil = 0x80001057");
  (7%nat, "[2]: IFactorySpecialCaseComposite::Field ");
  (8%nat, "[default]: 'vdivu.vv', extractor=Extractor 'V_op', factory=IFactory('vdivu.vv'), stencil = 0x80002057");
  (7%nat, "[3]: IFactorySpecialCaseComposite::Field ");
  (8%nat, "[default]: 'vsaddu.vi', extractor=Extractor 'V_simm', factory=IFactory('vsaddu.vi'), stencil = 0x80003057");
  (7%nat, "[4]: IFactorySpecialCaseComposite::Field ");
  (8%nat, "[default]: 'vsaddu.vx', extractor=Extractor 'V_op', factory=IFactory('vsaddu.vx'), stencil = 0x80004057");
  (7%nat, "[5]: IFactorySpecialCaseComposite::Field ");
  (8%nat, "[default]: 'vfdiv.vf', extractor=Extractor 'V_op', factory=IFactory('vfdiv.vf'), stencil = 0x80005057");
  (7%nat, "[6]: IFactorySpecialCaseComposite::Field ");
  (8%nat, "[default]: 'vdivu.vx', extractor=Extractor 'V_op', factory=IFactory('vdivu.vx'), stencil = 0x80006057");
  (7%nat, "[7]: IFactorySpecialCaseComposite::Field ");
  (8%nat, "[0]: 'vsetvl', mask=0x2000000, field_set=0x10, value=0x0, nfixed=1, extractor=Extractor 'V_vsetvl', factory=IFactory('vsetvl'), stencil = 0x80007057");
  (6%nat, "[1]: IFactoryDenseComposite::Field func3b");
  (7%nat, "[0]: IFactorySpecialCaseComposite::Field ");
  (8%nat, "[default]: 'vsadd.vv', extractor=Extractor 'V_op', factory=IFactory('vsadd.vv'), stencil = 0x84000057");
  (7%nat, "[2]: IFactorySpecialCaseComposite::Field ");
  (8%nat, "[default]: 'vdiv.vv', extractor=Extractor 'V_op', factory=IFactory('vdiv.vv'), stencil = 0x84002057");
  (7%nat, "[3]: IFactorySpecialCaseComposite::Field ");
  (8%nat, "[default]: 'vsadd.vi', extractor=Extractor 'V_simm', factory=IFactory('vsadd.vi'), stencil = 0x84003057");
  (7%nat, "[4]: IFactorySpecialCaseComposite::Field ");
  (8%nat, "[default]: 'vsadd.vx', extractor=Extractor 'V_op', factory=IFactory('vsadd.vx'), stencil = 0x84004057");
  (7%nat, "[5]: IFactorySpecialCaseComposite::Field ");
  (8%nat, "[default]: 'vfrdiv.vf', extractor=Extractor 'V_op', factory=IFactory('vfrdiv.vf'), stencil = 0x84005057");
  (7%nat, "[6]: IFactorySpecialCaseComposite::Field ");
  (8%nat, "[default]: 'vdiv.vx', extractor=Extractor 'V_op', factory=IFactory('vdiv.vx'), stencil = 0x84006057");
  (5%nat, "[1]: IFactoryDenseComposite::Field func1c");
  (6%nat, "[0]: IFactoryDenseComposite::Field func3b");
  (7%nat, "[0]: IFactorySpecialCaseComposite::Field ");
  (8%nat, "[default]: 'vwredsumu.vs', extractor=Extractor 'V_op', factory=IFactory('vwredsumu.vs'), stencil = 0xc0000057");
  (7%nat, "[1]: IFactorySpecialCaseComposite::Field ");
  (8%nat, "[default]: 'vfwadd.vv', extractor=Extractor 'V_op', factory=IFactory('vfwadd.vv'), stencil = 0xc0001057");
  (7%nat, "[2]: IFactorySpecialCaseComposite::Field ");
  (8%nat, "[default]: 'vwaddu.vv', extractor=Extractor 'V_op', factory=IFactory('vwaddu.vv'), stencil = 0xc0002057");
  (7%nat, "[5]: IFactorySpecialCaseComposite::Field ");
  (8%nat, "[default]: 'vfwadd.vf', extractor=Extractor 'V_op', factory=IFactory('vfwadd.vf'), stencil = 0xc0005057");
  (7%nat, "[6]: IFactorySpecialCaseComposite::Field ");
  (8%nat, "[default]: 'vwaddu.vx', extractor=Extractor 'V_op', factory=IFactory('vwaddu.vx'), stencil = 0xc0006057");
  (6%nat, "[1]: IFactoryDenseComposite::Field func3b");
  (7%nat, "[0]: IFactorySpecialCaseComposite::Field ");
  (8%nat, "[default]: 'vwredsum.vs', extractor=Extractor 'V_op', factory=IFactory('vwredsum.vs'), stencil = 0xc4000057");
  (7%nat, "[1]: IFactorySpecialCaseComposite::Field ");
  (8%nat, "[default]: 'vfwredusum.vs', extractor=Extractor 'V_op', factory=IFactory('vfwredusum.vs'), stencil = 0xc4001057");
  (7%nat, "[2]: IFactorySpecialCaseComposite::Field ");
  (8%nat, "[default]: 'vwadd.vv', extractor=Extractor 'V_op', factory=IFactory('vwadd.vv'), stencil = 0xc4002057");
  (7%nat, "[6]: IFactorySpecialCaseComposite::Field ");
  (8%nat, "[default]: 'vwadd.vx', extractor=Extractor 'V_op', factory=IFactory('vwadd.vx'), stencil = 0xc4006057");
  (3%nat, "[1]: IFactoryDenseComposite::Field func1a");
  (4%nat, "[0]: IFactoryDenseComposite::Field func1b");
  (5%nat, "[0]: IFactoryDenseComposite::Field func1c");
  (6%nat, "[0]: IFactoryDenseComposite::Field func3b");
  (7%nat, "[0]: IFactorySpecialCaseComposite::Field ");
  (8%nat, "[default]: 'vsub.vv', extractor=Extractor 'V_op', factory=IFactory('vsub.vv'), stencil = 0x8000057");
  (7%nat, "[1]: IFactorySpecialCaseComposite::Field ");
  (8%nat, "[default]: 'vfsub.vv', extractor=Extractor 'V_op', factory=IFactory('vfsub.vv'), stencil = 0x8001057");
  (7%nat, "[2]: IFactorySpecialCaseComposite::Field ");
  (8%nat, "[default]: 'vredor.vs', extractor=Extractor 'V_op', factory=IFactory('vredor.vs'), stencil = 0x8002057");
  (7%nat, "[4]: IFactorySpecialCaseComposite::Field ");
  (8%nat, "[default]: 'vsub.vx', extractor=Extractor 'V_op', factory=IFactory('vsub.vx'), stencil = 0x8004057");
  (7%nat, "[5]: IFactorySpecialCaseComposite::Field ");
  (8%nat, "[default]: 'vfsub.vf', extractor=Extractor 'V_op', factory=IFactory('vfsub.vf'), stencil = 0x8005057");
  (6%nat, "[1]: IFactoryDenseComposite::Field func3b");
  (7%nat, "[1]: IFactorySpecialCaseComposite::Field ");
  (8%nat, "[default]: 'vfredosum.vs', extractor=Extractor 'V_op', factory=IFactory('vfredosum.vs'), stencil = 0xc001057");
  (7%nat, "[2]: IFactorySpecialCaseComposite::Field ");
  (8%nat, "[default]: 'vredxor.vs', extractor=Extractor 'V_op', factory=IFactory('vredxor.vs'), stencil = 0xc002057");
  (7%nat, "[3]: IFactorySpecialCaseComposite::Field ");
  (8%nat, "[default]: 'vrsub.vi', extractor=Extractor 'V_simm', factory=IFactory('vrsub.vi'), stencil = 0xc003057");
  (7%nat, "[4]: IFactorySpecialCaseComposite::Field ");
  (8%nat, "[default]: 'vrsub.vx', extractor=Extractor 'V_op', factory=IFactory('vrsub.vx'), stencil = 0xc004057");
  (5%nat, "[1]: IFactoryDenseComposite::Field func1c");
  (6%nat, "[0]: IFactoryDenseComposite::Field func3b");
  (7%nat, "[0]: IFactorySpecialCaseComposite::Field ");
  (8%nat, "[0]: 'vsbc.vvm', mask=0x2000000, field_set=0x10, value=0x0, nfixed=1, extractor=Extractor 'V', factory=IFactory('vsbc.vvm'), stencil = 0x48000057");
  (7%nat, "[1]: IFactorySpecialCaseComposite::Field ");
  (8%nat, "[0]: 'vfcvt.xu.f.v', mask=0xf8000, field_set=0x40, value=0x0, nfixed=1, extractor=Extractor 'V', factory=IFactory('vfcvt.xu.f.v'), stencil = 0x48001057");
  (8%nat, "[1]: 'vfcvt.x.f.v', mask=0xf8000, field_set=0x40, value=0x8000, nfixed=1, extractor=Extractor 'V', factory=IFactory('vfcvt.x.f.v'), stencil = 0x48009057");
  (8%nat, "[2]: 'vfcvt.f.xu.v', mask=0xf8000, field_set=0x40, value=0x10000, nfixed=1, extractor=Extractor 'V', factory=IFactory('vfcvt.f.xu.v'), stencil = 0x48011057");
  (8%nat, "[3]: 'vfcvt.f.x.v', mask=0xf8000, field_set=0x40, value=0x18000, nfixed=1, extractor=Extractor 'V', factory=IFactory('vfcvt.f.x.v'), stencil = 0x48019057");
  (8%nat, "[4]: 'vfcvt.rtz.xu.f.v', mask=0xf8000, field_set=0x40, value=0x30000, nfixed=1, extractor=Extractor 'V', factory=IFactory('vfcvt.rtz.xu.f.v'), stencil = 0x48031057");
  (8%nat, "[5]: 'vfcvt.rtz.x.f.v', mask=0xf8000, field_set=0x40, value=0x38000, nfixed=1, extractor=Extractor 'V', factory=IFactory('vfcvt.rtz.x.f.v'), stencil = 0x48039057");
  (8%nat, "[6]: 'vfwcvt.xu.f.v', mask=0xf8000, field_set=0x40, value=0x40000, nfixed=1, extractor=Extractor 'V', factory=IFactory('vfwcvt.xu.f.v'), stencil = 0x48041057");
  (8%nat, "[7]: 'vfwcvt.x.f.v', mask=0xf8000, field_set=0x40, value=0x48000, nfixed=1, extractor=Extractor 'V', factory=IFactory('vfwcvt.x.f.v'), stencil = 0x48049057");
  (8%nat, "[8]: 'vfwcvt.f.xu.v', mask=0xf8000, field_set=0x40, value=0x50000, nfixed=1, extractor=Extractor 'V', factory=IFactory('vfwcvt.f.xu.v'), stencil = 0x48051057");
  (8%nat, "[9]: 'vfwcvt.f.x.v', mask=0xf8000, field_set=0x40, value=0x58000, nfixed=1, extractor=Extractor 'V', factory=IFactory('vfwcvt.f.x.v'), stencil = 0x48059057");
  (8%nat, "[a]: 'vfwcvt.f.f.v', mask=0xf8000, field_set=0x40, value=0x60000, nfixed=1, extractor=Extractor 'V', factory=IFactory('vfwcvt.f.f.v'), stencil = 0x48061057");
  (8%nat, "[b]: 'vfwcvt.rtz.xu.f.v', mask=0xf8000, field_set=0x40, value=0x70000, nfixed=1, extractor=Extractor 'V', factory=IFactory('vfwcvt.rtz.xu.f.v'), stencil = 0x48071057");
  (8%nat, "[c]: 'vfwcvt.rtz.x.f.v', mask=0xf8000, field_set=0x40, value=0x78000, nfixed=1, extractor=Extractor 'V', factory=IFactory('vfwcvt.rtz.x.f.v'), stencil = 0x48079057");
  (8%nat, "[d]: 'vfncvt.xu.f.w', mask=0xf8000, field_set=0x40, value=0x80000, nfixed=1, extractor=Extractor 'V', factory=IFactory('vfncvt.xu.f.w'), stencil = 0x48081057");
  (8%nat, "[e]: 'vfncvt.x.f.w', mask=0xf8000, field_set=0x40, value=0x88000, nfixed=1, extractor=Extractor 'V', factory=IFactory('vfncvt.x.f.w'), stencil = 0x48089057");
  (8%nat, "[f]: 'vfncvt.f.xu.w', mask=0xf8000, field_set=0x40, value=0x90000, nfixed=1, extractor=Extractor 'V', factory=IFactory('vfncvt.f.xu.w'), stencil = 0x48091057");
  (8%nat, "[10]: 'vfncvt.f.x.w', mask=0xf8000, field_set=0x40, value=0x98000, nfixed=1, extractor=Extractor 'V', factory=IFactory('vfncvt.f.x.w'), stencil = 0x48099057");
  (8%nat, "[11]: 'vfncvt.f.f.w', mask=0xf8000, field_set=0x40, value=0xa0000, nfixed=1, extractor=Extractor 'V', factory=IFactory('vfncvt.f.f.w'), stencil = 0x480a1057");
  (8%nat, "[12]: 'vfncvt.rod.f.f.w', mask=0xf8000, field_set=0x40, value=0xa8000, nfixed=1, extractor=Extractor 'V', factory=IFactory('vfncvt.rod.f.f.w'), stencil = 0x480a9057");
  (8%nat, "[13]: 'vfncvt.rtz.xu.f.w', mask=0xf8000, field_set=0x40, value=0xb0000, nfixed=1, extractor=Extractor 'V', factory=IFactory('vfncvt.rtz.xu.f.w'), stencil = 0x480b1057");
  (8%nat, "[14]: 'vfncvt.rtz.x.f.w', mask=0xf8000, field_set=0x40, value=0xb8000, nfixed=1, extractor=Extractor 'V', factory=IFactory('vfncvt.rtz.x.f.w'), stencil = 0x480b9057");
  (7%nat, "[2]: IFactorySpecialCaseComposite::Field ");
  (8%nat, "[0]: 'vzext.vf8', mask=0xf8000, field_set=0x40, value=0x10000, nfixed=1, extractor=Extractor 'V', factory=IFactory('vzext.vf8'), stencil = 0x48012057");
  (8%nat, "[1]: 'vsext.vf8', mask=0xf8000, field_set=0x40, value=0x18000, nfixed=1, extractor=Extractor 'V', factory=IFactory('vsext.vf8'), stencil = 0x4801a057");
  (8%nat, "[2]: 'vzext.vf4', mask=0xf8000, field_set=0x40, value=0x20000, nfixed=1, extractor=Extractor 'V', factory=IFactory('vzext.vf4'), stencil = 0x48022057");
  (8%nat, "[3]: 'vsext.vf4', mask=0xf8000, field_set=0x40, value=0x28000, nfixed=1, extractor=Extractor 'V', factory=IFactory('vsext.vf4'), stencil = 0x4802a057");
  (8%nat, "[4]: 'vzext.vf2', mask=0xf8000, field_set=0x40, value=0x30000, nfixed=1, extractor=Extractor 'V', factory=IFactory('vzext.vf2'), stencil = 0x48032057");
  (8%nat, "[5]: 'vsext.vf2', mask=0xf8000, field_set=0x40, value=0x38000, nfixed=1, extractor=Extractor 'V', factory=IFactory('vsext.vf2'), stencil = 0x4803a057");
  (7%nat, "[4]: IFactorySpecialCaseComposite::Field ");
  (8%nat, "[0]: 'vsbc.vxm', mask=0x2000000, field_set=0x10, value=0x0, nfixed=1, extractor=Extractor 'V', factory=IFactory('vsbc.vxm'), stencil = 0x48004057");
  (6%nat, "[1]: IFactoryDenseComposite::Field func3b");
  (7%nat, "[0]: IFactorySpecialCaseComposite::Field ");
  (8%nat, "[default]: 'vmsbc.vvm', extractor=Extractor 'V', factory=IFactory('vmsbc.vvm'), stencil = 0x4c000057");
  (7%nat, "[1]: IFactorySpecialCaseComposite::Field ");
  (8%nat, "[0]: 'vfsqrt.v', mask=0xf8000, field_set=0x40, value=0x0, nfixed=1, extractor=Extractor 'V', factory=IFactory('vfsqrt.v'), stencil = 0x4c001057");
  (8%nat, "[1]: 'vfrsqrt7.v', mask=0xf8000, field_set=0x40, value=0x20000, nfixed=1, extractor=Extractor 'V', factory=IFactory('vfrsqrt7.v'), stencil = 0x4c021057");
  (8%nat, "[2]: 'vfrec7.v', mask=0xf8000, field_set=0x40, value=0x28000, nfixed=1, extractor=Extractor 'V', factory=IFactory('vfrec7.v'), stencil = 0x4c029057");
  (8%nat, "[3]: 'vfclass.v', mask=0xf8000, field_set=0x40, value=0x80000, nfixed=1, extractor=Extractor 'V', factory=IFactory('vfclass.v'), stencil = 0x4c081057");
  (7%nat, "[4]: IFactorySpecialCaseComposite::Field ");
  (8%nat, "[default]: 'vmsbc.vxm', extractor=Extractor 'V', factory=IFactory('vmsbc.vxm'), stencil = 0x4c004057");
  (4%nat, "[1]: IFactoryDenseComposite::Field func1b");
  (5%nat, "[0]: IFactoryDenseComposite::Field func1c");
  (6%nat, "[0]: IFactoryDenseComposite::Field func3b");
  (7%nat, "[0]: IFactorySpecialCaseComposite::Field ");
  (8%nat, "[default]: 'vssubu.vv', extractor=Extractor 'V_op', factory=IFactory('vssubu.vv'), stencil = 0x88000057");
  (7%nat, "[2]: IFactorySpecialCaseComposite::Field ");
  (8%nat, "[default]: 'vremu.vv', extractor=Extractor 'V_op', factory=IFactory('vremu.vv'), stencil = 0x88002057");
  (7%nat, "[4]: IFactorySpecialCaseComposite::Field ");
  (8%nat, "[default]: 'vssubu.vx', extractor=Extractor 'V_op', factory=IFactory('vssubu.vx'), stencil = 0x88004057");
  (7%nat, "[6]: IFactorySpecialCaseComposite::Field ");
  (8%nat, "[default]: 'vremu.vx', extractor=Extractor 'V_op', factory=IFactory('vremu.vx'), stencil = 0x88006057");
  (6%nat, "[1]: IFactoryDenseComposite::Field func3b");
  (7%nat, "[0]: IFactorySpecialCaseComposite::Field ");
  (8%nat, "[default]: 'vssub.vv', extractor=Extractor 'V_op', factory=IFactory('vssub.vv'), stencil = 0x8c000057");
  (7%nat, "[2]: IFactorySpecialCaseComposite::Field ");
  (8%nat, "[default]: 'vrem.vv', extractor=Extractor 'V_op', factory=IFactory('vrem.vv'), stencil = 0x8c002057");
  (7%nat, "[4]: IFactorySpecialCaseComposite::Field ");
  (8%nat, "[default]: 'vssub.vx', extractor=Extractor 'V_op', factory=IFactory('vssub.vx'), stencil = 0x8c004057");
  (7%nat, "[6]: IFactorySpecialCaseComposite::Field ");
  (8%nat, "[default]: 'vrem.vx', extractor=Extractor 'V_op', factory=IFactory('vrem.vx'), stencil = 0x8c006057");
  (5%nat, "[1]: IFactoryDenseComposite::Field func1c");
  (6%nat, "[0]: IFactoryDenseComposite::Field func3b");
  (7%nat, "[1]: IFactorySpecialCaseComposite::Field ");
  (8%nat, "[default]: 'vfwsub.vv', extractor=Extractor 'V_op', factory=IFactory('vfwsub.vv'), stencil = 0xc8001057");
  (7%nat, "[2]: IFactorySpecialCaseComposite::Field ");
  (8%nat, "[default]: 'vwsubu.vv', extractor=Extractor 'V_op', factory=IFactory('vwsubu.vv'), stencil = 0xc8002057");
  (7%nat, "[5]: IFactorySpecialCaseComposite::Field ");
  (8%nat, "[default]: 'vfwsub.vf', extractor=Extractor 'V_op', factory=IFactory('vfwsub.vf'), stencil = 0xc8005057");
  (7%nat, "[6]: IFactorySpecialCaseComposite::Field ");
  (8%nat, "[default]: 'vwsubu.vx', extractor=Extractor 'V_op', factory=IFactory('vwsubu.vx'), stencil = 0xc8006057");
  (6%nat, "[1]: IFactoryDenseComposite::Field func3b");
  (7%nat, "[1]: IFactorySpecialCaseComposite::Field ");
  (8%nat, "[default]: 'vfwredosum.vs', extractor=Extractor 'V_op', factory=IFactory('vfwredosum.vs'), stencil = 0xcc001057");
  (7%nat, "[2]: IFactorySpecialCaseComposite::Field ");
  (8%nat, "[default]: 'vwsub.vv', extractor=Extractor 'V_op', factory=IFactory('vwsub.vv'), stencil = 0xcc002057");
  (7%nat, "[6]: IFactorySpecialCaseComposite::Field ");
  (8%nat, "[default]: 'vwsub.vx', extractor=Extractor 'V_op', factory=IFactory('vwsub.vx'), stencil = 0xcc006057");
  (3%nat, "[2]: IFactoryDenseComposite::Field func1a");
  (4%nat, "[0]: IFactoryDenseComposite::Field func1b");
  (5%nat, "[0]: IFactoryDenseComposite::Field func1c");
  (6%nat, "[0]: IFactoryDenseComposite::Field func3b");
  (7%nat, "[0]: IFactorySpecialCaseComposite::Field ");
  (8%nat, "[default]: 'vminu.vv', extractor=Extractor 'V_op', factory=IFactory('vminu.vv'), stencil = 0x10000057");
  (7%nat, "[1]: IFactorySpecialCaseComposite::Field ");
  (8%nat, "[default]: 'vfmin.vv', extractor=Extractor 'V_op', factory=IFactory('vfmin.vv'), stencil = 0x10001057");
  (7%nat, "[2]: IFactorySpecialCaseComposite::Field ");
  (8%nat, "[default]: 'vredminu.vs', extractor=Extractor 'V_op', factory=IFactory('vredminu.vs'), stencil = 0x10002057");
  (7%nat, "[4]: IFactorySpecialCaseComposite::Field ");
  (8%nat, "[default]: 'vminu.vx', extractor=Extractor 'V_op', factory=IFactory('vminu.vx'), stencil = 0x10004057");
  (7%nat, "[5]: IFactorySpecialCaseComposite::Field ");
  (8%nat, "[default]: 'vfmin.vf', extractor=Extractor 'V_op', factory=IFactory('vfmin.vf'), stencil = 0x10005057");
  (6%nat, "[1]: IFactoryDenseComposite::Field func3b");
  (7%nat, "[0]: IFactorySpecialCaseComposite::Field ");
  (8%nat, "[default]: 'vmin.vv', extractor=Extractor 'V_op', factory=IFactory('vmin.vv'), stencil = 0x14000057");
  (7%nat, "[1]: IFactorySpecialCaseComposite::Field ");
  (8%nat, "[default]: 'vfredmin.vs', extractor=Extractor 'V_op', factory=IFactory('vfredmin.vs'), stencil = 0x14001057");
  (7%nat, "[2]: IFactorySpecialCaseComposite::Field ");
  (8%nat, "[default]: 'vredmin.vs', extractor=Extractor 'V_op', factory=IFactory('vredmin.vs'), stencil = 0x14002057");
  (7%nat, "[4]: IFactorySpecialCaseComposite::Field ");
  (8%nat, "[default]: 'vmin.vx', extractor=Extractor 'V_op', factory=IFactory('vmin.vx'), stencil = 0x14004057");
  (5%nat, "[1]: IFactoryDenseComposite::Field func1c");
  (6%nat, "[0]: IFactoryDenseComposite::Field func3b");
  (7%nat, "[2]: IFactorySpecialCaseComposite::Field ");
  (8%nat, "[0]: 'vid.v', mask=0x1ff8000, field_set=0x60, value=0x88000, nfixed=2, extractor=Extractor 'V', factory=IFactory('vid.v'), stencil = 0x5008a057");
  (8%nat, "[1]: 'vmsbf.m', mask=0xf8000, field_set=0x40, value=0x8000, nfixed=1, extractor=Extractor 'V', factory=IFactory('vmsbf.m'), stencil = 0x5000a057");
  (8%nat, "[2]: 'vmsof.m', mask=0xf8000, field_set=0x40, value=0x10000, nfixed=1, extractor=Extractor 'V', factory=IFactory('vmsof.m'), stencil = 0x50012057");
  (8%nat, "[3]: 'vmsif.m', mask=0xf8000, field_set=0x40, value=0x18000, nfixed=1, extractor=Extractor 'V', factory=IFactory('vmsif.m'), stencil = 0x5001a057");
  (8%nat, "[4]: 'viota.m', mask=0xf8000, field_set=0x40, value=0x80000, nfixed=1, extractor=Extractor 'V', factory=IFactory('viota.m'), stencil = 0x50082057");
  (4%nat, "[1]: IFactoryDenseComposite::Field func1b");
  (5%nat, "[0]: IFactoryDenseComposite::Field func1c");
  (6%nat, "[0]: IFactoryDenseComposite::Field func3b");
  (7%nat, "[1]: IFactorySpecialCaseComposite::Field ");
  (8%nat, "[default]: 'vfmul.vv', extractor=Extractor 'V_op', factory=IFactory('vfmul.vv'), stencil = 0x90001057");
  (7%nat, "[2]: IFactorySpecialCaseComposite::Field ");
  (8%nat, "[default]: 'vmulhu.vv', extractor=Extractor 'V_op', factory=IFactory('vmulhu.vv'), stencil = 0x90002057");
  (7%nat, "[5]: IFactorySpecialCaseComposite::Field ");
  (8%nat, "[default]: 'vfmul.vf', extractor=Extractor 'V_op', factory=IFactory('vfmul.vf'), stencil = 0x90005057");
  (7%nat, "[6]: IFactorySpecialCaseComposite::Field ");
  (8%nat, "[default]: 'vmulhu.vx', extractor=Extractor 'V_op', factory=IFactory('vmulhu.vx'), stencil = 0x90006057");
  (6%nat, "[1]: IFactoryDenseComposite::Field func3b");
  (7%nat, "[0]: IFactorySpecialCaseComposite::Field ");
  (8%nat, "[default]: 'vsll.vv', extractor=Extractor 'V_op', factory=IFactory('vsll.vv'), stencil = 0x94000057");
  (7%nat, "[2]: IFactorySpecialCaseComposite::Field ");
  (8%nat, "[default]: 'vmul.vv', extractor=Extractor 'V_op', factory=IFactory('vmul.vv'), stencil = 0x94002057");
  (7%nat, "[3]: IFactorySpecialCaseComposite::Field ");
  (8%nat, "[default]: 'vsll.vi', extractor=Extractor 'V_uimm', factory=IFactory('vsll.vi'), stencil = 0x94003057");
  (7%nat, "[4]: IFactorySpecialCaseComposite::Field ");
  (8%nat, "[default]: 'vsll.vx', extractor=Extractor 'V_op', factory=IFactory('vsll.vx'), stencil = 0x94004057");
  (7%nat, "[6]: IFactorySpecialCaseComposite::Field ");
  (8%nat, "[default]: 'vmul.vx', extractor=Extractor 'V_op', factory=IFactory('vmul.vx'), stencil = 0x94006057");
  (5%nat, "[1]: IFactoryDenseComposite::Field func1c");
  (6%nat, "[0]: IFactoryDenseComposite::Field func3b");
  (7%nat, "[1]: IFactorySpecialCaseComposite::Field ");
  (8%nat, "[default]: 'vfwadd.wv', extractor=Extractor 'V', factory=IFactory('vfwadd.wv'), stencil = 0xd0001057");
  (7%nat, "[2]: IFactorySpecialCaseComposite::Field ");
  (8%nat, "[default]: 'vwaddu.wv', extractor=Extractor 'V_op', factory=IFactory('vwaddu.wv'), stencil = 0xd0002057");
  (7%nat, "[5]: IFactorySpecialCaseComposite::Field ");
  (8%nat, "[default]: 'vfwadd.wf', extractor=Extractor 'V', factory=IFactory('vfwadd.wf'), stencil = 0xd0005057");
  (7%nat, "[6]: IFactorySpecialCaseComposite::Field ");
  (8%nat, "[default]: 'vwaddu.wx', extractor=Extractor 'V_op', factory=IFactory('vwaddu.wx'), stencil = 0xd0006057");
  (6%nat, "[1]: IFactoryDenseComposite::Field func3b");
  (7%nat, "[2]: IFactorySpecialCaseComposite::Field ");
  (8%nat, "[default]: 'vwadd.wv', extractor=Extractor 'V_op', factory=IFactory('vwadd.wv'), stencil = 0xd4002057");
  (7%nat, "[6]: IFactorySpecialCaseComposite::Field ");
  (8%nat, "[default]: 'vwadd.wx', extractor=Extractor 'V_op', factory=IFactory('vwadd.wx'), stencil = 0xd4006057");
  (3%nat, "[3]: IFactoryDenseComposite::Field func1a");
  (4%nat, "[0]: IFactoryDenseComposite::Field func1b");
  (5%nat, "[0]: IFactoryDenseComposite::Field func1c");
  (6%nat, "[0]: IFactoryDenseComposite::Field func3b");
  (7%nat, "[0]: IFactorySpecialCaseComposite::Field ");
  (8%nat, "[default]: 'vmaxu.vv', extractor=Extractor 'V_op', factory=IFactory('vmaxu.vv'), stencil = 0x18000057");
  (7%nat, "[1]: IFactorySpecialCaseComposite::Field ");
  (8%nat, "[default]: 'vfmax.vv', extractor=Extractor 'V_op', factory=IFactory('vfmax.vv'), stencil = 0x18001057");
  (7%nat, "[2]: IFactorySpecialCaseComposite::Field ");
  (8%nat, "[default]: 'vredmaxu.vs', extractor=Extractor 'V_op', factory=IFactory('vredmaxu.vs'), stencil = 0x18002057");
  (7%nat, "[4]: IFactorySpecialCaseComposite::Field ");
  (8%nat, "[default]: 'vmaxu.vx', extractor=Extractor 'V_op', factory=IFactory('vmaxu.vx'), stencil = 0x18004057");
  (7%nat, "[5]: IFactorySpecialCaseComposite::Field ");
  (8%nat, "[default]: 'vfmax.vf', extractor=Extractor 'V_op', factory=IFactory('vfmax.vf'), stencil = 0x18005057");
  (6%nat, "[1]: IFactoryDenseComposite::Field func3b");
  (7%nat, "[0]: IFactorySpecialCaseComposite::Field ");
  (8%nat, "[default]: 'vmax.vv', extractor=Extractor 'V_op', factory=IFactory('vmax.vv'), stencil = 0x1c000057");
  (7%nat, "[1]: IFactorySpecialCaseComposite::Field ");
  (8%nat, "[default]: 'vfredmax.vs', extractor=Extractor 'V_op', factory=IFactory('vfredmax.vs'), stencil = 0x1c001057");
  (7%nat, "[2]: IFactorySpecialCaseComposite::Field ");
  (8%nat, "[default]: 'vredmax.vs', extractor=Extractor 'V_op', factory=IFactory('vredmax.vs'), stencil = 0x1c002057");
  (7%nat, "[4]: IFactorySpecialCaseComposite::Field ");
  (8%nat, "[default]: 'vmax.vx', extractor=Extractor 'V_op', factory=IFactory('vmax.vx'), stencil = 0x1c004057");
  (5%nat, "[1]: IFactoryDenseComposite::Field func1c");
  (6%nat, "[1]: IFactoryDenseComposite::Field func3b");
  (7%nat, "[0]: IFactorySpecialCaseComposite::Field ");
  (8%nat, "[0]: 'vmv.v.v', mask=0x3f00000, field_set=0x30, value=0x2000000, nfixed=2, extractor=Extractor 'V', factory=IFactory('vmv.v.v'), stencil = 0x5e000057");
  (8%nat, "[1]: 'vmerge.vvm', mask=0x2000000, field_set=0x10, value=0x0, nfixed=1, extractor=Extractor 'V', factory=IFactory('vmerge.vvm'), stencil = 0x5c000057");
  (7%nat, "[2]: IFactorySpecialCaseComposite::Field ");
  (8%nat, "[0]: 'vcompress.vm', mask=0x2000000, field_set=0x10, value=0x2000000, nfixed=1, extractor=Extractor 'V', factory=IFactory('vcompress.vm'), stencil = 0x5e002057");
  (7%nat, "[3]: IFactorySpecialCaseComposite::Field ");
  (8%nat, "[0]: 'vmv.v.i', mask=0x3f00000, field_set=0x30, value=0x2000000, nfixed=2, extractor=Extractor 'V_simm', factory=IFactory('vmv.v.i'), stencil = 0x5e003057");
  (8%nat, "[1]: 'vmerge.vim', mask=0x2000000, field_set=0x10, value=0x0, nfixed=1, extractor=Extractor 'V_simm', factory=IFactory('vmerge.vim'), stencil = 0x5c003057");
  (7%nat, "[4]: IFactorySpecialCaseComposite::Field ");
  (8%nat, "[0]: 'vmv.v.x', mask=0x3f00000, field_set=0x30, value=0x2000000, nfixed=2, extractor=Extractor 'V', factory=IFactory('vmv.v.x'), stencil = 0x5e004057");
  (8%nat, "[1]: 'vmerge.vxm', mask=0x2000000, field_set=0x10, value=0x0, nfixed=1, extractor=Extractor 'V', factory=IFactory('vmerge.vxm'), stencil = 0x5c004057");
  (7%nat, "[5]: IFactorySpecialCaseComposite::Field ");
  (8%nat, "[0]: 'vfmv.v.f', mask=0x3f00000, field_set=0x30, value=0x2000000, nfixed=2, extractor=Extractor 'V', factory=IFactory('vfmv.v.f'), stencil = 0x5e005057");
  (8%nat, "[1]: 'vfmerge.vfm', mask=0x2000000, field_set=0x10, value=0x0, nfixed=1, extractor=Extractor 'V', factory=IFactory('vfmerge.vfm'), stencil = 0x5c005057");
  (4%nat, "[1]: IFactoryDenseComposite::Field func1b");
  (5%nat, "[0]: IFactoryDenseComposite::Field func1c");
  (6%nat, "[0]: IFactoryDenseComposite::Field func3b");
  (7%nat, "[2]: IFactorySpecialCaseComposite::Field ");
  (8%nat, "[default]: 'vmulhsu.vv', extractor=Extractor 'V_op', factory=IFactory('vmulhsu.vv'), stencil = 0x98002057");
  (7%nat, "[6]: IFactorySpecialCaseComposite::Field ");
  (8%nat, "[default]: 'vmulhsu.vx', extractor=Extractor 'V_op', factory=IFactory('vmulhsu.vx'), stencil = 0x98006057");
  (6%nat, "[1]: IFactoryDenseComposite::Field func3b");
  (7%nat, "[0]: IFactorySpecialCaseComposite::Field ");
  (8%nat, "[default]: 'vsmul.vv', extractor=Extractor 'V_op', factory=IFactory('vsmul.vv'), stencil = 0x9c000057");
  (7%nat, "[2]: IFactorySpecialCaseComposite::Field ");
  (8%nat, "[default]: 'vmulh.vv', extractor=Extractor 'V_op', factory=IFactory('vmulh.vv'), stencil = 0x9c002057");
  (7%nat, "[3]: IFactorySpecialCaseComposite::Field ");
  (8%nat, "[0]: 'vmv1r.v', mask=0x20f8000, field_set=0x50, value=0x2000000, nfixed=2, extractor=Extractor 'V', factory=IFactory('vmv1r.v'), stencil = 0x9e003057");
  (8%nat, "[1]: 'vmv2r.v', mask=0x20f8000, field_set=0x50, value=0x2008000, nfixed=2, extractor=Extractor 'V', factory=IFactory('vmv2r.v'), stencil = 0x9e00b057");
  (8%nat, "[2]: 'vmv4r.v', mask=0x20f8000, field_set=0x50, value=0x2018000, nfixed=2, extractor=Extractor 'V', factory=IFactory('vmv4r.v'), stencil = 0x9e01b057");
  (8%nat, "[3]: 'vmv8r.v', mask=0x20f8000, field_set=0x50, value=0x2038000, nfixed=2, extractor=Extractor 'V', factory=IFactory('vmv8r.v'), stencil = 0x9e03b057");
  (7%nat, "[4]: IFactorySpecialCaseComposite::Field ");
  (8%nat, "[default]: 'vsmul.vx', extractor=Extractor 'V_op', factory=IFactory('vsmul.vx'), stencil = 0x9c004057");
  (7%nat, "[5]: IFactorySpecialCaseComposite::Field ");
  (8%nat, "[default]: 'vfrsub.vf', extractor=Extractor 'V_op', factory=IFactory('vfrsub.vf'), stencil = 0x9c005057");
  (7%nat, "[6]: IFactorySpecialCaseComposite::Field ");
  (8%nat, "[default]: 'vmulh.vx', extractor=Extractor 'V_op', factory=IFactory('vmulh.vx'), stencil = 0x9c006057");
  (5%nat, "[1]: IFactoryDenseComposite::Field func1c");
  (6%nat, "[0]: IFactoryDenseComposite::Field func3b");
  (7%nat, "[1]: IFactorySpecialCaseComposite::Field ");
  (8%nat, "[default]: 'vfwsub.wv', extractor=Extractor 'V', factory=IFactory('vfwsub.wv'), stencil = 0xd8001057");
  (7%nat, "[2]: IFactorySpecialCaseComposite::Field ");
  (8%nat, "[default]: 'vwsubu.wv', extractor=Extractor 'V_op', factory=IFactory('vwsubu.wv'), stencil = 0xd8002057");
  (7%nat, "[5]: IFactorySpecialCaseComposite::Field ");
  (8%nat, "[default]: 'vfwsub.wf', extractor=Extractor 'V', factory=IFactory('vfwsub.wf'), stencil = 0xd8005057");
  (7%nat, "[6]: IFactorySpecialCaseComposite::Field ");
  (8%nat, "[default]: 'vwsubu.wx', extractor=Extractor 'V_op', factory=IFactory('vwsubu.wx'), stencil = 0xd8006057");
  (6%nat, "[1]: IFactoryDenseComposite::Field func3b");
  (7%nat, "[2]: IFactorySpecialCaseComposite::Field ");
  (8%nat, "[default]: 'vwsub.wv', extractor=Extractor 'V_op', factory=IFactory('vwsub.wv'), stencil = 0xdc002057");
  (7%nat, "[6]: IFactorySpecialCaseComposite::Field ");
  (8%nat, "[default]: 'vwsub.wx', extractor=Extractor 'V_op', factory=IFactory('vwsub.wx'), stencil = 0xdc006057");
  (3%nat, "[4]: IFactoryDenseComposite::Field func1a");
  (4%nat, "[0]: IFactoryDenseComposite::Field func1b");
  (5%nat, "[0]: IFactoryDenseComposite::Field func1c");
  (6%nat, "[0]: IFactoryDenseComposite::Field func3b");
  (7%nat, "[1]: IFactorySpecialCaseComposite::Field ");
  (8%nat, "[default]: 'vfsgnj.vv', extractor=Extractor 'V_op', factory=IFactory('vfsgnj.vv'), stencil = 0x20001057");
  (7%nat, "[2]: IFactorySpecialCaseComposite::Field ");
  (8%nat, "[default]: 'vaaddu.vv', extractor=Extractor 'V_op', factory=IFactory('vaaddu.vv'), stencil = 0x20002057");
  (7%nat, "[5]: IFactorySpecialCaseComposite::Field ");
  (8%nat, "[default]: 'vfsgnj.vf', extractor=Extractor 'V_op', factory=IFactory('vfsgnj.vf'), stencil = 0x20005057");
  (7%nat, "[6]: IFactorySpecialCaseComposite::Field ");
  (8%nat, "[default]: 'vaaddu.vx', extractor=Extractor 'V_op', factory=IFactory('vaaddu.vx'), stencil = 0x20006057");
  (6%nat, "[1]: IFactoryDenseComposite::Field func3b");
  (7%nat, "[0]: IFactorySpecialCaseComposite::Field ");
  (8%nat, "[default]: 'vand.vv', extractor=Extractor 'V_op', factory=IFactory('vand.vv'), stencil = 0x24000057");
  (7%nat, "[1]: IFactorySpecialCaseComposite::Field ");
  (8%nat, "[default]: 'vfsgnjn.vv', extractor=Extractor 'V_op', factory=IFactory('vfsgnjn.vv'), stencil = 0x24001057");
  (7%nat, "[2]: IFactorySpecialCaseComposite::Field ");
  (8%nat, "[default]: 'vaadd.vv', extractor=Extractor 'V_op', factory=IFactory('vaadd.vv'), stencil = 0x24002057");
  (7%nat, "[3]: IFactorySpecialCaseComposite::Field ");
  (8%nat, "[default]: 'vand.vi', extractor=Extractor 'V_simm', factory=IFactory('vand.vi'), stencil = 0x24003057");
  (7%nat, "[4]: IFactorySpecialCaseComposite::Field ");
  (8%nat, "[default]: 'vand.vx', extractor=Extractor 'V_op', factory=IFactory('vand.vx'), stencil = 0x24004057");
  (7%nat, "[5]: IFactorySpecialCaseComposite::Field ");
  (8%nat, "[default]: 'vfsgnjn.vf', extractor=Extractor 'V_op', factory=IFactory('vfsgnjn.vf'), stencil = 0x24005057");
  (7%nat, "[6]: IFactorySpecialCaseComposite::Field ");
  (8%nat, "[default]: 'vaadd.vx', extractor=Extractor 'V_op', factory=IFactory('vaadd.vx'), stencil = 0x24006057");
  (5%nat, "[1]: IFactoryDenseComposite::Field func1c");
  (6%nat, "[0]: IFactoryDenseComposite::Field func3b");
  (7%nat, "[0]: IFactorySpecialCaseComposite::Field ");
  (8%nat, "[default]: 'vmseq.vv', extractor=Extractor 'V_op', factory=IFactory('vmseq.vv'), stencil = 0x60000057");
  (7%nat, "[1]: IFactorySpecialCaseComposite::Field ");
  (8%nat, "[default]: 'vmfeq.vv', extractor=Extractor 'V_op', factory=IFactory('vmfeq.vv'), stencil = 0x60001057");
  (7%nat, "[2]: IFactorySpecialCaseComposite::Field ");
  (8%nat, "[default]: 'vmandn.mm', extractor=Extractor 'V', factory=IFactory('vmandn.mm'), stencil = 0x60002057");
  (7%nat, "[3]: IFactorySpecialCaseComposite::Field ");
  (8%nat, "[default]: 'vmseq.vi', extractor=Extractor 'V_simm', factory=IFactory('vmseq.vi'), stencil = 0x60003057");
  (7%nat, "[4]: IFactorySpecialCaseComposite::Field ");
  (8%nat, "[default]: 'vmseq.vx', extractor=Extractor 'V_op', factory=IFactory('vmseq.vx'), stencil = 0x60004057");
  (7%nat, "[5]: IFactorySpecialCaseComposite::Field ");
  (8%nat, "[default]: 'vmfeq.vf', extractor=Extractor 'V_op', factory=IFactory('vmfeq.vf'), stencil = 0x60005057");
  (6%nat, "[1]: IFactoryDenseComposite::Field func3b");
  (7%nat, "[0]: IFactorySpecialCaseComposite::Field ");
  (8%nat, "[default]: 'vmsne.vv', extractor=Extractor 'V_op', factory=IFactory('vmsne.vv'), stencil = 0x64000057");
  (7%nat, "[1]: IFactorySpecialCaseComposite::Field ");
  (8%nat, "[default]: 'vmfle.vv', extractor=Extractor 'V_op', factory=IFactory('vmfle.vv'), stencil = 0x64001057");
  (7%nat, "[2]: IFactorySpecialCaseComposite::Field ");
  (8%nat, "[default]: 'vmand.mm', extractor=Extractor 'V', factory=IFactory('vmand.mm'), stencil = 0x64002057");
  (7%nat, "[3]: IFactorySpecialCaseComposite::Field ");
  (8%nat, "[default]: 'vmsne.vi', extractor=Extractor 'V_simm', factory=IFactory('vmsne.vi'), stencil = 0x64003057");
  (7%nat, "[4]: IFactorySpecialCaseComposite::Field ");
  (8%nat, "[default]: 'vmsne.vx', extractor=Extractor 'V_op', factory=IFactory('vmsne.vx'), stencil = 0x64004057");
  (7%nat, "[5]: IFactorySpecialCaseComposite::Field ");
  (8%nat, "[default]: 'vmfle.vf', extractor=Extractor 'V_op', factory=IFactory('vmfle.vf'), stencil = 0x64005057");
  (4%nat, "[1]: IFactoryDenseComposite::Field func1b");
  (5%nat, "[0]: IFactoryDenseComposite::Field func1c");
  (6%nat, "[0]: IFactoryDenseComposite::Field func3b");
  (7%nat, "[0]: IFactorySpecialCaseComposite::Field ");
  (8%nat, "[default]: 'vsrl.vv', extractor=Extractor 'V_op', factory=IFactory('vsrl.vv'), stencil = 0xa0000057");
  (7%nat, "[1]: IFactorySpecialCaseComposite::Field ");
  (8%nat, "[default]: 'vfmadd.vv', extractor=Extractor 'V_implied', factory=IFactory('vfmadd.vv'), stencil = 0xa0001057");
  (7%nat, "[3]: IFactorySpecialCaseComposite::Field ");
  (8%nat, "[default]: 'vsrl.vi', extractor=Extractor 'V_uimm', factory=IFactory('vsrl.vi'), stencil = 0xa0003057");
  (7%nat, "[4]: IFactorySpecialCaseComposite::Field ");
  (8%nat, "[default]: 'vsrl.vx', extractor=Extractor 'V_op', factory=IFactory('vsrl.vx'), stencil = 0xa0004057");
  (7%nat, "[5]: IFactorySpecialCaseComposite::Field ");
  (8%nat, "[default]: 'vfmadd.vf', extractor=Extractor 'V_implied', factory=IFactory('vfmadd.vf'), stencil = 0xa0005057");
  (6%nat, "[1]: IFactoryDenseComposite::Field func3b");
  (7%nat, "[0]: IFactorySpecialCaseComposite::Field ");
  (8%nat, "[default]: 'vsra.vv', extractor=Extractor 'V_op', factory=IFactory('vsra.vv'), stencil = 0xa4000057");
  (7%nat, "[1]: IFactorySpecialCaseComposite::Field ");
  (8%nat, "[default]: 'vfnmadd.vv', extractor=Extractor 'V_implied', factory=IFactory('vfnmadd.vv'), stencil = 0xa4001057");
  (7%nat, "[2]: IFactorySpecialCaseComposite::Field ");
  (8%nat, "[default]: 'vmadd.vv', extractor=Extractor 'V_implied', factory=IFactory('vmadd.vv'), stencil = 0xa4002057");
  (7%nat, "[3]: IFactorySpecialCaseComposite::Field ");
  (8%nat, "[default]: 'vsra.vi', extractor=Extractor 'V_uimm', factory=IFactory('vsra.vi'), stencil = 0xa4003057");
  (7%nat, "[4]: IFactorySpecialCaseComposite::Field ");
  (8%nat, "[default]: 'vsra.vx', extractor=Extractor 'V_op', factory=IFactory('vsra.vx'), stencil = 0xa4004057");
  (7%nat, "[5]: IFactorySpecialCaseComposite::Field ");
  (8%nat, "[default]: 'vfnmadd.vf', extractor=Extractor 'V_implied', factory=IFactory('vfnmadd.vf'), stencil = 0xa4005057");
  (7%nat, "[6]: IFactorySpecialCaseComposite::Field ");
  (8%nat, "[default]: 'vmadd.vx', extractor=Extractor 'V_implied', factory=IFactory('vmadd.vx'), stencil = 0xa4006057");
  (5%nat, "[1]: IFactoryDenseComposite::Field func1c");
  (6%nat, "[0]: IFactoryDenseComposite::Field func3b");
  (7%nat, "[1]: IFactorySpecialCaseComposite::Field ");
  (8%nat, "[default]: 'vfwmul.vv', extractor=Extractor 'V_op', factory=IFactory('vfwmul.vv'), stencil = 0xe0001057");
  (7%nat, "[2]: IFactorySpecialCaseComposite::Field ");
  (8%nat, "[default]: 'vwmulu.vv', extractor=Extractor 'V_op', factory=IFactory('vwmulu.vv'), stencil = 0xe0002057");
  (7%nat, "[5]: IFactorySpecialCaseComposite::Field ");
  (8%nat, "[default]: 'vfwmul.vf', extractor=Extractor 'V_op', factory=IFactory('vfwmul.vf'), stencil = 0xe0005057");
  (7%nat, "[6]: IFactorySpecialCaseComposite::Field ");
  (8%nat, "[default]: 'vwmulu.vx', extractor=Extractor 'V_op', factory=IFactory('vwmulu.vx'), stencil = 0xe0006057");
  (6%nat, "[1]: IFactoryDenseComposite::Field func3b");
  (7%nat, "[1]: IFactorySpecialCaseComposite::Field ");
  (8%nat, "[default]: 'vfdot.vv', extractor=Extractor 'V_op', factory=IFactory('vfdot.vv'), stencil = 0xe4001057");
  (3%nat, "[5]: IFactoryDenseComposite::Field func1a");
  (4%nat, "[0]: IFactoryDenseComposite::Field func1b");
  (5%nat, "[0]: IFactoryDenseComposite::Field func1c");
  (6%nat, "[0]: IFactoryDenseComposite::Field func3b");
  (7%nat, "[0]: IFactorySpecialCaseComposite::Field ");
  (8%nat, "[default]: 'vor.vv', extractor=Extractor 'V_op', factory=IFactory('vor.vv'), stencil = 0x28000057");
  (7%nat, "[1]: IFactorySpecialCaseComposite::Field ");
  (8%nat, "[default]: 'vfsgnjx.vv', extractor=Extractor 'V_op', factory=IFactory('vfsgnjx.vv'), stencil = 0x28001057");
  (7%nat, "[2]: IFactorySpecialCaseComposite::Field ");
  (8%nat, "[default]: 'vasubu.vv', extractor=Extractor 'V_op', factory=IFactory('vasubu.vv'), stencil = 0x28002057");
  (7%nat, "[3]: IFactorySpecialCaseComposite::Field ");
  (8%nat, "[default]: 'vor.vi', extractor=Extractor 'V_simm', factory=IFactory('vor.vi'), stencil = 0x28003057");
  (7%nat, "[4]: IFactorySpecialCaseComposite::Field ");
  (8%nat, "[default]: 'vor.vx', extractor=Extractor 'V_op', factory=IFactory('vor.vx'), stencil = 0x28004057");
  (7%nat, "[5]: IFactorySpecialCaseComposite::Field ");
  (8%nat, "[default]: 'vfsgnjx.vf', extractor=Extractor 'V_op', factory=IFactory('vfsgnjx.vf'), stencil = 0x28005057");
  (7%nat, "[6]: IFactorySpecialCaseComposite::Field ");
  (8%nat, "[default]: 'vasubu.vx', extractor=Extractor 'V_op', factory=IFactory('vasubu.vx'), stencil = 0x28006057");
  (6%nat, "[1]: IFactoryDenseComposite::Field func3b");
  (7%nat, "[0]: IFactorySpecialCaseComposite::Field ");
  (8%nat, "[default]: 'vxor.vv', extractor=Extractor 'V_op', factory=IFactory('vxor.vv'), stencil = 0x2c000057");
  (7%nat, "[2]: IFactorySpecialCaseComposite::Field ");
  (8%nat, "[default]: 'vasub.vv', extractor=Extractor 'V_op', factory=IFactory('vasub.vv'), stencil = 0x2c002057");
  (7%nat, "[3]: IFactorySpecialCaseComposite::Field ");
  (8%nat, "[default]: 'vxor.vi', extractor=Extractor 'V_simm', factory=IFactory('vxor.vi'), stencil = 0x2c003057");
  (7%nat, "[4]: IFactorySpecialCaseComposite::Field ");
  (8%nat, "[default]: 'vxor.vx', extractor=Extractor 'V_op', factory=IFactory('vxor.vx'), stencil = 0x2c004057");
  (7%nat, "[6]: IFactorySpecialCaseComposite::Field ");
  (8%nat, "[default]: 'vasub.vx', extractor=Extractor 'V_op', factory=IFactory('vasub.vx'), stencil = 0x2c006057");
  (5%nat, "[1]: IFactoryDenseComposite::Field func1c");
  (6%nat, "[0]: IFactoryDenseComposite::Field func3b");
  (7%nat, "[0]: IFactorySpecialCaseComposite::Field ");
  (8%nat, "[default]: 'vmsltu.vv', extractor=Extractor 'V_op', factory=IFactory('vmsltu.vv'), stencil = 0x68000057");
  (7%nat, "[2]: IFactorySpecialCaseComposite::Field ");
  (8%nat, "[default]: 'vmor.mm', extractor=Extractor 'V', factory=IFactory('vmor.mm'), stencil = 0x68002057");
  (7%nat, "[4]: IFactorySpecialCaseComposite::Field ");
  (8%nat, "[default]: 'vmsltu.vx', extractor=Extractor 'V_op', factory=IFactory('vmsltu.vx'), stencil = 0x68004057");
  (6%nat, "[1]: IFactoryDenseComposite::Field func3b");
  (7%nat, "[0]: IFactorySpecialCaseComposite::Field ");
  (8%nat, "[default]: 'vmslt.vv', extractor=Extractor 'V_op', factory=IFactory('vmslt.vv'), stencil = 0x6c000057");
  (7%nat, "[1]: IFactorySpecialCaseComposite::Field ");
  (8%nat, "[default]: 'vmflt.vv', extractor=Extractor 'V_op', factory=IFactory('vmflt.vv'), stencil = 0x6c001057");
  (7%nat, "[2]: IFactorySpecialCaseComposite::Field ");
  (8%nat, "[default]: 'vmxor.mm', extractor=Extractor 'V', factory=IFactory('vmxor.mm'), stencil = 0x6c002057");
  (7%nat, "[4]: IFactorySpecialCaseComposite::Field ");
  (8%nat, "[default]: 'vmslt.vx', extractor=Extractor 'V_op', factory=IFactory('vmslt.vx'), stencil = 0x6c004057");
  (7%nat, "[5]: IFactorySpecialCaseComposite::Field ");
  (8%nat, "[default]: 'vmflt.vf', extractor=Extractor 'V_op', factory=IFactory('vmflt.vf'), stencil = 0x6c005057");
  (4%nat, "[1]: IFactoryDenseComposite::Field func1b");
  (5%nat, "[0]: IFactoryDenseComposite::Field func1c");
  (6%nat, "[0]: IFactoryDenseComposite::Field func3b");
  (7%nat, "[0]: IFactorySpecialCaseComposite::Field ");
  (8%nat, "[default]: 'vssrl.vv', extractor=Extractor 'V_op', factory=IFactory('vssrl.vv'), stencil = 0xa8000057");
  (7%nat, "[1]: IFactorySpecialCaseComposite::Field ");
  (8%nat, "[default]: 'vfmsub.vv', extractor=Extractor 'V_implied', factory=IFactory('vfmsub.vv'), stencil = 0xa8001057");
  (7%nat, "[3]: IFactorySpecialCaseComposite::Field ");
  (8%nat, "[default]: 'vssrl.vi', extractor=Extractor 'V_uimm', factory=IFactory('vssrl.vi'), stencil = 0xa8003057");
  (7%nat, "[4]: IFactorySpecialCaseComposite::Field ");
  (8%nat, "[default]: 'vssrl.vx', extractor=Extractor 'V_op', factory=IFactory('vssrl.vx'), stencil = 0xa8004057");
  (7%nat, "[5]: IFactorySpecialCaseComposite::Field ");
  (8%nat, "[default]: 'vfmsub.vf', extractor=Extractor 'V_implied', factory=IFactory('vfmsub.vf'), stencil = 0xa8005057");
  (6%nat, "[1]: IFactoryDenseComposite::Field func3b");
  (7%nat, "[0]: IFactorySpecialCaseComposite::Field ");
  (8%nat, "[default]: 'vssra.vv', extractor=Extractor 'V_op', factory=IFactory('vssra.vv'), stencil = 0xac000057");
  (7%nat, "[1]: IFactorySpecialCaseComposite::Field ");
  (8%nat, "[default]: 'vfnmsub.vv', extractor=Extractor 'V_implied', factory=IFactory('vfnmsub.vv'), stencil = 0xac001057");
  (7%nat, "[2]: IFactorySpecialCaseComposite::Field ");
  (8%nat, "[default]: 'vnmsub.vv', extractor=Extractor 'V_implied', factory=IFactory('vnmsub.vv'), stencil = 0xac002057");
  (7%nat, "[3]: IFactorySpecialCaseComposite::Field ");
  (8%nat, "[default]: 'vssra.vi', extractor=Extractor 'V_uimm', factory=IFactory('vssra.vi'), stencil = 0xac003057");
  (7%nat, "[4]: IFactorySpecialCaseComposite::Field ");
  (8%nat, "[default]: 'vssra.vx', extractor=Extractor 'V_op', factory=IFactory('vssra.vx'), stencil = 0xac004057");
  (7%nat, "[5]: IFactorySpecialCaseComposite::Field ");
  (8%nat, "[default]: 'vfnmsub.vf', extractor=Extractor 'V_implied', factory=IFactory('vfnmsub.vf'), stencil = 0xac005057");
  (7%nat, "[6]: IFactorySpecialCaseComposite::Field ");
  (8%nat, "[default]: 'vnmsub.vx', extractor=Extractor 'V_implied', factory=IFactory('vnmsub.vx'), stencil = 0xac006057");
  (5%nat, "[1]: IFactoryDenseComposite::Field func1c");
  (6%nat, "[0]: IFactoryDenseComposite::Field func3b");
  (7%nat, "[2]: IFactorySpecialCaseComposite::Field ");
  (8%nat, "[default]: 'vwmulsu.vv', extractor=Extractor 'V_op', factory=IFactory('vwmulsu.vv'), stencil = 0xe8002057");
  (7%nat, "[6]: IFactorySpecialCaseComposite::Field ");
  (8%nat, "[default]: 'vwmulsu.vx', extractor=Extractor 'V_op', factory=IFactory('vwmulsu.vx'), stencil = 0xe8006057");
  (6%nat, "[1]: IFactoryDenseComposite::Field func3b");
  (7%nat, "[2]: IFactorySpecialCaseComposite::Field ");
  (8%nat, "[default]: 'vwmul.vv', extractor=Extractor 'V_op', factory=IFactory('vwmul.vv'), stencil = 0xec002057");
  (7%nat, "[6]: IFactorySpecialCaseComposite::Field ");
  (8%nat, "[default]: 'vwmul.vx', extractor=Extractor 'V_op', factory=IFactory('vwmul.vx'), stencil = 0xec006057");
  (3%nat, "[6]: IFactoryDenseComposite::Field func1a");
  (4%nat, "[0]: IFactoryDenseComposite::Field func1b");
  (5%nat, "[0]: IFactoryDenseComposite::Field func1c");
  (6%nat, "[0]: IFactoryDenseComposite::Field func3b");
  (7%nat, "[0]: IFactorySpecialCaseComposite::Field ");
  (8%nat, "[default]: 'vrgather.vv', extractor=Extractor 'V_op', factory=IFactory('vrgather.vv'), stencil = 0x30000057");
  (7%nat, "[3]: IFactorySpecialCaseComposite::Field ");
  (8%nat, "[default]: 'vrgather.vi', extractor=Extractor 'V_uimm', factory=IFactory('vrgather.vi'), stencil = 0x30003057");
  (7%nat, "[4]: IFactorySpecialCaseComposite::Field ");
  (8%nat, "[default]: 'vrgather.vx', extractor=Extractor 'V_op', factory=IFactory('vrgather.vx'), stencil = 0x30004057");
  (5%nat, "[1]: IFactoryDenseComposite::Field func1c");
  (6%nat, "[0]: IFactoryDenseComposite::Field func3b");
  (7%nat, "[0]: IFactorySpecialCaseComposite::Field ");
  (8%nat, "[default]: 'vmsleu.vv', extractor=Extractor 'V_op', factory=IFactory('vmsleu.vv'), stencil = 0x70000057");
  (7%nat, "[1]: IFactorySpecialCaseComposite::Field ");
  (8%nat, "[default]: 'vmfne.vv', extractor=Extractor 'V_op', factory=IFactory('vmfne.vv'), stencil = 0x70001057");
  (7%nat, "[2]: IFactorySpecialCaseComposite::Field ");
  (8%nat, "[default]: 'vmorn.mm', extractor=Extractor 'V', factory=IFactory('vmorn.mm'), stencil = 0x70002057");
  (7%nat, "[3]: IFactorySpecialCaseComposite::Field ");
  (8%nat, "[default]: 'vmsleu.vi', extractor=Extractor 'V_simm', factory=IFactory('vmsleu.vi'), stencil = 0x70003057");
  (7%nat, "[4]: IFactorySpecialCaseComposite::Field ");
  (8%nat, "[default]: 'vmsleu.vx', extractor=Extractor 'V_op', factory=IFactory('vmsleu.vx'), stencil = 0x70004057");
  (7%nat, "[5]: IFactorySpecialCaseComposite::Field ");
  (8%nat, "[default]: 'vmfne.vf', extractor=Extractor 'V_op', factory=IFactory('vmfne.vf'), stencil = 0x70005057");
  (6%nat, "[1]: IFactoryDenseComposite::Field func3b");
  (7%nat, "[0]: IFactorySpecialCaseComposite::Field ");
  (8%nat, "[default]: 'vmsle.vv', extractor=Extractor 'V_op', factory=IFactory('vmsle.vv'), stencil = 0x74000057");
  (7%nat, "[2]: IFactorySpecialCaseComposite::Field ");
  (8%nat, "[default]: 'vmnand.mm', extractor=Extractor 'V', factory=IFactory('vmnand.mm'), stencil = 0x74002057");
  (7%nat, "[3]: IFactorySpecialCaseComposite::Field ");
  (8%nat, "[default]: 'vmsle.vi', extractor=Extractor 'V_simm', factory=IFactory('vmsle.vi'), stencil = 0x74003057");
  (7%nat, "[4]: IFactorySpecialCaseComposite::Field ");
  (8%nat, "[default]: 'vmsle.vx', extractor=Extractor 'V_op', factory=IFactory('vmsle.vx'), stencil = 0x74004057");
  (7%nat, "[5]: IFactorySpecialCaseComposite::Field ");
  (8%nat, "[default]: 'vmfgt.vf', extractor=Extractor 'V_op', factory=IFactory('vmfgt.vf'), stencil = 0x74005057");
  (4%nat, "[1]: IFactoryDenseComposite::Field func1b");
  (5%nat, "[0]: IFactoryDenseComposite::Field func1c");
  (6%nat, "[0]: IFactoryDenseComposite::Field func3b");
  (7%nat, "[0]: IFactorySpecialCaseComposite::Field ");
  (8%nat, "[default]: 'vnsrl.wv', extractor=Extractor 'V', factory=IFactory('vnsrl.wv'), stencil = 0xb0000057");
  (7%nat, "[1]: IFactorySpecialCaseComposite::Field ");
  (8%nat, "[default]: 'vfmacc.vv', extractor=Extractor 'V_implied', factory=IFactory('vfmacc.vv'), stencil = 0xb0001057");
  (7%nat, "[3]: IFactorySpecialCaseComposite::Field ");
  (8%nat, "[default]: 'vnsrl.wi', extractor=Extractor 'V_uimm', factory=IFactory('vnsrl.wi'), stencil = 0xb0003057");
  (7%nat, "[4]: IFactorySpecialCaseComposite::Field ");
  (8%nat, "[default]: 'vnsrl.wx', extractor=Extractor 'V', factory=IFactory('vnsrl.wx'), stencil = 0xb0004057");
  (7%nat, "[5]: IFactorySpecialCaseComposite::Field ");
  (8%nat, "[default]: 'vfmacc.vf', extractor=Extractor 'V_implied', factory=IFactory('vfmacc.vf'), stencil = 0xb0005057");
  (6%nat, "[1]: IFactoryDenseComposite::Field func3b");
  (7%nat, "[0]: IFactorySpecialCaseComposite::Field ");
  (8%nat, "[default]: 'vnsra.wv', extractor=Extractor 'V', factory=IFactory('vnsra.wv'), stencil = 0xb4000057");
  (7%nat, "[1]: IFactorySpecialCaseComposite::Field ");
  (8%nat, "[default]: 'vfnmacc.vv', extractor=Extractor 'V_implied', factory=IFactory('vfnmacc.vv'), stencil = 0xb4001057");
  (7%nat, "[2]: IFactorySpecialCaseComposite::Field ");
  (8%nat, "[default]: 'vmacc.vv', extractor=Extractor 'V_implied', factory=IFactory('vmacc.vv'), stencil = 0xb4002057");
  (7%nat, "[3]: IFactorySpecialCaseComposite::Field ");
  (8%nat, "[default]: 'vnsra.wi', extractor=Extractor 'V_uimm', factory=IFactory('vnsra.wi'), stencil = 0xb4003057");
  (7%nat, "[4]: IFactorySpecialCaseComposite::Field ");
  (8%nat, "[default]: 'vnsra.wx', extractor=Extractor 'V', factory=IFactory('vnsra.wx'), stencil = 0xb4004057");
  (7%nat, "[5]: IFactorySpecialCaseComposite::Field ");
  (8%nat, "[default]: 'vfnmacc.vf', extractor=Extractor 'V_implied', factory=IFactory('vfnmacc.vf'), stencil = 0xb4005057");
  (7%nat, "[6]: IFactorySpecialCaseComposite::Field ");
  (8%nat, "[default]: 'vmacc.vx', extractor=Extractor 'V_implied', factory=IFactory('vmacc.vx'), stencil = 0xb4006057");
  (5%nat, "[1]: IFactoryDenseComposite::Field func1c");
  (6%nat, "[0]: IFactoryDenseComposite::Field func3b");
  (7%nat, "[1]: IFactorySpecialCaseComposite::Field ");
  (8%nat, "[default]: 'vfwmacc.vv', extractor=Extractor 'V_implied', factory=IFactory('vfwmacc.vv'), stencil = 0xf0001057");
  (7%nat, "[2]: IFactorySpecialCaseComposite::Field ");
  (8%nat, "[default]: 'vwmaccu.vv', extractor=Extractor 'V_implied', factory=IFactory('vwmaccu.vv'), stencil = 0xf0002057");
  (7%nat, "[5]: IFactorySpecialCaseComposite::Field ");
  (8%nat, "[default]: 'vfwmacc.vf', extractor=Extractor 'V_implied', factory=IFactory('vfwmacc.vf'), stencil = 0xf0005057");
  (7%nat, "[6]: IFactorySpecialCaseComposite::Field ");
  (8%nat, "[default]: 'vwmaccu.vx', extractor=Extractor 'V_implied', factory=IFactory('vwmaccu.vx'), stencil = 0xf0006057");
  (6%nat, "[1]: IFactoryDenseComposite::Field func3b");
  (7%nat, "[1]: IFactorySpecialCaseComposite::Field ");
  (8%nat, "[default]: 'vfwnmacc.vv', extractor=Extractor 'V_implied', factory=IFactory('vfwnmacc.vv'), stencil = 0xf4001057");
  (7%nat, "[2]: IFactorySpecialCaseComposite::Field ");
  (8%nat, "[default]: 'vwmacc.vv', extractor=Extractor 'V_implied', factory=IFactory('vwmacc.vv'), stencil = 0xf4002057");
  (7%nat, "[5]: IFactorySpecialCaseComposite::Field ");
  (8%nat, "[default]: 'vfwnmacc.vf', extractor=Extractor 'V_implied', factory=IFactory('vfwnmacc.vf'), stencil = 0xf4005057");
  (7%nat, "[6]: IFactorySpecialCaseComposite::Field ");
  (8%nat, "[default]: 'vwmacc.vx', extractor=Extractor 'V_implied', factory=IFactory('vwmacc.vx'), stencil = 0xf4006057");
  (3%nat, "[7]: IFactoryDenseComposite::Field func1a");
  (4%nat, "[0]: IFactoryDenseComposite::Field func1b");
  (5%nat, "[0]: IFactoryDenseComposite::Field func1c");
  (6%nat, "[0]: IFactoryDenseComposite::Field func3b");
  (7%nat, "[0]: IFactorySpecialCaseComposite::Field ");
  (8%nat, "[default]: 'vrgatherei16.vv', extractor=Extractor 'V_op', factory=IFactory('vrgatherei16.vv'), stencil = 0x38000057");
  (7%nat, "[3]: IFactorySpecialCaseComposite::Field ");
  (8%nat, "[default]: 'vslideup.vi', extractor=Extractor 'V_uimm', factory=IFactory('vslideup.vi'), stencil = 0x38003057");
  (7%nat, "[4]: IFactorySpecialCaseComposite::Field ");
  (8%nat, "[default]: 'vslideup.vx', extractor=Extractor 'V_op', factory=IFactory('vslideup.vx'), stencil = 0x38004057");
  (7%nat, "[5]: IFactorySpecialCaseComposite::Field ");
  (8%nat, "[default]: 'vfslide1up.vf', extractor=Extractor 'V_op', factory=IFactory('vfslide1up.vf'), stencil = 0x38005057");
  (7%nat, "[6]: IFactorySpecialCaseComposite::Field ");
  (8%nat, "[default]: 'vslide1up.vx', extractor=Extractor 'V_op', factory=IFactory('vslide1up.vx'), stencil = 0x38006057");
  (6%nat, "[1]: IFactoryDenseComposite::Field func3b");
  (7%nat, "[3]: IFactorySpecialCaseComposite::Field ");
  (8%nat, "[default]: 'vslidedown.vi', extractor=Extractor 'V_uimm', factory=IFactory('vslidedown.vi'), stencil = 0x3c003057");
  (7%nat, "[4]: IFactorySpecialCaseComposite::Field ");
  (8%nat, "[default]: 'vslidedown.vx', extractor=Extractor 'V_op', factory=IFactory('vslidedown.vx'), stencil = 0x3c004057");
  (7%nat, "[5]: IFactorySpecialCaseComposite::Field ");
  (8%nat, "[default]: 'vfslide1down.vf', extractor=Extractor 'V_op', factory=IFactory('vfslide1down.vf'), stencil = 0x3c005057");
  (7%nat, "[6]: IFactorySpecialCaseComposite::Field ");
  (8%nat, "[default]: 'vslide1down.vx', extractor=Extractor 'V_op', factory=IFactory('vslide1down.vx'), stencil = 0x3c006057");
  (5%nat, "[1]: IFactoryDenseComposite::Field func1c");
  (6%nat, "[0]: IFactoryDenseComposite::Field func3b");
  (7%nat, "[2]: IFactorySpecialCaseComposite::Field ");
  (8%nat, "[default]: 'vmnor.mm', extractor=Extractor 'V', factory=IFactory('vmnor.mm'), stencil = 0x78002057");
  (7%nat, "[3]: IFactorySpecialCaseComposite::Field ");
  (8%nat, "[default]: 'vmsgtu.vi', extractor=Extractor 'V_simm', factory=IFactory('vmsgtu.vi'), stencil = 0x78003057");
  (7%nat, "[4]: IFactorySpecialCaseComposite::Field ");
  (8%nat, "[default]: 'vmsgtu.vx', extractor=Extractor 'V_op', factory=IFactory('vmsgtu.vx'), stencil = 0x78004057");
  (6%nat, "[1]: IFactoryDenseComposite::Field func3b");
  (7%nat, "[2]: IFactorySpecialCaseComposite::Field ");
  (8%nat, "[default]: 'vmxnor.mm', extractor=Extractor 'V', factory=IFactory('vmxnor.mm'), stencil = 0x7c002057");
  (7%nat, "[3]: IFactorySpecialCaseComposite::Field ");
  (8%nat, "[default]: 'vmsgt.vi', extractor=Extractor 'V_simm', factory=IFactory('vmsgt.vi'), stencil = 0x7c003057");
  (7%nat, "[4]: IFactorySpecialCaseComposite::Field ");
  (8%nat, "[default]: 'vmsgt.vx', extractor=Extractor 'V_op', factory=IFactory('vmsgt.vx'), stencil = 0x7c004057");
  (7%nat, "[5]: IFactorySpecialCaseComposite::Field ");
  (8%nat, "[default]: 'vmfge.vf', extractor=Extractor 'V_op', factory=IFactory('vmfge.vf'), stencil = 0x7c005057");
  (4%nat, "[1]: IFactoryDenseComposite::Field func1b");
  (5%nat, "[0]: IFactoryDenseComposite::Field func1c");
  (6%nat, "[0]: IFactoryDenseComposite::Field func3b");
  (7%nat, "[0]: IFactorySpecialCaseComposite::Field ");
  (8%nat, "[default]: 'vnclipu.wv', extractor=Extractor 'V', factory=IFactory('vnclipu.wv'), stencil = 0xb8000057");
  (7%nat, "[1]: IFactorySpecialCaseComposite::Field ");
  (8%nat, "[default]: 'vfmsac.vv', extractor=Extractor 'V_implied', factory=IFactory('vfmsac.vv'), stencil = 0xb8001057");
  (7%nat, "[3]: IFactorySpecialCaseComposite::Field ");
  (8%nat, "[default]: 'vnclipu.wi', extractor=Extractor 'V_uimm', factory=IFactory('vnclipu.wi'), stencil = 0xb8003057");
  (7%nat, "[4]: IFactorySpecialCaseComposite::Field ");
  (8%nat, "[default]: 'vnclipu.wx', extractor=Extractor 'V', factory=IFactory('vnclipu.wx'), stencil = 0xb8004057");
  (7%nat, "[5]: IFactorySpecialCaseComposite::Field ");
  (8%nat, "[default]: 'vfmsac.vf', extractor=Extractor 'V_implied', factory=IFactory('vfmsac.vf'), stencil = 0xb8005057");
  (6%nat, "[1]: IFactoryDenseComposite::Field func3b");
  (7%nat, "[0]: IFactorySpecialCaseComposite::Field ");
  (8%nat, "[default]: 'vnclip.wv', extractor=Extractor 'V', factory=IFactory('vnclip.wv'), stencil = 0xbc000057");
  (7%nat, "[1]: IFactorySpecialCaseComposite::Field ");
  (8%nat, "[default]: 'vfnmsac.vv', extractor=Extractor 'V_implied', factory=IFactory('vfnmsac.vv'), stencil = 0xbc001057");
  (7%nat, "[2]: IFactorySpecialCaseComposite::Field ");
  (8%nat, "[default]: 'vnmsac.vv', extractor=Extractor 'V_implied', factory=IFactory('vnmsac.vv'), stencil = 0xbc002057");
  (7%nat, "[3]: IFactorySpecialCaseComposite::Field ");
  (8%nat, "[default]: 'vnclip.wi', extractor=Extractor 'V_uimm', factory=IFactory('vnclip.wi'), stencil = 0xbc003057");
  (7%nat, "[4]: IFactorySpecialCaseComposite::Field ");
  (8%nat, "[default]: 'vnclip.wx', extractor=Extractor 'V', factory=IFactory('vnclip.wx'), stencil = 0xbc004057");
  (7%nat, "[5]: IFactorySpecialCaseComposite::Field ");
  (8%nat, "[default]: 'vfnmsac.vf', extractor=Extractor 'V_implied', factory=IFactory('vfnmsac.vf'), stencil = 0xbc005057");
  (7%nat, "[6]: IFactorySpecialCaseComposite::Field ");
  (8%nat, "[default]: 'vnmsac.vx', extractor=Extractor 'V_implied', factory=IFactory('vnmsac.vx'), stencil = 0xbc006057");
  (5%nat, "[1]: IFactoryDenseComposite::Field func1c");
  (6%nat, "[0]: IFactoryDenseComposite::Field func3b");
  (7%nat, "[1]: IFactorySpecialCaseComposite::Field ");
  (8%nat, "[default]: 'vfwmsac.vv', extractor=Extractor 'V_implied', factory=IFactory('vfwmsac.vv'), stencil = 0xf8001057");
  (7%nat, "[5]: IFactorySpecialCaseComposite::Field ");
  (8%nat, "[default]: 'vfwmsac.vf', extractor=Extractor 'V_implied', factory=IFactory('vfwmsac.vf'), stencil = 0xf8005057");
  (7%nat, "[6]: IFactorySpecialCaseComposite::Field ");
  (8%nat, "[default]: 'vwmaccus.vx', extractor=Extractor 'V_implied', factory=IFactory('vwmaccus.vx'), stencil = 0xf8006057");
  (6%nat, "[1]: IFactoryDenseComposite::Field func3b");
  (7%nat, "[1]: IFactorySpecialCaseComposite::Field ");
  (8%nat, "[default]: 'vfwnmsac.vv', extractor=Extractor 'V_implied', factory=IFactory('vfwnmsac.vv'), stencil = 0xfc001057");
  (7%nat, "[2]: IFactorySpecialCaseComposite::Field ");
  (8%nat, "[default]: 'vwmaccsu.vv', extractor=Extractor 'V_implied', factory=IFactory('vwmaccsu.vv'), stencil = 0xfc002057");
  (7%nat, "[5]: IFactorySpecialCaseComposite::Field ");
  (8%nat, "[default]: 'vfwnmsac.vf', extractor=Extractor 'V_implied', factory=IFactory('vfwnmsac.vf'), stencil = 0xfc005057");
  (7%nat, "[6]: IFactorySpecialCaseComposite::Field ");
  (8%nat, "[default]: 'vwmaccsu.vx', extractor=Extractor 'V_implied', factory=IFactory('vwmaccsu.vx'), stencil = 0xfc006057");
  (3%nat, "[default]: IFactoryDenseComposite::Field func1a");
  (4%nat, "[0]: IFactoryDenseComposite::Field func1b");
  (5%nat, "[default]: IFactoryDenseComposite::Field func1c");
  (6%nat, "[default]: IFactoryDenseComposite::Field func3b");
  (7%nat, "[7]: IFactorySpecialCaseComposite::Field ");
  (8%nat, "[default]: 'vsetvli', extractor=Extractor 'V_vsetvli', factory=IFactory('vsetvli'), stencil = 0x7057");
  (4%nat, "[1]: IFactoryDenseComposite::Field func1b");
  (5%nat, "[1]: IFactoryDenseComposite::Field func1c");
  (6%nat, "[default]: IFactoryDenseComposite::Field func3b");
  (7%nat, "[7]: IFactorySpecialCaseComposite::Field ");
  (8%nat, "[default]: 'vsetivli', extractor=Extractor 'V_vsetivli', factory=IFactory('vsetivli'), stencil = 0xc0007057");
  (2%nat, "[63]: IFactoryDenseComposite::Field func3");
  (3%nat, "[0]: IFactorySpecialCaseComposite::Field ");
  (4%nat, "[default]: 'beq', extractor=Extractor 'B', factory=IFactory('beq'), stencil = 0x63");
  (3%nat, "[1]: IFactorySpecialCaseComposite::Field ");
  (4%nat, "[default]: 'bne', extractor=Extractor 'B', factory=IFactory('bne'), stencil = 0x1063");
  (3%nat, "[4]: IFactorySpecialCaseComposite::Field ");
  (4%nat, "[default]: 'blt', extractor=Extractor 'B', factory=IFactory('blt'), stencil = 0x4063");
  (3%nat, "[5]: IFactorySpecialCaseComposite::Field ");
  (4%nat, "[default]: 'bge', extractor=Extractor 'B', factory=IFactory('bge'), stencil = 0x5063");
  (3%nat, "[6]: IFactorySpecialCaseComposite::Field ");
  (4%nat, "[default]: 'bltu', extractor=Extractor 'B', factory=IFactory('bltu'), stencil = 0x6063");
  (3%nat, "[7]: IFactorySpecialCaseComposite::Field ");
  (4%nat, "[default]: 'bgeu', extractor=Extractor 'B', factory=IFactory('bgeu'), stencil = 0x7063");
  (2%nat, "[67]: IFactoryDenseComposite::Field func3");
  (3%nat, "[0]: IFactorySpecialCaseComposite::Field ");
  (4%nat, "[default]: 'jalr', extractor=Extractor 'I', factory=IFactory('jalr'), stencil = 0x67");
  (2%nat, "[6f]: IFactorySpecialCaseComposite::Field ");
  (3%nat, "[default]: 'jal', extractor=Extractor 'J', factory=IFactory('jal'), stencil = 0x6f");
  (2%nat, "[73]: IFactoryDenseComposite::Field func3");
  (3%nat, "[0]: IFactoryDenseComposite::Field func7");
  (4%nat, "[0]: IFactorySpecialCaseComposite::Field ");
  (5%nat, "[0]: 'ecall', mask=0x1ff8f80, field_set=0x16, value=0x0, nfixed=3, extractor=Extractor 'R', factory=IFactory('ecall'), stencil = 0x73");
  (5%nat, "[1]: 'ebreak', mask=0x1ff8f80, field_set=0x16, value=0x100000, nfixed=3, extractor=Extractor 'R', factory=IFactory('ebreak'), stencil = 0x100073");
  (5%nat, "[2]: 'uret', mask=0x1ff8f80, field_set=0x16, value=0x200000, nfixed=3, extractor=Extractor 'R', factory=IFactory('uret'), stencil = 0x200073");
  (4%nat, "[8]: IFactorySpecialCaseComposite::Field ");
  (5%nat, "[0]: 'sret', mask=0x1ff8f80, field_set=0x16, value=0x200000, nfixed=3, extractor=Extractor 'R', factory=IFactory('sret'), stencil = 0x10200073");
  (5%nat, "[1]: 'wfi', mask=0x1ff8f80, field_set=0x16, value=0x500000, nfixed=3, extractor=Extractor 'R', factory=IFactory('wfi'), stencil = 0x10500073");
  (4%nat, "[9]: IFactorySpecialCaseComposite::Field ");
  (5%nat, "[0]: 'sfence.vma', mask=0xf80, field_set=0x10, value=0x0, nfixed=1, extractor=Extractor 'R', factory=IFactory('sfence.vma'), stencil = 0x12000073");
  (4%nat, "[18]: IFactorySpecialCaseComposite::Field ");
  (5%nat, "[0]: 'mret', mask=0x1ff8f80, field_set=0x16, value=0x200000, nfixed=3, extractor=Extractor 'R', factory=IFactory('mret'), stencil = 0x30200073");
  (4%nat, "[3d]: IFactorySpecialCaseComposite::Field ");
  (5%nat, "[0]: 'dret', mask=0x1ff8f80, field_set=0x16, value=0x1200000, nfixed=3, extractor=Extractor 'R', factory=IFactory('dret'), stencil = 0x7b200073");
  (4%nat, "[7e]: IFactorySpecialCaseComposite::Field ");
  (5%nat, "[0]: 'cflush.d.l1', mask=0x1f00f80, field_set=0x12, value=0x0, nfixed=2, extractor=Extractor 'R', factory=IFactory('cflush.d.l1'), stencil = 0xfc000073");
  (5%nat, "[1]: 'cdiscard.d.l1', mask=0x1f00f80, field_set=0x12, value=0x200000, nfixed=2, extractor=Extractor 'R', factory=IFactory('cdiscard.d.l1'), stencil = 0xfc200073");
  (5%nat, "[2]: 'cflush.i.l1', mask=0x1f00f80, field_set=0x12, value=0x100000, nfixed=2, extractor=Extractor 'R', factory=IFactory('cflush.i.l1'), stencil = 0xfc100073");
  (3%nat, "[1]: IFactoryDenseComposite::Field func7");
  (4%nat, "[default]: IFactorySpecialCaseComposite::Field ");
  (5%nat, "[default]: 'csrrw', extractor=Extractor 'CSR', factory=IFactory('csr'), stencil = 0x1073");
  (3%nat, "[2]: IFactoryDenseComposite::Field func7");
  (4%nat, "[default]: IFactorySpecialCaseComposite::Field ");
  (5%nat, "[default]: 'csrrs', extractor=Extractor 'CSR', factory=IFactory('csr'), stencil = 0x1073");
  (3%nat, "[3]: IFactoryDenseComposite::Field func7");
  (4%nat, "[default]: IFactorySpecialCaseComposite::Field ");
  (5%nat, "[default]: 'csrrc', extractor=Extractor 'CSR', factory=IFactory('csr'), stencil = 0x1073");
  (3%nat, "[5]: IFactoryDenseComposite::Field func7");
  (4%nat, "[default]: IFactorySpecialCaseComposite::Field ");
  (5%nat, "[default]: 'csrrwi', extractor=Extractor 'CSRI', factory=IFactory('csr'), stencil = 0x1073");
  (3%nat, "[6]: IFactoryDenseComposite::Field func7");
  (4%nat, "[default]: IFactorySpecialCaseComposite::Field ");
  (5%nat, "[default]: 'csrrsi', extractor=Extractor 'CSRI', factory=IFactory('csr'), stencil = 0x1073");
  (3%nat, "[7]: IFactoryDenseComposite::Field func7");
  (4%nat, "[default]: IFactorySpecialCaseComposite::Field ");
  (5%nat, "[default]: 'csrrci', extractor=Extractor 'CSRI', factory=IFactory('csr'), stencil = 0x1073")].

(** The files of table T0, in order. *)
Definition files_T0 : list (list raw) :=
  [tab_isa_tagged].

(** The disassembly expected of opcodes with table T0 (with the line of main.cpp). *)
Definition dasm_T0 : list (N * N * string) := [
  (1008, 0x6013, "ori	x0,x0, +0x0")].

(** What main.cpp asserts or golden.out shows of opcodes with table T0. *)
Definition obs_T0 : list (N * N * gobs) := [
  (1009, 0x6013, GMnemonic "ori");
  (1010, 0x6013, GImm 0x0);
  (1011, 0x6013, GHasImm true);
  (1012, 0x6013, GTag "pf" false)].

(** The text expected for the tree of table T0: depth and text of each line. *)
Definition tree_T0 : list (nat * string) := [
  (0%nat, "IFactoryMatchListComposite::Field family");
  (1%nat, "[1]: IFactoryDenseComposite::Field opcode");
  (2%nat, "[f]: IFactoryDenseComposite::Field func3");
  (3%nat, "[2]: IFactoryDenseComposite::Field func7");
  (4%nat, "[0]: IFactorySpecialCaseComposite::Field ");
  (5%nat, "[0]: 'cbo.clean', mask=0x1f00f80, field_set=0x12, value=0x100000, nfixed=2, extractor=Extractor 'R', factory=IFactory('cbo.clean'), stencil = 0x10200f");
  (5%nat, "[1]: 'cbo.flush', mask=0x1f00f80, field_set=0x12, value=0x200000, nfixed=2, extractor=Extractor 'R', factory=IFactory('cbo.flush'), stencil = 0x20200f");
  (5%nat, "[2]: 'cbo.inval', mask=0x1f00f80, field_set=0x12, value=0x0, nfixed=2, extractor=Extractor 'R', factory=IFactory('cbo.inval'), stencil = 0x200f");
  (5%nat, "[3]: 'cbo.zero', mask=0x1f00f80, field_set=0x12, value=0x400000, nfixed=2, extractor=Extractor 'R', factory=IFactory('cbo.zero'), stencil = 0x40200f");
  (2%nat, "[13]: IFactoryDenseComposite::Field func3");
  (3%nat, "[6]: IFactoryDenseComposite::Field func6");
  (4%nat, "[default]: IFactorySpecialCaseComposite::Field ");
  (5%nat, "[default]: 'ori', extractor=Extractor 'I', factory=IFactory('ori'), stencil = 0x6013")].

(** The files of table T1, in order. *)
Definition files_T1 : list (list raw) :=
  [tab_isa_tagged].

(** The disassembly expected of opcodes with table T1 (with the line of main.cpp). *)
Definition dasm_T1 : list (N * N * string) := [
  (1026, 0x6013, "prefetch.i	x0, +0x0")].

(** What main.cpp asserts or golden.out shows of opcodes with table T1. *)
Definition obs_T1 : list (N * N * gobs) := [
  (1027, 0x6013, GMnemonic "prefetch.i");
  (1028, 0x6013, GImm 0x0);
  (1029, 0x6013, GHasImm true);
  (1030, 0x6013, GTag "pf" true)].

(** The text expected for the tree of table T1: depth and text of each line. *)
Definition tree_T1 : list (nat * string) := [
  (0%nat, "IFactoryMatchListComposite::Field family");
  (1%nat, "[1]: IFactoryDenseComposite::Field opcode");
  (2%nat, "[13]: IFactoryDenseComposite::Field func3");
  (3%nat, "[6]: IFactoryDenseComposite::Field func6");
  (4%nat, "[default]: IFactorySpecialCaseComposite::Field ");
  (5%nat, "[default]: 'ori', extractor=Extractor 'I', factory=IFactory('ori'), stencil = 0x6013")].

(** The files of table T2, in order. *)
Definition files_T2 : list (list raw) :=
  [tab_isa_tagged].

(** The disassembly expected of opcodes with table T2 (with the line of main.cpp). *)
Definition dasm_T2 : list (N * N * string) := [
].

(** What main.cpp asserts or golden.out shows of opcodes with table T2. *)
Definition obs_T2 : list (N * N * gobs) := [
].

(** The text expected for the tree of table T2: depth and text of each line. *)
Definition tree_T2 : list (nat * string) := [
  (0%nat, "IFactoryMatchListComposite::Field family");
  (1%nat, "[1]: IFactoryDenseComposite::Field opcode");
  (2%nat, "[f]: IFactoryDenseComposite::Field func3");
  (3%nat, "[2]: IFactoryDenseComposite::Field func7");
  (4%nat, "[0]: IFactorySpecialCaseComposite::Field ");
  (5%nat, "[0]: 'cbo.clean', mask=0x1f00f80, field_set=0x12, value=0x100000, nfixed=2, extractor=Extractor 'R', factory=IFactory('cbo.clean'), stencil = 0x10200f");
  (5%nat, "[1]: 'cbo.flush', mask=0x1f00f80, field_set=0x12, value=0x200000, nfixed=2, extractor=Extractor 'R', factory=IFactory('cbo.flush'), stencil = 0x20200f");
  (5%nat, "[2]: 'cbo.inval', mask=0x1f00f80, field_set=0x12, value=0x0, nfixed=2, extractor=Extractor 'R', factory=IFactory('cbo.inval'), stencil = 0x200f");
  (5%nat, "[3]: 'cbo.zero', mask=0x1f00f80, field_set=0x12, value=0x400000, nfixed=2, extractor=Extractor 'R', factory=IFactory('cbo.zero'), stencil = 0x40200f")].

(** The files of table RV32, in order. *)
Definition files_RV32 : list (list raw) :=
  [isa_rv32i; isa_rv32f; isa_rv32m; isa_rv32a; isa_rv32d; isa_rv32zicsr; isa_rv32zifencei; isa_rv32c; isa_rv32cf; isa_rv32cd; isa_rv32zihintpause; isa_rv32zawrs; isa_rv32zilsd].

(** The disassembly expected of opcodes with table RV32 (with the line of main.cpp). *)
Definition dasm_RV32 : list (N * N * string) := [
  (1096, 0x3100b3, "add	x1,x2,x3");
  (1102, 0x3103, "ld	x2,x0, +0x0");
  (1116, 0x203023, "sd	x2,x0, +0x0");
  (1129, 0x2001, "c.jal	x1, +0x0");
  (1134, 0x4041d213, "srai	x4,x3, SHAMTW=4");
  (1139, 0x6008, "c.flw	f10,x8, IMM=0");
  (1145, 0xe008, "c.fsw	f10,x8, IMM=0")].

(** What main.cpp asserts or golden.out shows of opcodes with table RV32. *)
Definition obs_RV32 : list (N * N * gobs) := [
  (1103, 0x3103, GInt Dst 0xc);
  (1117, 0x203023, GInt Src 0xd);
  (1140, 0x6008, GMnemonic "c.flw");
  (1146, 0xe008, GMnemonic "c.fsw")].

(** The text expected for the tree of table RV32: depth and text of each line. *)
Definition tree_RV32 : list (nat * string) := [
  (0%nat, "IFactoryMatchListComposite::Field family");
  (1%nat, "[0]: IFactoryDenseComposite::Field opcode");
  (2%nat, "[0]: IFactoryDenseComposite::Field func3");
  (3%nat, "[0]: IFactoryDenseComposite::Field func2A");
  (4%nat, "[default]: IFactorySpecialCaseComposite::Field ");
  (5%nat, "[default]: 'c.addi4spn', extractor=Extractor 'CIW_sp', factory=IFactory('addi'), stencil = 0x13");
  (3%nat, "[1]: IFactoryDenseComposite::Field func2A");
  (4%nat, "[default]: IFactorySpecialCaseComposite::Field ");
  (5%nat, "[default]: 'c.fld', extractor=Extractor 'C0_load_double', factory=IFactory('fld'), stencil = 0x3007");
  (3%nat, "[2]: IFactoryDenseComposite::Field func2A");
  (4%nat, "[default]: IFactorySpecialCaseComposite::Field ");
  (5%nat, "[default]: 'c.lw', extractor=Extractor 'C0_load_word', factory=IFactory('lw'), stencil = 0x2003");
  (3%nat, "[3]: IFactoryDenseComposite::Field func2A");
  (4%nat, "[default]: IFactorySpecialCaseComposite::Field ");
  (5%nat, "[default]: 'c.flw', extractor=Extractor 'C0_load_word', factory=IFactory('flw'), stencil = 0x2007");
  (3%nat, "[5]: IFactoryDenseComposite::Field func2A");
  (4%nat, "[default]: IFactorySpecialCaseComposite::Field ");
  (5%nat, "[default]: 'c.fsd', extractor=Extractor 'C0_store_double', factory=IFactory('fsd'), stencil = 0x3027");
  (3%nat, "[6]: IFactoryDenseComposite::Field func2A");
  (4%nat, "[default]: IFactorySpecialCaseComposite::Field ");
  (5%nat, "[default]: 'c.sw', extractor=Extractor 'C0_store_word', factory=IFactory('sw'), stencil = 0x2023");
  (3%nat, "[7]: IFactoryDenseComposite::Field func2A");
  (4%nat, "[default]: IFactorySpecialCaseComposite::Field ");
  (5%nat, "[default]: 'c.fsw', extractor=Extractor 'C0_store_word', factory=IFactory('fsw'), stencil = 0x2027");
  (2%nat, "[1]: IFactoryDenseComposite::Field func3");
  (3%nat, "[0]: IFactoryDenseComposite::Field func2");
  (4%nat, "[0]: IFactoryDenseComposite::Field func2b");
  (5%nat, "[default]: IFactoryDenseComposite::Field func1");
  (6%nat, "[default]: IFactorySpecialCaseComposite::Field ");
  (7%nat, "[0]: 'c.nop', mask=0x380, field_set=0x8, value=0x0, nfixed=1, extractor=Extractor 'CI_addi', factory=CUSTOM IFactory('nop'): type = I");
  (4%nat, "[default]: IFactoryDenseComposite::Field func2b");
  (5%nat, "[default]: IFactoryDenseComposite::Field func1");
  (6%nat, "[default]: IFactorySpecialCaseComposite::Field ");
  (7%nat, "[default]: 'c.addi', extractor=Extractor 'CI_addi', factory=IFactory('addi'), stencil = 0x13");
  (3%nat, "[1]: IFactoryDenseComposite::Field func2");
  (4%nat, "[default]: IFactoryDenseComposite::Field func2b");
  (5%nat, "[default]: IFactoryDenseComposite::Field func1");
  (6%nat, "[default]: IFactorySpecialCaseComposite::Field ");
  (7%nat, "[default]: 'c.jal', extractor=Extractor 'CJAL', factory=IFactory('jal'), stencil = 0x6f");
  (3%nat, "[2]: IFactoryDenseComposite::Field func2");
  (4%nat, "[default]: IFactoryDenseComposite::Field func2b");
  (5%nat, "[default]: IFactoryDenseComposite::Field func1");
  (6%nat, "[default]: IFactorySpecialCaseComposite::Field ");
  (7%nat, "[default]: 'c.li', extractor=Extractor 'CI_rD_only', factory=IFactory('li'), stencil = 0x13");
  (3%nat, "[3]: IFactoryDenseComposite::Field func2");
  (4%nat, "[0]: IFactoryDenseComposite::Field func2b");
  (5%nat, "[default]: IFactoryDenseComposite::Field func1");
  (6%nat, "[default]: IFactorySpecialCaseComposite::Field ");
  (7%nat, "[0]: 'c.addi16sp', mask=0x380, field_set=0x8, value=0x100, nfixed=1, extractor=Extractor 'CI_sp', factory=IFactory('addi'), stencil = 0x13");
  (4%nat, "[default]: IFactoryDenseComposite::Field func2b");
  (5%nat, "[default]: IFactoryDenseComposite::Field func1");
  (6%nat, "[default]: IFactorySpecialCaseComposite::Field ");
  (7%nat, "[default]: 'c.lui', extractor=Extractor 'CI_rD_shifted', factory=IFactory('lui'), stencil = 0x37");
  (3%nat, "[4]: IFactoryDenseComposite::Field func2");
  (4%nat, "[0]: IFactoryDenseComposite::Field func2b");
  (5%nat, "[default]: IFactoryDenseComposite::Field func1");
  (6%nat, "[default]: IFactorySpecialCaseComposite::Field ");
  (7%nat, "[default]: 'c.srli', extractor=Extractor 'CIX', factory=IFactory('srli'), stencil = 0x5013");
  (4%nat, "[1]: IFactoryDenseComposite::Field func2b");
  (5%nat, "[default]: IFactoryDenseComposite::Field func1");
  (6%nat, "[default]: IFactorySpecialCaseComposite::Field ");
  (7%nat, "[default]: 'c.srai', extractor=Extractor 'CIX', factory=IFactory('srai'), stencil = 0x40005013");
  (4%nat, "[2]: IFactoryDenseComposite::Field func2b");
  (5%nat, "[default]: IFactoryDenseComposite::Field func1");
  (6%nat, "[default]: IFactorySpecialCaseComposite::Field ");
  (7%nat, "[default]: 'c.andi', extractor=Extractor 'CIX_andi', factory=IFactory('andi'), stencil = 0x7013");
  (4%nat, "[3]: IFactoryDenseComposite::Field func2b");
  (5%nat, "[0]: IFactoryDenseComposite::Field func1");
  (6%nat, "[0]: IFactorySpecialCaseComposite::Field ");
  (7%nat, "[default]: 'c.sub', extractor=Extractor 'CA', factory=IFactory('sub'), stencil = 0x40000033");
  (5%nat, "[1]: IFactoryDenseComposite::Field func1");
  (6%nat, "[0]: IFactorySpecialCaseComposite::Field ");
  (7%nat, "[default]: 'c.xor', extractor=Extractor 'CA', factory=IFactory('xor'), stencil = 0x4033");
  (5%nat, "[2]: IFactoryDenseComposite::Field func1");
  (6%nat, "[0]: IFactorySpecialCaseComposite::Field ");
  (7%nat, "[default]: 'c.or', extractor=Extractor 'CA', factory=IFactory('or'), stencil = 0x6033");
  (5%nat, "[3]: IFactoryDenseComposite::Field func1");
  (6%nat, "[0]: IFactorySpecialCaseComposite::Field ");
  (7%nat, "[default]: 'c.and', extractor=Extractor 'CA', factory=IFactory('and'), stencil = 0x7033");
  (3%nat, "[5]: IFactoryDenseComposite::Field func2");
  (4%nat, "[default]: IFactoryDenseComposite::Field func2b");
  (5%nat, "[default]: IFactoryDenseComposite::Field func1");
  (6%nat, "[default]: IFactorySpecialCaseComposite::Field ");
  (7%nat, "[default]: 'c.j', extractor=Extractor 'CJ', factory=IFactory('jal'), stencil = 0x6f");
  (3%nat, "[6]: IFactoryDenseComposite::Field func2");
  (4%nat, "[default]: IFactoryDenseComposite::Field func2b");
  (5%nat, "[default]: IFactoryDenseComposite::Field func1");
  (6%nat, "[default]: IFactorySpecialCaseComposite::Field ");
  (7%nat, "[default]: 'c.beqz', extractor=Extractor 'CB', factory=IFactory('beq'), stencil = 0x63");
  (3%nat, "[7]: IFactoryDenseComposite::Field func2");
  (4%nat, "[default]: IFactoryDenseComposite::Field func2b");
  (5%nat, "[default]: IFactoryDenseComposite::Field func1");
  (6%nat, "[default]: IFactorySpecialCaseComposite::Field ");
  (7%nat, "[default]: 'c.bnez', extractor=Extractor 'CB', factory=IFactory('bne'), stencil = 0x1063");
  (2%nat, "[2]: IFactoryDenseComposite::Field func3");
  (3%nat, "[0]: IFactoryDenseComposite::Field func1");
  (4%nat, "[default]: IFactorySpecialCaseComposite::Field ");
  (5%nat, "[default]: 'c.slli', extractor=Extractor 'C2_slli', factory=IFactory('slli'), stencil = 0x1013");
  (3%nat, "[1]: IFactoryDenseComposite::Field func1");
  (4%nat, "[default]: IFactorySpecialCaseComposite::Field ");
  (5%nat, "[default]: 'c.fldsp', extractor=Extractor 'C2_sp_load_float_double', factory=IFactory('fld'), stencil = 0x3007");
  (3%nat, "[2]: IFactoryDenseComposite::Field func1");
  (4%nat, "[default]: IFactorySpecialCaseComposite::Field ");
  (5%nat, "[default]: 'c.lwsp', extractor=Extractor 'C2_sp_load_word', factory=IFactory('lw'), stencil = 0x2003");
  (3%nat, "[3]: IFactoryDenseComposite::Field func1");
  (4%nat, "[default]: IFactorySpecialCaseComposite::Field ");
  (5%nat, "[default]: 'c.flwsp', extractor=Extractor 'C2_sp_load_float_single', factory=IFactory('flw'), stencil = 0x2007");
  (3%nat, "[4]: IFactoryDenseComposite::Field func1");
  (4%nat, "[0]: IFactorySpecialCaseComposite::Field ");
  (5%nat, "[0]: 'c.jr', mask=0x7c, field_set=0x40, value=0x0, nfixed=1, extractor=Extractor 'CJR', factory=IFactory('jalr'), stencil = 0x67");
  (5%nat, "[default]: 'c.mv', extractor=Extractor 'C2_mv', factory=IFactory('add'), stencil = 0x33");
  (4%nat, "[1]: IFactorySpecialCaseComposite::Field ");
  (5%nat, "[0]: 'c.ebreak', mask=0xffc, field_set=0x50, value=0x0, nfixed=2, extractor=Extractor 'C2', factory=IFactory('ebreak'), stencil = 0x100073");
  (5%nat, "[1]: 'c.jalr', mask=0x7c, field_set=0x40, value=0x0, nfixed=1, extractor=Extractor 'CJALR', factory=IFactory('jalr'), stencil = 0x67");
  (5%nat, "[default]: 'c.add', extractor=Extractor 'C2_add', factory=IFactory('add'), stencil = 0x33");
  (3%nat, "[5]: IFactoryDenseComposite::Field func1");
  (4%nat, "[default]: IFactorySpecialCaseComposite::Field ");
  (5%nat, "[default]: 'c.fsdsp', extractor=Extractor 'C2_sp_store_double', factory=IFactory('fsd'), stencil = 0x3027");
  (3%nat, "[6]: IFactoryDenseComposite::Field func1");
  (4%nat, "[default]: IFactorySpecialCaseComposite::Field ");
  (5%nat, "[default]: 'c.swsp', extractor=Extractor 'C2_sp_store_word', factory=IFactory('sw'), stencil = 0x2023");
  (3%nat, "[7]: IFactoryDenseComposite::Field func1");
  (4%nat, "[default]: IFactorySpecialCaseComposite::Field ");
  (5%nat, "[default]: 'c.fswsp', extractor=Extractor 'C2_sp_store_word', factory=IFactory('fsw'), stencil = 0x2027");
  (1%nat, "[1]: IFactoryDenseComposite::Field opcode");
  (2%nat, "[3]: IFactoryDenseComposite::Field func3");
  (3%nat, "[0]: IFactorySpecialCaseComposite::Field ");
  (4%nat, "[default]: 'lb', extractor=Extractor 'I_load', factory=IFactory('lb'), stencil = 0x3");
  (3%nat, "[1]: IFactorySpecialCaseComposite::Field ");
  (4%nat, "[default]: 'lh', extractor=Extractor 'I_load', factory=IFactory('lh'), stencil = 0x1003");
  (3%nat, "[2]: IFactorySpecialCaseComposite::Field ");
  (4%nat, "[default]: 'lw', extractor=Extractor 'I_load', factory=IFactory('lw'), stencil = 0x2003");
  (3%nat, "[3]: IFactorySpecialCaseComposite::Field ");
  (4%nat, "[default]: 'ld', extractor=Extractor 'I_load', factory=IFactory('ld'), stencil = 0x3003");
  (3%nat, "[4]: IFactorySpecialCaseComposite::Field ");
  (4%nat, "[default]: 'lbu', extractor=Extractor 'I_load', factory=IFactory('lbu'), stencil = 0x4003");
  (3%nat, "[5]: IFactorySpecialCaseComposite::Field ");
  (4%nat, "[default]: 'lhu', extractor=Extractor 'I_load', factory=IFactory('lhu'), stencil = 0x5003");
  (2%nat, "[7]: IFactoryDenseComposite::Field width");
  (3%nat, "[2]: IFactoryDenseComposite::Field mewop");
  (4%nat, "[default]: IFactorySpecialCaseComposite::Field ");
  (5%nat, "[default]: 'flw', extractor=Extractor 'I_load', factory=IFactory('flw'), stencil = 0x2007");
  (3%nat, "[3]: IFactoryDenseComposite::Field mewop");
  (4%nat, "[default]: IFactorySpecialCaseComposite::Field ");
  (5%nat, "[default]: 'fld', extractor=Extractor 'I_load', factory=IFactory('fld'), stencil = 0x3007");
  (2%nat, "[f]: IFactoryDenseComposite::Field func3");
  (3%nat, "[0]: IFactorySpecialCaseComposite::Field ");
  (4%nat, "[default]: 'fence', extractor=Extractor 'FENCE', factory=IFactory('fence'), stencil = 0xf");
  (3%nat, "[1]: IFactorySpecialCaseComposite::Field ");
  (4%nat, "[default]: 'fence.i', extractor=Extractor 'I', factory=IFactory('fence.i'), stencil = 0x100f");
  (2%nat, "[13]: IFactoryDenseComposite::Field func3");
  (3%nat, "[0]: IFactoryDenseComposite::Field func6");
  (4%nat, "[default]: IFactorySpecialCaseComposite::Field ");
  (5%nat, "[0]: 'li', mask=0xf8000, field_set=0x4, value=0x0, nfixed=1, extractor=Extractor 'I', factory=IFactory('li'), stencil = 0x13");
  (5%nat, "[default]: 'addi', extractor=Extractor 'I', factory=IFactory('addi'), stencil = 0x13");
  (3%nat, "[1]: IFactoryDenseComposite::Field func7");
  (4%nat, "[0]: IFactorySpecialCaseComposite::Field ");
  (5%nat, "[default]: 'slli', extractor=Extractor 'ISHW', factory=IFactory('slli'), stencil = 0x1013");
  (3%nat, "[2]: IFactoryDenseComposite::Field func6");
  (4%nat, "[default]: IFactorySpecialCaseComposite::Field ");
  (5%nat, "[default]: 'slti', extractor=Extractor 'I', factory=IFactory('slti'), stencil = 0x2013");
  (3%nat, "[3]: IFactoryDenseComposite::Field func6");
  (4%nat, "[default]: IFactorySpecialCaseComposite::Field ");
  (5%nat, "[default]: 'sltiu', extractor=Extractor 'I', factory=IFactory('sltiu'), stencil = 0x3013");
  (3%nat, "[4]: IFactoryDenseComposite::Field func6");
  (4%nat, "[default]: IFactorySpecialCaseComposite::Field ");
  (5%nat, "[default]: 'xori', extractor=Extractor 'I', factory=IFactory('xori'), stencil = 0x4013");
  (3%nat, "[5]: IFactoryDenseComposite::Field func7");
  (4%nat, "[0]: IFactorySpecialCaseComposite::Field ");
  (5%nat, "[default]: 'srli', extractor=Extractor 'ISHW', factory=IFactory('srli'), stencil = 0x5013");
  (4%nat, "[20]: IFactorySpecialCaseComposite::Field ");
  (5%nat, "[default]: 'srai', extractor=Extractor 'ISHW', factory=IFactory('srai'), stencil = 0x40005013");
  (3%nat, "[6]: IFactoryDenseComposite::Field func6");
  (4%nat, "[default]: IFactorySpecialCaseComposite::Field ");
  (5%nat, "[default]: 'ori', extractor=Extractor 'I', factory=IFactory('ori'), stencil = 0x6013");
  (3%nat, "[7]: IFactoryDenseComposite::Field func6");
  (4%nat, "[default]: IFactorySpecialCaseComposite::Field ");
  (5%nat, "[default]: 'andi', extractor=Extractor 'I', factory=IFactory('andi'), stencil = 0x7013");
  (2%nat, "[17]: IFactorySpecialCaseComposite::Field ");
  (3%nat, "[default]: 'auipc', extractor=Extractor 'U', factory=IFactory('auipc'), stencil = 0x17");
  (2%nat, "[23]: IFactoryDenseComposite::Field func3");
  (3%nat, "[0]: IFactorySpecialCaseComposite::Field ");
  (4%nat, "[default]: 'sb', extractor=Extractor 'S', factory=IFactory('sb'), stencil = 0x23");
  (3%nat, "[1]: IFactorySpecialCaseComposite::Field ");
  (4%nat, "[default]: 'sh', extractor=Extractor 'S', factory=IFactory('sh'), stencil = 0x1023");
  (3%nat, "[2]: IFactorySpecialCaseComposite::Field ");
  (4%nat, "[default]: 'sw', extractor=Extractor 'S', factory=IFactory('sw'), stencil = 0x2023");
  (3%nat, "[3]: IFactorySpecialCaseComposite::Field ");
  (4%nat, "[default]: 'sd', extractor=Extractor 'S', factory=IFactory('sd'), stencil = 0x3023");
  (2%nat, "[27]: IFactoryDenseComposite::Field width");
  (3%nat, "[2]: IFactoryDenseComposite::Field mewop");
  (4%nat, "[default]: IFactorySpecialCaseComposite::Field ");
  (5%nat, "[default]: 'fsw', extractor=Extractor 'S', factory=IFactory('fsw'), stencil = 0x2027");
  (3%nat, "[3]: IFactoryDenseComposite::Field mewop");
  (4%nat, "[default]: IFactorySpecialCaseComposite::Field ");
  (5%nat, "[default]: 'fsd', extractor=Extractor 'S', factory=IFactory('fsd'), stencil = 0x3027");
  (2%nat, "[2f]: IFactoryDenseComposite::Field func3");
  (3%nat, "[2]: IFactoryDenseComposite::Field func5");
  (4%nat, "[0]: IFactorySpecialCaseComposite::Field ");
  (5%nat, "[default]: 'amoadd.w', extractor=Extractor 'AMO', factory=IFactory('amoadd.w'), stencil = 0x202f");
  (4%nat, "[1]: IFactorySpecialCaseComposite::Field ");
  (5%nat, "[default]: 'amoswap.w', extractor=Extractor 'AMO', factory=IFactory('amoswap.w'), stencil = 0x800202f");
  (4%nat, "[2]: IFactorySpecialCaseComposite::Field ");
  (5%nat, "[0]: 'lr.w', mask=0x1f00000, field_set=0x20, value=0x0, nfixed=1, extractor=Extractor 'AMO', factory=IFactory('lr.w'), stencil = 0x1000202f");
  (4%nat, "[3]: IFactorySpecialCaseComposite::Field ");
  (5%nat, "[default]: 'sc.w', extractor=Extractor 'AMO', factory=IFactory('sc.w'), stencil = 0x1800202f");
  (4%nat, "[4]: IFactorySpecialCaseComposite::Field ");
  (5%nat, "[default]: 'amoxor.w', extractor=Extractor 'AMO', factory=IFactory('amoxor.w'), stencil = 0x2000202f");
  (4%nat, "[8]: IFactorySpecialCaseComposite::Field ");
  (5%nat, "[default]: 'amoor.w', extractor=Extractor 'AMO', factory=IFactory('amoor.w'), stencil = 0x4000202f");
  (4%nat, "[c]: IFactorySpecialCaseComposite::Field ");
  (5%nat, "[default]: 'amoand.w', extractor=Extractor 'AMO', factory=IFactory('amoand.w'), stencil = 0x6000202f");
  (4%nat, "[10]: IFactorySpecialCaseComposite::Field ");
  (5%nat, "[default]: 'amomin.w', extractor=Extractor 'AMO', factory=IFactory('amomin.w'), stencil = 0x8000202f");
  (4%nat, "[14]: IFactorySpecialCaseComposite::Field ");
  (5%nat, "[default]: 'amomax.w', extractor=Extractor 'AMO', factory=IFactory('amomax.w'), stencil = 0xa000202f");
  (4%nat, "[18]: IFactorySpecialCaseComposite::Field ");
  (5%nat, "[default]: 'amominu.w', extractor=Extractor 'AMO', factory=IFactory('amominu.w'), stencil = 0xc000202f");
  (4%nat, "[1c]: IFactorySpecialCaseComposite::Field ");
  (5%nat, "[default]: 'amomaxu.w', extractor=Extractor 'AMO', factory=IFactory('amomaxu.w'), stencil = 0xe000202f");
  (2%nat, "[33]: IFactoryDenseComposite::Field func3");
  (3%nat, "[0]: IFactoryDenseComposite::Field func7");
  (4%nat, "[0]: IFactorySpecialCaseComposite::Field ");
  (5%nat, "[default]: 'add', extractor=Extractor 'R', factory=IFactory('add'), stencil = 0x33");
  (4%nat, "[1]: IFactorySpecialCaseComposite::Field ");
  (5%nat, "[default]: 'mul', extractor=Extractor 'R', factory=IFactory('mul'), stencil = 0x2000033");
  (4%nat, "[20]: IFactorySpecialCaseComposite::Field ");
  (5%nat, "[default]: 'sub', extractor=Extractor 'R', factory=IFactory('sub'), stencil = 0x40000033");
  (3%nat, "[1]: IFactoryDenseComposite::Field func7");
  (4%nat, "[0]: IFactorySpecialCaseComposite::Field ");
  (5%nat, "[default]: 'sll', extractor=Extractor 'R', factory=IFactory('sll'), stencil = 0x1033");
  (4%nat, "[1]: IFactorySpecialCaseComposite::Field ");
  (5%nat, "[default]: 'mulh', extractor=Extractor 'R', factory=IFactory('mulh'), stencil = 0x2001033");
  (3%nat, "[2]: IFactoryDenseComposite::Field func7");
  (4%nat, "[0]: IFactorySpecialCaseComposite::Field ");
  (5%nat, "[default]: 'slt', extractor=Extractor 'R', factory=IFactory('slt'), stencil = 0x2033");
  (4%nat, "[1]: IFactorySpecialCaseComposite::Field ");
  (5%nat, "[default]: 'mulhsu', extractor=Extractor 'R', factory=IFactory('mulhsu'), stencil = 0x2002033");
  (3%nat, "[3]: IFactoryDenseComposite::Field func7");
  (4%nat, "[0]: IFactorySpecialCaseComposite::Field ");
  (5%nat, "[default]: 'sltu', extractor=Extractor 'R', factory=IFactory('sltu'), stencil = 0x3033");
  (4%nat, "[1]: IFactorySpecialCaseComposite::Field ");
  (5%nat, "[default]: 'mulhu', extractor=Extractor 'R', factory=IFactory('mulhu'), stencil = 0x2003033");
  (3%nat, "[4]: IFactoryDenseComposite::Field func7");
  (4%nat, "[0]: IFactorySpecialCaseComposite::Field ");
  (5%nat, "[default]: 'xor', extractor=Extractor 'R', factory=IFactory('xor'), stencil = 0x4033");
  (4%nat, "[1]: IFactorySpecialCaseComposite::Field ");
  (5%nat, "[default]: 'div', extractor=Extractor 'R', factory=IFactory('div'), stencil = 0x2004033");
  (3%nat, "[5]: IFactoryDenseComposite::Field func7");
  (4%nat, "[0]: IFactorySpecialCaseComposite::Field ");
  (5%nat, "[default]: 'srl', extractor=Extractor 'R', factory=IFactory('srl'), stencil = 0x5033");
  (4%nat, "[1]: IFactorySpecialCaseComposite::Field ");
  (5%nat, "[default]: 'divu', extractor=Extractor 'R', factory=IFactory('divu'), stencil = 0x2005033");
  (4%nat, "[20]: IFactorySpecialCaseComposite::Field ");
  (5%nat, "[default]: 'sra', extractor=Extractor 'R', factory=IFactory('sra'), stencil = 0x40005033");
  (3%nat, "[6]: IFactoryDenseComposite::Field func7");
  (4%nat, "[0]: IFactorySpecialCaseComposite::Field ");
  (5%nat, "[default]: 'or', extractor=Extractor 'R', factory=IFactory('or'), stencil = 0x6033");
  (4%nat, "[1]: IFactorySpecialCaseComposite::Field ");
  (5%nat, "[default]: 'rem', extractor=Extractor 'R', factory=IFactory('rem'), stencil = 0x2006033");
  (3%nat, "[7]: IFactoryDenseComposite::Field func7");
  (4%nat, "[0]: IFactorySpecialCaseComposite::Field ");
  (5%nat, "[default]: 'and', extractor=Extractor 'R', factory=IFactory('and'), stencil = 0x7033");
  (4%nat, "[1]: IFactorySpecialCaseComposite::Field ");
  (5%nat, "[default]: 'remu', extractor=Extractor 'R', factory=IFactory('remu'), stencil = 0x2007033");
  (2%nat, "[37]: IFactorySpecialCaseComposite::Field ");
  (3%nat, "[default]: 'lui', extractor=Extractor 'U', factory=IFactory('lui'), stencil = 0x37");
  (2%nat, "[43]: IFactoryDenseComposite::Field func2");
  (3%nat, "[0]: IFactorySpecialCaseComposite::Field ");
  (4%nat, "[default]: 'fmadd.s', extractor=Extractor 'R4', factory=IFactory('fmadd.s'), stencil = 0x43");
  (3%nat, "[1]: IFactorySpecialCaseComposite::Field ");
  (4%nat, "[default]: 'fmadd.d', extractor=Extractor 'R4', factory=IFactory('fmadd.d'), stencil = 0x2000043");
  (2%nat, "[47]: IFactoryDenseComposite::Field func2");
  (3%nat, "[0]: IFactorySpecialCaseComposite::Field ");
  (4%nat, "[default]: 'fmsub.s', extractor=Extractor 'R4', factory=IFactory('fmsub.s'), stencil = 0x47");
  (3%nat, "[1]: IFactorySpecialCaseComposite::Field ");
  (4%nat, "[default]: 'fmsub.d', extractor=Extractor 'R4', factory=IFactory('fmsub.d'), stencil = 0x2000047");
  (2%nat, "[4b]: IFactoryDenseComposite::Field func2");
  (3%nat, "[0]: IFactorySpecialCaseComposite::Field ");
  (4%nat, "[default]: 'fnmsub.s', extractor=Extractor 'R4', factory=IFactory('fnmsub.s'), stencil = 0x4b");
  (3%nat, "[1]: IFactorySpecialCaseComposite::Field ");
  (4%nat, "[default]: 'fnmsub.d', extractor=Extractor 'R4', factory=IFactory('fnmsub.d'), stencil = 0x200004b");
  (2%nat, "[4f]: IFactoryDenseComposite::Field func2");
  (3%nat, "[0]: IFactorySpecialCaseComposite::Field ");
  (4%nat, "[default]: 'fnmadd.s', extractor=Extractor 'R4', factory=IFactory('fnmadd.s'), stencil = 0x4f");
  (3%nat, "[1]: IFactorySpecialCaseComposite::Field ");
  (4%nat, "[default]: 'fnmadd.d', extractor=Extractor 'R4', factory=IFactory('fnmadd.d'), stencil = 0x200004f");
  (2%nat, "[53]: IFactoryDenseComposite::Field func7");
  (3%nat, "[0]: IFactorySpecialCaseComposite::Field ");
  (4%nat, "[default]: 'fadd.s', extractor=Extractor 'Rfloat', factory=IFactory('fadd.s'), stencil = 0x53");
  (3%nat, "[1]: IFactorySpecialCaseComposite::Field ");
  (4%nat, "[default]: 'fadd.d', extractor=Extractor 'Rfloat', factory=IFactory('fadd.d'), stencil = 0x2000053");
  (3%nat, "[4]: IFactorySpecialCaseComposite::Field ");
  (4%nat, "[default]: 'fsub.s', extractor=Extractor 'Rfloat', factory=IFactory('fsub.s'), stencil = 0x8000053");
  (3%nat, "[5]: IFactorySpecialCaseComposite::Field ");
  (4%nat, "[default]: 'fsub.d', extractor=Extractor 'Rfloat', factory=IFactory('fsub.d'), stencil = 0xa000053");
  (3%nat, "[8]: IFactorySpecialCaseComposite::Field ");
  (4%nat, "[default]: 'fmul.s', extractor=Extractor 'Rfloat', factory=IFactory('fmul.s'), stencil = 0x10000053");
  (3%nat, "[9]: IFactorySpecialCaseComposite::Field ");
  (4%nat, "[default]: 'fmul.d', extractor=Extractor 'Rfloat', factory=IFactory('fmul.d'), stencil = 0x12000053");
  (3%nat, "[c]: IFactorySpecialCaseComposite::Field ");
  (4%nat, "[default]: 'fdiv.s', extractor=Extractor 'Rfloat', factory=IFactory('fdiv.s'), stencil = 0x18000053");
  (3%nat, "[d]: IFactorySpecialCaseComposite::Field ");
  (4%nat, "[default]: 'fdiv.d', extractor=Extractor 'Rfloat', factory=IFactory('fdiv.d'), stencil = 0x1a000053");
  (3%nat, "[10]: IFactorySpecialCaseComposite::Field ");
  (4%nat, "[0]: 'fsgnj.s', mask=0x7000, field_set=0x8, value=0x0, nfixed=1, extractor=Extractor 'Rfloat', factory=IFactory('fsgnj.s'), stencil = 0x20000053");
  (4%nat, "[1]: 'fsgnjn.s', mask=0x7000, field_set=0x8, value=0x1000, nfixed=1, extractor=Extractor 'Rfloat', factory=IFactory('fsgnjn.s'), stencil = 0x20001053");
  (4%nat, "[2]: 'fsgnjx.s', mask=0x7000, field_set=0x8, value=0x2000, nfixed=1, extractor=Extractor 'Rfloat', factory=IFactory('fsgnjx.s'), stencil = 0x20002053");
  (3%nat, "[11]: IFactorySpecialCaseComposite::Field ");
  (4%nat, "[0]: 'fsgnj.d', mask=0x7000, field_set=0x8, value=0x0, nfixed=1, extractor=Extractor 'Rfloat', factory=IFactory('fsgnj.d'), stencil = 0x22000053");
  (4%nat, "[1]: 'fsgnjn.d', mask=0x7000, field_set=0x8, value=0x1000, nfixed=1, extractor=Extractor 'Rfloat', factory=IFactory('fsgnjn.d'), stencil = 0x22001053");
  (4%nat, "[2]: 'fsgnjx.d', mask=0x7000, field_set=0x8, value=0x2000, nfixed=1, extractor=Extractor 'Rfloat', factory=IFactory('fsgnjx.d'), stencil = 0x22002053");
  (3%nat, "[14]: IFactorySpecialCaseComposite::Field ");
  (4%nat, "[0]: 'fmin.s', mask=0x7000, field_set=0x8, value=0x0, nfixed=1, extractor=Extractor 'Rfloat', factory=IFactory('fmin.s'), stencil = 0x28000053");
  (4%nat, "[1]: 'fmax.s', mask=0x7000, field_set=0x8, value=0x1000, nfixed=1, extractor=Extractor 'Rfloat', factory=IFactory('fmax.s'), stencil = 0x28001053");
  (4%nat, "[2]: 'fmaxm.s', mask=0x7000, field_set=0x8, value=0x3000, nfixed=1, extractor=Extractor 'Rfloat', factory=IFactory('fmaxm.s'), stencil = 0x28003053");
  (4%nat, "[3]: 'fminm.s', mask=0x7000, field_set=0x8, value=0x2000, nfixed=1, extractor=Extractor 'Rfloat', factory=IFactory('fminm.s'), stencil = 0x28002053");
  (3%nat, "[15]: IFactorySpecialCaseComposite::Field ");
  (4%nat, "[0]: 'fmin.d', mask=0x7000, field_set=0x8, value=0x0, nfixed=1, extractor=Extractor 'Rfloat', factory=IFactory('fmin.d'), stencil = 0x2a000053");
  (4%nat, "[1]: 'fmax.d', mask=0x7000, field_set=0x8, value=0x1000, nfixed=1, extractor=Extractor 'Rfloat', factory=IFactory('fmax.d'), stencil = 0x2a001053");
  (4%nat, "[2]: 'fmaxm.d', mask=0x7000, field_set=0x8, value=0x3000, nfixed=1, extractor=Extractor 'Rfloat', factory=IFactory('fmaxm.d'), stencil = 0x2a003053");
  (4%nat, "[3]: 'fminm.d', mask=0x7000, field_set=0x8, value=0x2000, nfixed=1, extractor=Extractor 'Rfloat', factory=IFactory('fminm.d'), stencil = 0x2a002053");
  (3%nat, "[20]: IFactorySpecialCaseComposite::Field ");
  (4%nat, "[0]: 'fround.s', mask=0x1f00000, field_set=0x2, value=0x400000, nfixed=1, extractor=Extractor 'Rfloat', factory=IFactory('fround.s'), stencil = 0x40400053");
  (4%nat, "[1]: 'froundnx.s', mask=0x1f00000, field_set=0x2, value=0x500000, nfixed=1, extractor=Extractor 'Rfloat', factory=IFactory('froundnx.s'), stencil = 0x40500053");
  (4%nat, "[2]: 'fcvt.s.d', mask=0x1f00000, field_set=0x2, value=0x100000, nfixed=1, extractor=Extractor 'Rfloat', factory=IFactory('fcvt.s.d'), stencil = 0x40100053");
  (3%nat, "[21]: IFactorySpecialCaseComposite::Field ");
  (4%nat, "[0]: 'fcvt.d.s', mask=0x1f00000, field_set=0x2, value=0x0, nfixed=1, extractor=Extractor 'Rfloat', factory=IFactory('fcvt.d.s'), stencil = 0x42000053");
  (4%nat, "[1]: 'fround.d', mask=0x1f00000, field_set=0x2, value=0x400000, nfixed=1, extractor=Extractor 'Rfloat', factory=IFactory('fround.d'), stencil = 0x42400053");
  (4%nat, "[2]: 'froundnx.d', mask=0x1f00000, field_set=0x2, value=0x500000, nfixed=1, extractor=Extractor 'Rfloat', factory=IFactory('froundnx.d'), stencil = 0x42500053");
  (3%nat, "[2c]: IFactorySpecialCaseComposite::Field ");
  (4%nat, "[0]: 'fsqrt.s', mask=0x1f00000, field_set=0x2, value=0x0, nfixed=1, extractor=Extractor 'Rfloat', factory=IFactory('fsqrt.s'), stencil = 0x58000053");
  (3%nat, "[2d]: IFactorySpecialCaseComposite::Field ");
  (4%nat, "[0]: 'fsqrt.d', mask=0x1f00000, field_set=0x2, value=0x0, nfixed=1, extractor=Extractor 'Rfloat', factory=IFactory('fsqrt.d'), stencil = 0x5a000053");
  (3%nat, "[50]: IFactorySpecialCaseComposite::Field ");
  (4%nat, "[0]: 'fle.s', mask=0x7000, field_set=0x8, value=0x0, nfixed=1, extractor=Extractor 'Rfloat', factory=IFactory('fle.s'), stencil = 0xa0000053");
  (4%nat, "[1]: 'flt.s', mask=0x7000, field_set=0x8, value=0x1000, nfixed=1, extractor=Extractor 'Rfloat', factory=IFactory('flt.s'), stencil = 0xa0001053");
  (4%nat, "[2]: 'feq.s', mask=0x7000, field_set=0x8, value=0x2000, nfixed=1, extractor=Extractor 'Rfloat', factory=IFactory('feq.s'), stencil = 0xa0002053");
  (4%nat, "[3]: 'fleq.s', mask=0x7000, field_set=0x8, value=0x4000, nfixed=1, extractor=Extractor 'Rfloat', factory=IFactory('fleq.s'), stencil = 0xa0004053");
  (4%nat, "[4]: 'fltq.s', mask=0x7000, field_set=0x8, value=0x5000, nfixed=1, extractor=Extractor 'Rfloat', factory=IFactory('fltq.s'), stencil = 0xa0005053");
  (3%nat, "[51]: IFactorySpecialCaseComposite::Field ");
  (4%nat, "[0]: 'fle.d', mask=0x7000, field_set=0x8, value=0x0, nfixed=1, extractor=Extractor 'Rfloat', factory=IFactory('fle.d'), stencil = 0xa2000053");
  (4%nat, "[1]: 'flt.d', mask=0x7000, field_set=0x8, value=0x1000, nfixed=1, extractor=Extractor 'Rfloat', factory=IFactory('flt.d'), stencil = 0xa2001053");
  (4%nat, "[2]: 'feq.d', mask=0x7000, field_set=0x8, value=0x2000, nfixed=1, extractor=Extractor 'Rfloat', factory=IFactory('feq.d'), stencil = 0xa2002053");
  (4%nat, "[3]: 'fleq.d', mask=0x7000, field_set=0x8, value=0x4000, nfixed=1, extractor=Extractor 'Rfloat', factory=IFactory('fleq.d'), stencil = 0xa2004053");
  (4%nat, "[4]: 'fltq.d', mask=0x7000, field_set=0x8, value=0x5000, nfixed=1, extractor=Extractor 'Rfloat', factory=IFactory('fltq.d'), stencil = 0xa2005053");
  (3%nat, "[60]: IFactorySpecialCaseComposite::Field ");
  (4%nat, "[0]: 'fcvt.w.s', mask=0x1f00000, field_set=0x2, value=0x0, nfixed=1, extractor=Extractor 'Rfloat', factory=IFactory('fcvt.w.s'), stencil = 0xc0000053");
  (4%nat, "[1]: 'fcvt.wu.s', mask=0x1f00000, field_set=0x2, value=0x100000, nfixed=1, extractor=Extractor 'Rfloat', factory=IFactory('fcvt.wu.s'), stencil = 0xc0100053");
  (3%nat, "[61]: IFactorySpecialCaseComposite::Field ");
  (4%nat, "[0]: 'fcvtmod.w.d', mask=0x1f07000, field_set=0xa, value=0x801000, nfixed=2, extractor=Extractor 'Rfloat', factory=IFactory('fcvtmod.w.d'), stencil = 0xc2801053");
  (4%nat, "[1]: 'fcvt.w.d', mask=0x1f00000, field_set=0x2, value=0x0, nfixed=1, extractor=Extractor 'Rfloat', factory=IFactory('fcvt.w.d'), stencil = 0xc2000053");
  (4%nat, "[2]: 'fcvt.wu.d', mask=0x1f00000, field_set=0x2, value=0x100000, nfixed=1, extractor=Extractor 'Rfloat', factory=IFactory('fcvt.wu.d'), stencil = 0xc2100053");
  (3%nat, "[68]: IFactorySpecialCaseComposite::Field ");
  (4%nat, "[0]: 'fcvt.s.w', mask=0x1f00000, field_set=0x2, value=0x0, nfixed=1, extractor=Extractor 'Rfloat', factory=IFactory('fcvt.s.w'), stencil = 0xd0000053");
  (4%nat, "[1]: 'fcvt.s.wu', mask=0x1f00000, field_set=0x2, value=0x100000, nfixed=1, extractor=Extractor 'Rfloat', factory=IFactory('fcvt.s.wu'), stencil = 0xd0100053");
  (3%nat, "[69]: IFactorySpecialCaseComposite::Field ");
  (4%nat, "[0]: 'fcvt.d.w', mask=0x1f00000, field_set=0x2, value=0x0, nfixed=1, extractor=Extractor 'Rfloat', factory=IFactory('fcvt.d.w'), stencil = 0xd2000053");
  (4%nat, "[1]: 'fcvt.d.wu', mask=0x1f00000, field_set=0x2, value=0x100000, nfixed=1, extractor=Extractor 'Rfloat', factory=IFactory('fcvt.d.wu'), stencil = 0xd2100053");
  (3%nat, "[70]: IFactorySpecialCaseComposite::Field ");
  (4%nat, "[0]: 'fmv.x.w', mask=0x1f07000, field_set=0xa, value=0x0, nfixed=2, extractor=Extractor 'Rfloat', factory=IFactory('fmv.x.w'), stencil = 0xe0000053");
  (4%nat, "[1]: 'fclass.s', mask=0x1f07000, field_set=0xa, value=0x1000, nfixed=2, extractor=Extractor 'Rfloat', factory=IFactory('fclass.s'), stencil = 0xe0001053");
  (3%nat, "[71]: IFactorySpecialCaseComposite::Field ");
  (4%nat, "[0]: 'fclass.d', mask=0x1f07000, field_set=0xa, value=0x1000, nfixed=2, extractor=Extractor 'Rfloat', factory=IFactory('fclass.d'), stencil = 0xe2001053");
  (3%nat, "[78]: IFactorySpecialCaseComposite::Field ");
  (4%nat, "[0]: 'fmv.w.x', mask=0x1f07000, field_set=0xa, value=0x0, nfixed=2, extractor=Extractor 'Rfloat', factory=IFactory('fmv.w.x'), stencil = 0xf0000053");
  (4%nat, "[1]: 'fli.s', mask=0x1f07000, field_set=0xa, value=0x100000, nfixed=2, extractor=Extractor 'Rfloat', factory=IFactory('fli.s'), stencil = 0xf0100053");
  (3%nat, "[79]: IFactorySpecialCaseComposite::Field ");
  (4%nat, "[0]: 'fli.d', mask=0x1f07000, field_set=0xa, value=0x100000, nfixed=2, extractor=Extractor 'Rfloat', factory=IFactory('fli.d'), stencil = 0xf2100053");
  (2%nat, "[63]: IFactoryDenseComposite::Field func3");
  (3%nat, "[0]: IFactorySpecialCaseComposite::Field ");
  (4%nat, "[default]: 'beq', extractor=Extractor 'B', factory=IFactory('beq'), stencil = 0x63");
  (3%nat, "[1]: IFactorySpecialCaseComposite::Field ");
  (4%nat, "[default]: 'bne', extractor=Extractor 'B', factory=IFactory('bne'), stencil = 0x1063");
  (3%nat, "[4]: IFactorySpecialCaseComposite::Field ");
  (4%nat, "[default]: 'blt', extractor=Extractor 'B', factory=IFactory('blt'), stencil = 0x4063");
  (3%nat, "[5]: IFactorySpecialCaseComposite::Field ");
  (4%nat, "[default]: 'bge', extractor=Extractor 'B', factory=IFactory('bge'), stencil = 0x5063");
  (3%nat, "[6]: IFactorySpecialCaseComposite::Field ");
  (4%nat, "[default]: 'bltu', extractor=Extractor 'B', factory=IFactory('bltu'), stencil = 0x6063");
  (3%nat, "[7]: IFactorySpecialCaseComposite::Field ");
  (4%nat, "[default]: 'bgeu', extractor=Extractor 'B', factory=IFactory('bgeu'), stencil = 0x7063");
  (2%nat, "[67]: IFactoryDenseComposite::Field func3");
  (3%nat, "[0]: IFactorySpecialCaseComposite::Field ");
  (4%nat, "[default]: 'jalr', extractor=Extractor 'I', factory=IFactory('jalr'), stencil = 0x67");
  (2%nat, "[6f]: IFactorySpecialCaseComposite::Field ");
  (3%nat, "[default]: 'jal', extractor=Extractor 'J', factory=IFactory('jal'), stencil = 0x6f");
  (2%nat, "[73]: IFactoryDenseComposite::Field func3");
  (3%nat, "[0]: IFactoryDenseComposite::Field func7");
  (4%nat, "[0]: IFactorySpecialCaseComposite::Field ");
  (5%nat, "[0]: 'ecall', mask=0x1ff8f80, field_set=0x16, value=0x0, nfixed=3, extractor=Extractor 'R', factory=IFactory('ecall'), stencil = 0x73");
  (5%nat, "[1]: 'ebreak', mask=0x1ff8f80, field_set=0x16, value=0x100000, nfixed=3, extractor=Extractor 'R', factory=IFactory('ebreak'), stencil = 0x100073");
  (5%nat, "[2]: 'uret', mask=0x1ff8f80, field_set=0x16, value=0x200000, nfixed=3, extractor=Extractor 'R', factory=IFactory('uret'), stencil = 0x200073");
  (5%nat, "[3]: 'wrs.nto', mask=0x1ff8f80, field_set=0x16, value=0xd00000, nfixed=3, extractor=Extractor 'R', factory=IFactory('wrs.nto'), stencil = 0xd00073");
  (5%nat, "[4]: 'wrs.sto', mask=0x1ff8f80, field_set=0x16, value=0x1d00000, nfixed=3, extractor=Extractor 'R', factory=IFactory('wrs.sto'), stencil = 0x1d00073");
  (4%nat, "[8]: IFactorySpecialCaseComposite::Field ");
  (5%nat, "[0]: 'sret', mask=0x1ff8f80, field_set=0x16, value=0x200000, nfixed=3, extractor=Extractor 'R', factory=IFactory('sret'), stencil = 0x10200073");
  (5%nat, "[1]: 'wfi', mask=0x1ff8f80, field_set=0x16, value=0x500000, nfixed=3, extractor=Extractor 'R', factory=IFactory('wfi'), stencil = 0x10500073");
  (4%nat, "[9]: IFactorySpecialCaseComposite::Field ");
  (5%nat, "[0]: 'sfence.vma', mask=0xf80, field_set=0x10, value=0x0, nfixed=1, extractor=Extractor 'R', factory=IFactory('sfence.vma'), stencil = 0x12000073");
  (4%nat, "[18]: IFactorySpecialCaseComposite::Field ");
  (5%nat, "[0]: 'mret', mask=0x1ff8f80, field_set=0x16, value=0x200000, nfixed=3, extractor=Extractor 'R', factory=IFactory('mret'), stencil = 0x30200073");
  (4%nat, "[3d]: IFactorySpecialCaseComposite::Field ");
  (5%nat, "[0]: 'dret', mask=0x1ff8f80, field_set=0x16, value=0x1200000, nfixed=3, extractor=Extractor 'R', factory=IFactory('dret'), stencil = 0x7b200073");
  (4%nat, "[7e]: IFactorySpecialCaseComposite::Field ");
  (5%nat, "[0]: 'cflush.d.l1', mask=0x1f00f80, field_set=0x12, value=0x0, nfixed=2, extractor=Extractor 'R', factory=IFactory('cflush.d.l1'), stencil = 0xfc000073");
  (5%nat, "[1]: 'cdiscard.d.l1', mask=0x1f00f80, field_set=0x12, value=0x200000, nfixed=2, extractor=Extractor 'R', factory=IFactory('cdiscard.d.l1'), stencil = 0xfc200073");
  (5%nat, "[2]: 'cflush.i.l1', mask=0x1f00f80, field_set=0x12, value=0x100000, nfixed=2, extractor=Extractor 'R', factory=IFactory('cflush.i.l1'), stencil = 0xfc100073");
  (3%nat, "[1]: IFactoryDenseComposite::Field func7");
  (4%nat, "[default]: IFactorySpecialCaseComposite::Field ");
  (5%nat, "[default]: 'csrrw', extractor=Extractor 'CSR', factory=IFactory('csr'), stencil = 0x1073");
  (3%nat, "[2]: IFactoryDenseComposite::Field func7");
  (4%nat, "[default]: IFactorySpecialCaseComposite::Field ");
  (5%nat, "[default]: 'csrrs', extractor=Extractor 'CSR', factory=IFactory('csr'), stencil = 0x1073");
  (3%nat, "[3]: IFactoryDenseComposite::Field func7");
  (4%nat, "[default]: IFactorySpecialCaseComposite::Field ");
  (5%nat, "[default]: 'csrrc', extractor=Extractor 'CSR', factory=IFactory('csr'), stencil = 0x1073");
  (3%nat, "[5]: IFactoryDenseComposite::Field func7");
  (4%nat, "[default]: IFactorySpecialCaseComposite::Field ");
  (5%nat, "[default]: 'csrrwi', extractor=Extractor 'CSRI', factory=IFactory('csr'), stencil = 0x1073");
  (3%nat, "[6]: IFactoryDenseComposite::Field func7");
  (4%nat, "[default]: IFactorySpecialCaseComposite::Field ");
  (5%nat, "[default]: 'csrrsi', extractor=Extractor 'CSRI', factory=IFactory('csr'), stencil = 0x1073");
  (3%nat, "[7]: IFactoryDenseComposite::Field func7");
  (4%nat, "[default]: IFactorySpecialCaseComposite::Field ");
  (5%nat, "[default]: 'csrrci', extractor=Extractor 'CSRI', factory=IFactory('csr'), stencil = 0x1073")].

(** The files of table ZCLSD, in order. *)
Definition files_ZCLSD : list (list raw) :=
  [isa_rv32i; isa_rv32f; isa_rv32m; isa_rv32a; isa_rv32d; isa_rv32zicsr; isa_rv32zifencei; isa_rv32c; isa_rv32cd; isa_rv32zihintpause; isa_rv32zilsd; isa_rv32zclsd].

(** The disassembly expected of opcodes with table ZCLSD (with the line of main.cpp). *)
Definition dasm_ZCLSD : list (N * N * string) := [
  (1174, 0x6008, "c.ld	x10,x8, IMM=0");
  (1188, 0xe008, "c.sd	x10,x8, IMM=0")].

(** What main.cpp asserts or golden.out shows of opcodes with table ZCLSD. *)
Definition obs_ZCLSD : list (N * N * gobs) := [
  (1175, 0x6008, GMnemonic "c.ld");
  (1176, 0x6008, GInt Dst 0xc00);
  (1189, 0xe008, GMnemonic "c.sd");
  (1190, 0xe008, GInt Src 0xd00)].

(** The text expected for the tree of table ZCLSD: depth and text of each line. *)
Definition tree_ZCLSD : list (nat * string) := [
  (0%nat, "IFactoryMatchListComposite::Field family");
  (1%nat, "[0]: IFactoryDenseComposite::Field opcode");
  (2%nat, "[0]: IFactoryDenseComposite::Field func3");
  (3%nat, "[0]: IFactoryDenseComposite::Field func2A");
  (4%nat, "[default]: IFactorySpecialCaseComposite::Field ");
  (5%nat, "[default]: 'c.addi4spn', extractor=Extractor 'CIW_sp', factory=IFactory('addi'), stencil = 0x13");
  (3%nat, "[1]: IFactoryDenseComposite::Field func2A");
  (4%nat, "[default]: IFactorySpecialCaseComposite::Field ");
  (5%nat, "[default]: 'c.fld', extractor=Extractor 'C0_load_double', factory=IFactory('fld'), stencil = 0x3007");
  (3%nat, "[2]: IFactoryDenseComposite::Field func2A");
  (4%nat, "[default]: IFactorySpecialCaseComposite::Field ");
  (5%nat, "[default]: 'c.lw', extractor=Extractor 'C0_load_word', factory=IFactory('lw'), stencil = 0x2003");
  (3%nat, "[3]: IFactoryDenseComposite::Field func2A");
  (4%nat, "[default]: IFactorySpecialCaseComposite::Field ");
  (5%nat, "[default]: 'c.ld', extractor=Extractor 'C0_load_word_pair', factory=IFactory('ld'), stencil = 0x3003");
  (3%nat, "[5]: IFactoryDenseComposite::Field func2A");
  (4%nat, "[default]: IFactorySpecialCaseComposite::Field ");
  (5%nat, "[default]: 'c.fsd', extractor=Extractor 'C0_store_double', factory=IFactory('fsd'), stencil = 0x3027");
  (3%nat, "[6]: IFactoryDenseComposite::Field func2A");
  (4%nat, "[default]: IFactorySpecialCaseComposite::Field ");
  (5%nat, "[default]: 'c.sw', extractor=Extractor 'C0_store_word', factory=IFactory('sw'), stencil = 0x2023");
  (3%nat, "[7]: IFactoryDenseComposite::Field func2A");
  (4%nat, "[default]: IFactorySpecialCaseComposite::Field ");
  (5%nat, "[default]: 'c.sd', extractor=Extractor 'C0_store_word_pair', factory=IFactory('sd'), stencil = 0x3023");
  (2%nat, "[1]: IFactoryDenseComposite::Field func3");
  (3%nat, "[0]: IFactoryDenseComposite::Field func2");
  (4%nat, "[0]: IFactoryDenseComposite::Field func2b");
  (5%nat, "[default]: IFactoryDenseComposite::Field func1");
  (6%nat, "[default]: IFactorySpecialCaseComposite::Field ");
  (7%nat, "[0]: 'c.nop', mask=0x380, field_set=0x8, value=0x0, nfixed=1, extractor=Extractor 'CI_addi', factory=CUSTOM IFactory('nop'): type = I");
  (4%nat, "[default]: IFactoryDenseComposite::Field func2b");
  (5%nat, "[default]: IFactoryDenseComposite::Field func1");
  (6%nat, "[default]: IFactorySpecialCaseComposite::Field ");
  (7%nat, "[default]: 'c.addi', extractor=Extractor 'CI_addi', factory=IFactory('addi'), stencil = 0x13");
  (3%nat, "[1]: IFactoryDenseComposite::Field func2");
  (4%nat, "[default]: IFactoryDenseComposite::Field func2b");
  (5%nat, "[default]: IFactoryDenseComposite::Field func1");
  (6%nat, "[default]: IFactorySpecialCaseComposite::Field ");
  (7%nat, "[default]: 'c.jal', extractor=Extractor 'CJAL', factory=IFactory('jal'), stencil = 0x6f");
  (3%nat, "[2]: IFactoryDenseComposite::Field func2");
  (4%nat, "[default]: IFactoryDenseComposite::Field func2b");
  (5%nat, "[default]: IFactoryDenseComposite::Field func1");
  (6%nat, "[default]: IFactorySpecialCaseComposite::Field ");
  (7%nat, "[default]: 'c.li', extractor=Extractor 'CI_rD_only', factory=IFactory('li'), stencil = 0x13");
  (3%nat, "[3]: IFactoryDenseComposite::Field func2");
  (4%nat, "[0]: IFactoryDenseComposite::Field func2b");
  (5%nat, "[default]: IFactoryDenseComposite::Field func1");
  (6%nat, "[default]: IFactorySpecialCaseComposite::Field ");
  (7%nat, "[0]: 'c.addi16sp', mask=0x380, field_set=0x8, value=0x100, nfixed=1, extractor=Extractor 'CI_sp', factory=IFactory('addi'), stencil = 0x13");
  (4%nat, "[default]: IFactoryDenseComposite::Field func2b");
  (5%nat, "[default]: IFactoryDenseComposite::Field func1");
  (6%nat, "[default]: IFactorySpecialCaseComposite::Field ");
  (7%nat, "[default]: 'c.lui', extractor=Extractor 'CI_rD_shifted', factory=IFactory('lui'), stencil = 0x37");
  (3%nat, "[4]: IFactoryDenseComposite::Field func2");
  (4%nat, "[0]: IFactoryDenseComposite::Field func2b");
  (5%nat, "[default]: IFactoryDenseComposite::Field func1");
  (6%nat, "[default]: IFactorySpecialCaseComposite::Field ");
  (7%nat, "[default]: 'c.srli', extractor=Extractor 'CIX', factory=IFactory('srli'), stencil = 0x5013");
  (4%nat, "[1]: IFactoryDenseComposite::Field func2b");
  (5%nat, "[default]: IFactoryDenseComposite::Field func1");
  (6%nat, "[default]: IFactorySpecialCaseComposite::Field ");
  (7%nat, "[default]: 'c.srai', extractor=Extractor 'CIX', factory=IFactory('srai'), stencil = 0x40005013");
  (4%nat, "[2]: IFactoryDenseComposite::Field func2b");
  (5%nat, "[default]: IFactoryDenseComposite::Field func1");
  (6%nat, "[default]: IFactorySpecialCaseComposite::Field ");
  (7%nat, "[default]: 'c.andi', extractor=Extractor 'CIX_andi', factory=IFactory('andi'), stencil = 0x7013");
  (4%nat, "[3]: IFactoryDenseComposite::Field func2b");
  (5%nat, "[0]: IFactoryDenseComposite::Field func1");
  (6%nat, "[0]: IFactorySpecialCaseComposite::Field ");
  (7%nat, "[default]: 'c.sub', extractor=Extractor 'CA', factory=IFactory('sub'), stencil = 0x40000033");
  (5%nat, "[1]: IFactoryDenseComposite::Field func1");
  (6%nat, "[0]: IFactorySpecialCaseComposite::Field ");
  (7%nat, "[default]: 'c.xor', extractor=Extractor 'CA', factory=IFactory('xor'), stencil = 0x4033");
  (5%nat, "[2]: IFactoryDenseComposite::Field func1");
  (6%nat, "[0]: IFactorySpecialCaseComposite::Field ");
  (7%nat, "[default]: 'c.or', extractor=Extractor 'CA', factory=IFactory('or'), stencil = 0x6033");
  (5%nat, "[3]: IFactoryDenseComposite::Field func1");
  (6%nat, "[0]: IFactorySpecialCaseComposite::Field ");
  (7%nat, "[default]: 'c.and', extractor=Extractor 'CA', factory=IFactory('and'), stencil = 0x7033");
  (3%nat, "[5]: IFactoryDenseComposite::Field func2");
  (4%nat, "[default]: IFactoryDenseComposite::Field func2b");
  (5%nat, "[default]: IFactoryDenseComposite::Field func1");
  (6%nat, "[default]: IFactorySpecialCaseComposite::Field ");
  (7%nat, "[default]: 'c.j', extractor=Extractor 'CJ', factory=IFactory('jal'), stencil = 0x6f");
  (3%nat, "[6]: IFactoryDenseComposite::Field func2");
  (4%nat, "[default]: IFactoryDenseComposite::Field func2b");
  (5%nat, "[default]: IFactoryDenseComposite::Field func1");
  (6%nat, "[default]: IFactorySpecialCaseComposite::Field ");
  (7%nat, "[default]: 'c.beqz', extractor=Extractor 'CB', factory=IFactory('beq'), stencil = 0x63");
  (3%nat, "[7]: IFactoryDenseComposite::Field func2");
  (4%nat, "[default]: IFactoryDenseComposite::Field func2b");
  (5%nat, "[default]: IFactoryDenseComposite::Field func1");
  (6%nat, "[default]: IFactorySpecialCaseComposite::Field ");
  (7%nat, "[default]: 'c.bnez', extractor=Extractor 'CB', factory=IFactory('bne'), stencil = 0x1063");
  (2%nat, "[2]: IFactoryDenseComposite::Field func3");
  (3%nat, "[0]: IFactoryDenseComposite::Field func1");
  (4%nat, "[default]: IFactorySpecialCaseComposite::Field ");
  (5%nat, "[default]: 'c.slli', extractor=Extractor 'C2_slli', factory=IFactory('slli'), stencil = 0x1013");
  (3%nat, "[1]: IFactoryDenseComposite::Field func1");
  (4%nat, "[default]: IFactorySpecialCaseComposite::Field ");
  (5%nat, "[default]: 'c.fldsp', extractor=Extractor 'C2_sp_load_float_double', factory=IFactory('fld'), stencil = 0x3007");
  (3%nat, "[2]: IFactoryDenseComposite::Field func1");
  (4%nat, "[default]: IFactorySpecialCaseComposite::Field ");
  (5%nat, "[default]: 'c.lwsp', extractor=Extractor 'C2_sp_load_word', factory=IFactory('lw'), stencil = 0x2003");
  (3%nat, "[3]: IFactoryDenseComposite::Field func1");
  (4%nat, "[default]: IFactorySpecialCaseComposite::Field ");
  (5%nat, "[default]: 'c.ldsp', extractor=Extractor 'C2_sp_load_word_pair', factory=IFactory('ld'), stencil = 0x3003");
  (3%nat, "[4]: IFactoryDenseComposite::Field func1");
  (4%nat, "[0]: IFactorySpecialCaseComposite::Field ");
  (5%nat, "[0]: 'c.jr', mask=0x7c, field_set=0x40, value=0x0, nfixed=1, extractor=Extractor 'CJR', factory=IFactory('jalr'), stencil = 0x67");
  (5%nat, "[default]: 'c.mv', extractor=Extractor 'C2_mv', factory=IFactory('add'), stencil = 0x33");
  (4%nat, "[1]: IFactorySpecialCaseComposite::Field ");
  (5%nat, "[0]: 'c.ebreak', mask=0xffc, field_set=0x50, value=0x0, nfixed=2, extractor=Extractor 'C2', factory=IFactory('ebreak'), stencil = 0x100073");
  (5%nat, "[1]: 'c.jalr', mask=0x7c, field_set=0x40, value=0x0, nfixed=1, extractor=Extractor 'CJALR', factory=IFactory('jalr'), stencil = 0x67");
  (5%nat, "[default]: 'c.add', extractor=Extractor 'C2_add', factory=IFactory('add'), stencil = 0x33");
  (3%nat, "[5]: IFactoryDenseComposite::Field func1");
  (4%nat, "[default]: IFactorySpecialCaseComposite::Field ");
  (5%nat, "[default]: 'c.fsdsp', extractor=Extractor 'C2_sp_store_double', factory=IFactory('fsd'), stencil = 0x3027");
  (3%nat, "[6]: IFactoryDenseComposite::Field func1");
  (4%nat, "[default]: IFactorySpecialCaseComposite::Field ");
  (5%nat, "[default]: 'c.swsp', extractor=Extractor 'C2_sp_store_word', factory=IFactory('sw'), stencil = 0x2023");
  (3%nat, "[7]: IFactoryDenseComposite::Field func1");
  (4%nat, "[default]: IFactorySpecialCaseComposite::Field ");
  (5%nat, "[default]: 'c.sdsp', extractor=Extractor 'C2_sp_store_word_pair', factory=IFactory('sd'), stencil = 0x3023");
  (1%nat, "[1]: IFactoryDenseComposite::Field opcode");
  (2%nat, "[3]: IFactoryDenseComposite::Field func3");
  (3%nat, "[0]: IFactorySpecialCaseComposite::Field ");
  (4%nat, "[default]: 'lb', extractor=Extractor 'I_load', factory=IFactory('lb'), stencil = 0x3");
  (3%nat, "[1]: IFactorySpecialCaseComposite::Field ");
  (4%nat, "[default]: 'lh', extractor=Extractor 'I_load', factory=IFactory('lh'), stencil = 0x1003");
  (3%nat, "[2]: IFactorySpecialCaseComposite::Field ");
  (4%nat, "[default]: 'lw', extractor=Extractor 'I_load', factory=IFactory('lw'), stencil = 0x2003");
  (3%nat, "[3]: IFactorySpecialCaseComposite::Field ");
  (4%nat, "[default]: 'ld', extractor=Extractor 'I_load', factory=IFactory('ld'), stencil = 0x3003");
  (3%nat, "[4]: IFactorySpecialCaseComposite::Field ");
  (4%nat, "[default]: 'lbu', extractor=Extractor 'I_load', factory=IFactory('lbu'), stencil = 0x4003");
  (3%nat, "[5]: IFactorySpecialCaseComposite::Field ");
  (4%nat, "[default]: 'lhu', extractor=Extractor 'I_load', factory=IFactory('lhu'), stencil = 0x5003");
  (2%nat, "[7]: IFactoryDenseComposite::Field width");
  (3%nat, "[2]: IFactoryDenseComposite::Field mewop");
  (4%nat, "[default]: IFactorySpecialCaseComposite::Field ");
  (5%nat, "[default]: 'flw', extractor=Extractor 'I_load', factory=IFactory('flw'), stencil = 0x2007");
  (3%nat, "[3]: IFactoryDenseComposite::Field mewop");
  (4%nat, "[default]: IFactorySpecialCaseComposite::Field ");
  (5%nat, "[default]: 'fld', extractor=Extractor 'I_load', factory=IFactory('fld'), stencil = 0x3007");
  (2%nat, "[f]: IFactoryDenseComposite::Field func3");
  (3%nat, "[0]: IFactorySpecialCaseComposite::Field ");
  (4%nat, "[default]: 'fence', extractor=Extractor 'FENCE', factory=IFactory('fence'), stencil = 0xf");
  (3%nat, "[1]: IFactorySpecialCaseComposite::Field ");
  (4%nat, "[default]: 'fence.i', extractor=Extractor 'I', factory=IFactory('fence.i'), stencil = 0x100f");
  (2%nat, "[13]: IFactoryDenseComposite::Field func3");
  (3%nat, "[0]: IFactoryDenseComposite::Field func6");
  (4%nat, "[default]: IFactorySpecialCaseComposite::Field ");
  (5%nat, "[0]: 'li', mask=0xf8000, field_set=0x4, value=0x0, nfixed=1, extractor=Extractor 'I', factory=IFactory('li'), stencil = 0x13");
  (5%nat, "[default]: 'addi', extractor=Extractor 'I', factory=IFactory('addi'), stencil = 0x13");
  (3%nat, "[1]: IFactoryDenseComposite::Field func7");
  (4%nat, "[0]: IFactorySpecialCaseComposite::Field ");
  (5%nat, "[default]: 'slli', extractor=Extractor 'ISHW', factory=IFactory('slli'), stencil = 0x1013");
  (3%nat, "[2]: IFactoryDenseComposite::Field func6");
  (4%nat, "[default]: IFactorySpecialCaseComposite::Field ");
  (5%nat, "[default]: 'slti', extractor=Extractor 'I', factory=IFactory('slti'), stencil = 0x2013");
  (3%nat, "[3]: IFactoryDenseComposite::Field func6");
  (4%nat, "[default]: IFactorySpecialCaseComposite::Field ");
  (5%nat, "[default]: 'sltiu', extractor=Extractor 'I', factory=IFactory('sltiu'), stencil = 0x3013");
  (3%nat, "[4]: IFactoryDenseComposite::Field func6");
  (4%nat, "[default]: IFactorySpecialCaseComposite::Field ");
  (5%nat, "[default]: 'xori', extractor=Extractor 'I', factory=IFactory('xori'), stencil = 0x4013");
  (3%nat, "[5]: IFactoryDenseComposite::Field func7");
  (4%nat, "[0]: IFactorySpecialCaseComposite::Field ");
  (5%nat, "[default]: 'srli', extractor=Extractor 'ISHW', factory=IFactory('srli'), stencil = 0x5013");
  (4%nat, "[20]: IFactorySpecialCaseComposite::Field ");
  (5%nat, "[default]: 'srai', extractor=Extractor 'ISHW', factory=IFactory('srai'), stencil = 0x40005013");
  (3%nat, "[6]: IFactoryDenseComposite::Field func6");
  (4%nat, "[default]: IFactorySpecialCaseComposite::Field ");
  (5%nat, "[default]: 'ori', extractor=Extractor 'I', factory=IFactory('ori'), stencil = 0x6013");
  (3%nat, "[7]: IFactoryDenseComposite::Field func6");
  (4%nat, "[default]: IFactorySpecialCaseComposite::Field ");
  (5%nat, "[default]: 'andi', extractor=Extractor 'I', factory=IFactory('andi'), stencil = 0x7013");
  (2%nat, "[17]: IFactorySpecialCaseComposite::Field ");
  (3%nat, "[default]: 'auipc', extractor=Extractor 'U', factory=IFactory('auipc'), stencil = 0x17");
  (2%nat, "[23]: IFactoryDenseComposite::Field func3");
  (3%nat, "[0]: IFactorySpecialCaseComposite::Field ");
  (4%nat, "[default]: 'sb', extractor=Extractor 'S', factory=IFactory('sb'), stencil = 0x23");
  (3%nat, "[1]: IFactorySpecialCaseComposite::Field ");
  (4%nat, "[default]: 'sh', extractor=Extractor 'S', factory=IFactory('sh'), stencil = 0x1023");
  (3%nat, "[2]: IFactorySpecialCaseComposite::Field ");
  (4%nat, "[default]: 'sw', extractor=Extractor 'S', factory=IFactory('sw'), stencil = 0x2023");
  (3%nat, "[3]: IFactorySpecialCaseComposite::Field ");
  (4%nat, "[default]: 'sd', extractor=Extractor 'S', factory=IFactory('sd'), stencil = 0x3023");
  (2%nat, "[27]: IFactoryDenseComposite::Field width");
  (3%nat, "[2]: IFactoryDenseComposite::Field mewop");
  (4%nat, "[default]: IFactorySpecialCaseComposite::Field ");
  (5%nat, "[default]: 'fsw', extractor=Extractor 'S', factory=IFactory('fsw'), stencil = 0x2027");
  (3%nat, "[3]: IFactoryDenseComposite::Field mewop");
  (4%nat, "[default]: IFactorySpecialCaseComposite::Field ");
  (5%nat, "[default]: 'fsd', extractor=Extractor 'S', factory=IFactory('fsd'), stencil = 0x3027");
  (2%nat, "[2f]: IFactoryDenseComposite::Field func3");
  (3%nat, "[2]: IFactoryDenseComposite::Field func5");
  (4%nat, "[0]: IFactorySpecialCaseComposite::Field ");
  (5%nat, "[default]: 'amoadd.w', extractor=Extractor 'AMO', factory=IFactory('amoadd.w'), stencil = 0x202f");
  (4%nat, "[1]: IFactorySpecialCaseComposite::Field ");
  (5%nat, "[default]: 'amoswap.w', extractor=Extractor 'AMO', factory=IFactory('amoswap.w'), stencil = 0x800202f");
  (4%nat, "[2]: IFactorySpecialCaseComposite::Field ");
  (5%nat, "[0]: 'lr.w', mask=0x1f00000, field_set=0x20, value=0x0, nfixed=1, extractor=Extractor 'AMO', factory=IFactory('lr.w'), stencil = 0x1000202f");
  (4%nat, "[3]: IFactorySpecialCaseComposite::Field ");
  (5%nat, "[default]: 'sc.w', extractor=Extractor 'AMO', factory=IFactory('sc.w'), stencil = 0x1800202f");
  (4%nat, "[4]: IFactorySpecialCaseComposite::Field ");
  (5%nat, "[default]: 'amoxor.w', extractor=Extractor 'AMO', factory=IFactory('amoxor.w'), stencil = 0x2000202f");
  (4%nat, "[8]: IFactorySpecialCaseComposite::Field ");
  (5%nat, "[default]: 'amoor.w', extractor=Extractor 'AMO', factory=IFactory('amoor.w'), stencil = 0x4000202f");
  (4%nat, "[c]: IFactorySpecialCaseComposite::Field ");
  (5%nat, "[default]: 'amoand.w', extractor=Extractor 'AMO', factory=IFactory('amoand.w'), stencil = 0x6000202f");
  (4%nat, "[10]: IFactorySpecialCaseComposite::Field ");
  (5%nat, "[default]: 'amomin.w', extractor=Extractor 'AMO', factory=IFactory('amomin.w'), stencil = 0x8000202f");
  (4%nat, "[14]: IFactorySpecialCaseComposite::Field ");
  (5%nat, "[default]: 'amomax.w', extractor=Extractor 'AMO', factory=IFactory('amomax.w'), stencil = 0xa000202f");
  (4%nat, "[18]: IFactorySpecialCaseComposite::Field ");
  (5%nat, "[default]: 'amominu.w', extractor=Extractor 'AMO', factory=IFactory('amominu.w'), stencil = 0xc000202f");
  (4%nat, "[1c]: IFactorySpecialCaseComposite::Field ");
  (5%nat, "[default]: 'amomaxu.w', extractor=Extractor 'AMO', factory=IFactory('amomaxu.w'), stencil = 0xe000202f");
  (2%nat, "[33]: IFactoryDenseComposite::Field func3");
  (3%nat, "[0]: IFactoryDenseComposite::Field func7");
  (4%nat, "[0]: IFactorySpecialCaseComposite::Field ");
  (5%nat, "[default]: 'add', extractor=Extractor 'R', factory=IFactory('add'), stencil = 0x33");
  (4%nat, "[1]: IFactorySpecialCaseComposite::Field ");
  (5%nat, "[default]: 'mul', extractor=Extractor 'R', factory=IFactory('mul'), stencil = 0x2000033");
  (4%nat, "[20]: IFactorySpecialCaseComposite::Field ");
  (5%nat, "[default]: 'sub', extractor=Extractor 'R', factory=IFactory('sub'), stencil = 0x40000033");
  (3%nat, "[1]: IFactoryDenseComposite::Field func7");
  (4%nat, "[0]: IFactorySpecialCaseComposite::Field ");
  (5%nat, "[default]: 'sll', extractor=Extractor 'R', factory=IFactory('sll'), stencil = 0x1033");
  (4%nat, "[1]: IFactorySpecialCaseComposite::Field ");
  (5%nat, "[default]: 'mulh', extractor=Extractor 'R', factory=IFactory('mulh'), stencil = 0x2001033");
  (3%nat, "[2]: IFactoryDenseComposite::Field func7");
  (4%nat, "[0]: IFactorySpecialCaseComposite::Field ");
  (5%nat, "[default]: 'slt', extractor=Extractor 'R', factory=IFactory('slt'), stencil = 0x2033");
  (4%nat, "[1]: IFactorySpecialCaseComposite::Field ");
  (5%nat, "[default]: 'mulhsu', extractor=Extractor 'R', factory=IFactory('mulhsu'), stencil = 0x2002033");
  (3%nat, "[3]: IFactoryDenseComposite::Field func7");
  (4%nat, "[0]: IFactorySpecialCaseComposite::Field ");
  (5%nat, "[default]: 'sltu', extractor=Extractor 'R', factory=IFactory('sltu'), stencil = 0x3033");
  (4%nat, "[1]: IFactorySpecialCaseComposite::Field ");
  (5%nat, "[default]: 'mulhu', extractor=Extractor 'R', factory=IFactory('mulhu'), stencil = 0x2003033");
  (3%nat, "[4]: IFactoryDenseComposite::Field func7");
  (4%nat, "[0]: IFactorySpecialCaseComposite::Field ");
  (5%nat, "[default]: 'xor', extractor=Extractor 'R', factory=IFactory('xor'), stencil = 0x4033");
  (4%nat, "[1]: IFactorySpecialCaseComposite::Field ");
  (5%nat, "[default]: 'div', extractor=Extractor 'R', factory=IFactory('div'), stencil = 0x2004033");
  (3%nat, "[5]: IFactoryDenseComposite::Field func7");
  (4%nat, "[0]: IFactorySpecialCaseComposite::Field ");
  (5%nat, "[default]: 'srl', extractor=Extractor 'R', factory=IFactory('srl'), stencil = 0x5033");
  (4%nat, "[1]: IFactorySpecialCaseComposite::Field ");
  (5%nat, "[default]: 'divu', extractor=Extractor 'R', factory=IFactory('divu'), stencil = 0x2005033");
  (4%nat, "[20]: IFactorySpecialCaseComposite::Field ");
  (5%nat, "[default]: 'sra', extractor=Extractor 'R', factory=IFactory('sra'), stencil = 0x40005033");
  (3%nat, "[6]: IFactoryDenseComposite::Field func7");
  (4%nat, "[0]: IFactorySpecialCaseComposite::Field ");
  (5%nat, "[default]: 'or', extractor=Extractor 'R', factory=IFactory('or'), stencil = 0x6033");
  (4%nat, "[1]: IFactorySpecialCaseComposite::Field ");
  (5%nat, "[default]: 'rem', extractor=Extractor 'R', factory=IFactory('rem'), stencil = 0x2006033");
  (3%nat, "[7]: IFactoryDenseComposite::Field func7");
  (4%nat, "[0]: IFactorySpecialCaseComposite::Field ");
  (5%nat, "[default]: 'and', extractor=Extractor 'R', factory=IFactory('and'), stencil = 0x7033");
  (4%nat, "[1]: IFactorySpecialCaseComposite::Field ");
  (5%nat, "[default]: 'remu', extractor=Extractor 'R', factory=IFactory('remu'), stencil = 0x2007033");
  (2%nat, "[37]: IFactorySpecialCaseComposite::Field ");
  (3%nat, "[default]: 'lui', extractor=Extractor 'U', factory=IFactory('lui'), stencil = 0x37");
  (2%nat, "[43]: IFactoryDenseComposite::Field func2");
  (3%nat, "[0]: IFactorySpecialCaseComposite::Field ");
  (4%nat, "[default]: 'fmadd.s', extractor=Extractor 'R4', factory=IFactory('fmadd.s'), stencil = 0x43");
  (3%nat, "[1]: IFactorySpecialCaseComposite::Field ");
  (4%nat, "[default]: 'fmadd.d', extractor=Extractor 'R4', factory=IFactory('fmadd.d'), stencil = 0x2000043");
  (2%nat, "[47]: IFactoryDenseComposite::Field func2");
  (3%nat, "[0]: IFactorySpecialCaseComposite::Field ");
  (4%nat, "[default]: 'fmsub.s', extractor=Extractor 'R4', factory=IFactory('fmsub.s'), stencil = 0x47");
  (3%nat, "[1]: IFactorySpecialCaseComposite::Field ");
  (4%nat, "[default]: 'fmsub.d', extractor=Extractor 'R4', factory=IFactory('fmsub.d'), stencil = 0x2000047");
  (2%nat, "[4b]: IFactoryDenseComposite::Field func2");
  (3%nat, "[0]: IFactorySpecialCaseComposite::Field ");
  (4%nat, "[default]: 'fnmsub.s', extractor=Extractor 'R4', factory=IFactory('fnmsub.s'), stencil = 0x4b");
  (3%nat, "[1]: IFactorySpecialCaseComposite::Field ");
  (4%nat, "[default]: 'fnmsub.d', extractor=Extractor 'R4', factory=IFactory('fnmsub.d'), stencil = 0x200004b");
  (2%nat, "[4f]: IFactoryDenseComposite::Field func2");
  (3%nat, "[0]: IFactorySpecialCaseComposite::Field ");
  (4%nat, "[default]: 'fnmadd.s', extractor=Extractor 'R4', factory=IFactory('fnmadd.s'), stencil = 0x4f");
  (3%nat, "[1]: IFactorySpecialCaseComposite::Field ");
  (4%nat, "[default]: 'fnmadd.d', extractor=Extractor 'R4', factory=IFactory('fnmadd.d'), stencil = 0x200004f");
  (2%nat, "[53]: IFactoryDenseComposite::Field func7");
  (3%nat, "[0]: IFactorySpecialCaseComposite::Field ");
  (4%nat, "[default]: 'fadd.s', extractor=Extractor 'Rfloat', factory=IFactory('fadd.s'), stencil = 0x53");
  (3%nat, "[1]: IFactorySpecialCaseComposite::Field ");
  (4%nat, "[default]: 'fadd.d', extractor=Extractor 'Rfloat', factory=IFactory('fadd.d'), stencil = 0x2000053");
  (3%nat, "[4]: IFactorySpecialCaseComposite::Field ");
  (4%nat, "[default]: 'fsub.s', extractor=Extractor 'Rfloat', factory=IFactory('fsub.s'), stencil = 0x8000053");
  (3%nat, "[5]: IFactorySpecialCaseComposite::Field ");
  (4%nat, "[default]: 'fsub.d', extractor=Extractor 'Rfloat', factory=IFactory('fsub.d'), stencil = 0xa000053");
  (3%nat, "[8]: IFactorySpecialCaseComposite::Field ");
  (4%nat, "[default]: 'fmul.s', extractor=Extractor 'Rfloat', factory=IFactory('fmul.s'), stencil = 0x10000053");
  (3%nat, "[9]: IFactorySpecialCaseComposite::Field ");
  (4%nat, "[default]: 'fmul.d', extractor=Extractor 'Rfloat', factory=IFactory('fmul.d'), stencil = 0x12000053");
  (3%nat, "[c]: IFactorySpecialCaseComposite::Field ");
  (4%nat, "[default]: 'fdiv.s', extractor=Extractor 'Rfloat', factory=IFactory('fdiv.s'), stencil = 0x18000053");
  (3%nat, "[d]: IFactorySpecialCaseComposite::Field ");
  (4%nat, "[default]: 'fdiv.d', extractor=Extractor 'Rfloat', factory=IFactory('fdiv.d'), stencil = 0x1a000053");
  (3%nat, "[10]: IFactorySpecialCaseComposite::Field ");
  (4%nat, "[0]: 'fsgnj.s', mask=0x7000, field_set=0x8, value=0x0, nfixed=1, extractor=Extractor 'Rfloat', factory=IFactory('fsgnj.s'), stencil = 0x20000053");
  (4%nat, "[1]: 'fsgnjn.s', mask=0x7000, field_set=0x8, value=0x1000, nfixed=1, extractor=Extractor 'Rfloat', factory=IFactory('fsgnjn.s'), stencil = 0x20001053");
  (4%nat, "[2]: 'fsgnjx.s', mask=0x7000, field_set=0x8, value=0x2000, nfixed=1, extractor=Extractor 'Rfloat', factory=IFactory('fsgnjx.s'), stencil = 0x20002053");
  (3%nat, "[11]: IFactorySpecialCaseComposite::Field ");
  (4%nat, "[0]: 'fsgnj.d', mask=0x7000, field_set=0x8, value=0x0, nfixed=1, extractor=Extractor 'Rfloat', factory=IFactory('fsgnj.d'), stencil = 0x22000053");
  (4%nat, "[1]: 'fsgnjn.d', mask=0x7000, field_set=0x8, value=0x1000, nfixed=1, extractor=Extractor 'Rfloat', factory=IFactory('fsgnjn.d'), stencil = 0x22001053");
  (4%nat, "[2]: 'fsgnjx.d', mask=0x7000, field_set=0x8, value=0x2000, nfixed=1, extractor=Extractor 'Rfloat', factory=IFactory('fsgnjx.d'), stencil = 0x22002053");
  (3%nat, "[14]: IFactorySpecialCaseComposite::Field ");
  (4%nat, "[0]: 'fmin.s', mask=0x7000, field_set=0x8, value=0x0, nfixed=1, extractor=Extractor 'Rfloat', factory=IFactory('fmin.s'), stencil = 0x28000053");
  (4%nat, "[1]: 'fmax.s', mask=0x7000, field_set=0x8, value=0x1000, nfixed=1, extractor=Extractor 'Rfloat', factory=IFactory('fmax.s'), stencil = 0x28001053");
  (4%nat, "[2]: 'fmaxm.s', mask=0x7000, field_set=0x8, value=0x3000, nfixed=1, extractor=Extractor 'Rfloat', factory=IFactory('fmaxm.s'), stencil = 0x28003053");
  (4%nat, "[3]: 'fminm.s', mask=0x7000, field_set=0x8, value=0x2000, nfixed=1, extractor=Extractor 'Rfloat', factory=IFactory('fminm.s'), stencil = 0x28002053");
  (3%nat, "[15]: IFactorySpecialCaseComposite::Field ");
  (4%nat, "[0]: 'fmin.d', mask=0x7000, field_set=0x8, value=0x0, nfixed=1, extractor=Extractor 'Rfloat', factory=IFactory('fmin.d'), stencil = 0x2a000053");
  (4%nat, "[1]: 'fmax.d', mask=0x7000, field_set=0x8, value=0x1000, nfixed=1, extractor=Extractor 'Rfloat', factory=IFactory('fmax.d'), stencil = 0x2a001053");
  (4%nat, "[2]: 'fmaxm.d', mask=0x7000, field_set=0x8, value=0x3000, nfixed=1, extractor=Extractor 'Rfloat', factory=IFactory('fmaxm.d'), stencil = 0x2a003053");
  (4%nat, "[3]: 'fminm.d', mask=0x7000, field_set=0x8, value=0x2000, nfixed=1, extractor=Extractor 'Rfloat', factory=IFactory('fminm.d'), stencil = 0x2a002053");
  (3%nat, "[20]: IFactorySpecialCaseComposite::Field ");
  (4%nat, "[0]: 'fround.s', mask=0x1f00000, field_set=0x2, value=0x400000, nfixed=1, extractor=Extractor 'Rfloat', factory=IFactory('fround.s'), stencil = 0x40400053");
  (4%nat, "[1]: 'froundnx.s', mask=0x1f00000, field_set=0x2, value=0x500000, nfixed=1, extractor=Extractor 'Rfloat', factory=IFactory('froundnx.s'), stencil = 0x40500053");
  (4%nat, "[2]: 'fcvt.s.d', mask=0x1f00000, field_set=0x2, value=0x100000, nfixed=1, extractor=Extractor 'Rfloat', factory=IFactory('fcvt.s.d'), stencil = 0x40100053");
  (3%nat, "[21]: IFactorySpecialCaseComposite::Field ");
  (4%nat, "[0]: 'fcvt.d.s', mask=0x1f00000, field_set=0x2, value=0x0, nfixed=1, extractor=Extractor 'Rfloat', factory=IFactory('fcvt.d.s'), stencil = 0x42000053");
  (4%nat, "[1]: 'fround.d', mask=0x1f00000, field_set=0x2, value=0x400000, nfixed=1, extractor=Extractor 'Rfloat', factory=IFactory('fround.d'), stencil = 0x42400053");
  (4%nat, "[2]: 'froundnx.d', mask=0x1f00000, field_set=0x2, value=0x500000, nfixed=1, extractor=Extractor 'Rfloat', factory=IFactory('froundnx.d'), stencil = 0x42500053");
  (3%nat, "[2c]: IFactorySpecialCaseComposite::Field ");
  (4%nat, "[0]: 'fsqrt.s', mask=0x1f00000, field_set=0x2, value=0x0, nfixed=1, extractor=Extractor 'Rfloat', factory=IFactory('fsqrt.s'), stencil = 0x58000053");
  (3%nat, "[2d]: IFactorySpecialCaseComposite::Field ");
  (4%nat, "[0]: 'fsqrt.d', mask=0x1f00000, field_set=0x2, value=0x0, nfixed=1, extractor=Extractor 'Rfloat', factory=IFactory('fsqrt.d'), stencil = 0x5a000053");
  (3%nat, "[50]: IFactorySpecialCaseComposite::Field ");
  (4%nat, "[0]: 'fle.s', mask=0x7000, field_set=0x8, value=0x0, nfixed=1, extractor=Extractor 'Rfloat', factory=IFactory('fle.s'), stencil = 0xa0000053");
  (4%nat, "[1]: 'flt.s', mask=0x7000, field_set=0x8, value=0x1000, nfixed=1, extractor=Extractor 'Rfloat', factory=IFactory('flt.s'), stencil = 0xa0001053");
  (4%nat, "[2]: 'feq.s', mask=0x7000, field_set=0x8, value=0x2000, nfixed=1, extractor=Extractor 'Rfloat', factory=IFactory('feq.s'), stencil = 0xa0002053");
  (4%nat, "[3]: 'fleq.s', mask=0x7000, field_set=0x8, value=0x4000, nfixed=1, extractor=Extractor 'Rfloat', factory=IFactory('fleq.s'), stencil = 0xa0004053");
  (4%nat, "[4]: 'fltq.s', mask=0x7000, field_set=0x8, value=0x5000, nfixed=1, extractor=Extractor 'Rfloat', factory=IFactory('fltq.s'), stencil = 0xa0005053");
  (3%nat, "[51]: IFactorySpecialCaseComposite::Field ");
  (4%nat, "[0]: 'fle.d', mask=0x7000, field_set=0x8, value=0x0, nfixed=1, extractor=Extractor 'Rfloat', factory=IFactory('fle.d'), stencil = 0xa2000053");
  (4%nat, "[1]: 'flt.d', mask=0x7000, field_set=0x8, value=0x1000, nfixed=1, extractor=Extractor 'Rfloat', factory=IFactory('flt.d'), stencil = 0xa2001053");
  (4%nat, "[2]: 'feq.d', mask=0x7000, field_set=0x8, value=0x2000, nfixed=1, extractor=Extractor 'Rfloat', factory=IFactory('feq.d'), stencil = 0xa2002053");
  (4%nat, "[3]: 'fleq.d', mask=0x7000, field_set=0x8, value=0x4000, nfixed=1, extractor=Extractor 'Rfloat', factory=IFactory('fleq.d'), stencil = 0xa2004053");
  (4%nat, "[4]: 'fltq.d', mask=0x7000, field_set=0x8, value=0x5000, nfixed=1, extractor=Extractor 'Rfloat', factory=IFactory('fltq.d'), stencil = 0xa2005053");
  (3%nat, "[60]: IFactorySpecialCaseComposite::Field ");
  (4%nat, "[0]: 'fcvt.w.s', mask=0x1f00000, field_set=0x2, value=0x0, nfixed=1, extractor=Extractor 'Rfloat', factory=IFactory('fcvt.w.s'), stencil = 0xc0000053");
  (4%nat, "[1]: 'fcvt.wu.s', mask=0x1f00000, field_set=0x2, value=0x100000, nfixed=1, extractor=Extractor 'Rfloat', factory=IFactory('fcvt.wu.s'), stencil = 0xc0100053");
  (3%nat, "[61]: IFactorySpecialCaseComposite::Field ");
  (4%nat, "[0]: 'fcvtmod.w.d', mask=0x1f07000, field_set=0xa, value=0x801000, nfixed=2, extractor=Extractor 'Rfloat', factory=IFactory('fcvtmod.w.d'), stencil = 0xc2801053");
  (4%nat, "[1]: 'fcvt.w.d', mask=0x1f00000, field_set=0x2, value=0x0, nfixed=1, extractor=Extractor 'Rfloat', factory=IFactory('fcvt.w.d'), stencil = 0xc2000053");
  (4%nat, "[2]: 'fcvt.wu.d', mask=0x1f00000, field_set=0x2, value=0x100000, nfixed=1, extractor=Extractor 'Rfloat', factory=IFactory('fcvt.wu.d'), stencil = 0xc2100053");
  (3%nat, "[68]: IFactorySpecialCaseComposite::Field ");
  (4%nat, "[0]: 'fcvt.s.w', mask=0x1f00000, field_set=0x2, value=0x0, nfixed=1, extractor=Extractor 'Rfloat', factory=IFactory('fcvt.s.w'), stencil = 0xd0000053");
  (4%nat, "[1]: 'fcvt.s.wu', mask=0x1f00000, field_set=0x2, value=0x100000, nfixed=1, extractor=Extractor 'Rfloat', factory=IFactory('fcvt.s.wu'), stencil = 0xd0100053");
  (3%nat, "[69]: IFactorySpecialCaseComposite::Field ");
  (4%nat, "[0]: 'fcvt.d.w', mask=0x1f00000, field_set=0x2, value=0x0, nfixed=1, extractor=Extractor 'Rfloat', factory=IFactory('fcvt.d.w'), stencil = 0xd2000053");
  (4%nat, "[1]: 'fcvt.d.wu', mask=0x1f00000, field_set=0x2, value=0x100000, nfixed=1, extractor=Extractor 'Rfloat', factory=IFactory('fcvt.d.wu'), stencil = 0xd2100053");
  (3%nat, "[70]: IFactorySpecialCaseComposite::Field ");
  (4%nat, "[0]: 'fmv.x.w', mask=0x1f07000, field_set=0xa, value=0x0, nfixed=2, extractor=Extractor 'Rfloat', factory=IFactory('fmv.x.w'), stencil = 0xe0000053");
  (4%nat, "[1]: 'fclass.s', mask=0x1f07000, field_set=0xa, value=0x1000, nfixed=2, extractor=Extractor 'Rfloat', factory=IFactory('fclass.s'), stencil = 0xe0001053");
  (3%nat, "[71]: IFactorySpecialCaseComposite::Field ");
  (4%nat, "[0]: 'fclass.d', mask=0x1f07000, field_set=0xa, value=0x1000, nfixed=2, extractor=Extractor 'Rfloat', factory=IFactory('fclass.d'), stencil = 0xe2001053");
  (3%nat, "[78]: IFactorySpecialCaseComposite::Field ");
  (4%nat, "[0]: 'fmv.w.x', mask=0x1f07000, field_set=0xa, value=0x0, nfixed=2, extractor=Extractor 'Rfloat', factory=IFactory('fmv.w.x'), stencil = 0xf0000053");
  (4%nat, "[1]: 'fli.s', mask=0x1f07000, field_set=0xa, value=0x100000, nfixed=2, extractor=Extractor 'Rfloat', factory=IFactory('fli.s'), stencil = 0xf0100053");
  (3%nat, "[79]: IFactorySpecialCaseComposite::Field ");
  (4%nat, "[0]: 'fli.d', mask=0x1f07000, field_set=0xa, value=0x100000, nfixed=2, extractor=Extractor 'Rfloat', factory=IFactory('fli.d'), stencil = 0xf2100053");
  (2%nat, "[63]: IFactoryDenseComposite::Field func3");
  (3%nat, "[0]: IFactorySpecialCaseComposite::Field ");
  (4%nat, "[default]: 'beq', extractor=Extractor 'B', factory=IFactory('beq'), stencil = 0x63");
  (3%nat, "[1]: IFactorySpecialCaseComposite::Field ");
  (4%nat, "[default]: 'bne', extractor=Extractor 'B', factory=IFactory('bne'), stencil = 0x1063");
  (3%nat, "[4]: IFactorySpecialCaseComposite::Field ");
  (4%nat, "[default]: 'blt', extractor=Extractor 'B', factory=IFactory('blt'), stencil = 0x4063");
  (3%nat, "[5]: IFactorySpecialCaseComposite::Field ");
  (4%nat, "[default]: 'bge', extractor=Extractor 'B', factory=IFactory('bge'), stencil = 0x5063");
  (3%nat, "[6]: IFactorySpecialCaseComposite::Field ");
  (4%nat, "[default]: 'bltu', extractor=Extractor 'B', factory=IFactory('bltu'), stencil = 0x6063");
  (3%nat, "[7]: IFactorySpecialCaseComposite::Field ");
  (4%nat, "[default]: 'bgeu', extractor=Extractor 'B', factory=IFactory('bgeu'), stencil = 0x7063");
  (2%nat, "[67]: IFactoryDenseComposite::Field func3");
  (3%nat, "[0]: IFactorySpecialCaseComposite::Field ");
  (4%nat, "[default]: 'jalr', extractor=Extractor 'I', factory=IFactory('jalr'), stencil = 0x67");
  (2%nat, "[6f]: IFactorySpecialCaseComposite::Field ");
  (3%nat, "[default]: 'jal', extractor=Extractor 'J', factory=IFactory('jal'), stencil = 0x6f");
  (2%nat, "[73]: IFactoryDenseComposite::Field func3");
  (3%nat, "[0]: IFactoryDenseComposite::Field func7");
  (4%nat, "[0]: IFactorySpecialCaseComposite::Field ");
  (5%nat, "[0]: 'ecall', mask=0x1ff8f80, field_set=0x16, value=0x0, nfixed=3, extractor=Extractor 'R', factory=IFactory('ecall'), stencil = 0x73");
  (5%nat, "[1]: 'ebreak', mask=0x1ff8f80, field_set=0x16, value=0x100000, nfixed=3, extractor=Extractor 'R', factory=IFactory('ebreak'), stencil = 0x100073");
  (5%nat, "[2]: 'uret', mask=0x1ff8f80, field_set=0x16, value=0x200000, nfixed=3, extractor=Extractor 'R', factory=IFactory('uret'), stencil = 0x200073");
  (4%nat, "[8]: IFactorySpecialCaseComposite::Field ");
  (5%nat, "[0]: 'sret', mask=0x1ff8f80, field_set=0x16, value=0x200000, nfixed=3, extractor=Extractor 'R', factory=IFactory('sret'), stencil = 0x10200073");
  (5%nat, "[1]: 'wfi', mask=0x1ff8f80, field_set=0x16, value=0x500000, nfixed=3, extractor=Extractor 'R', factory=IFactory('wfi'), stencil = 0x10500073");
  (4%nat, "[9]: IFactorySpecialCaseComposite::Field ");
  (5%nat, "[0]: 'sfence.vma', mask=0xf80, field_set=0x10, value=0x0, nfixed=1, extractor=Extractor 'R', factory=IFactory('sfence.vma'), stencil = 0x12000073");
  (4%nat, "[18]: IFactorySpecialCaseComposite::Field ");
  (5%nat, "[0]: 'mret', mask=0x1ff8f80, field_set=0x16, value=0x200000, nfixed=3, extractor=Extractor 'R', factory=IFactory('mret'), stencil = 0x30200073");
  (4%nat, "[3d]: IFactorySpecialCaseComposite::Field ");
  (5%nat, "[0]: 'dret', mask=0x1ff8f80, field_set=0x16, value=0x1200000, nfixed=3, extractor=Extractor 'R', factory=IFactory('dret'), stencil = 0x7b200073");
  (4%nat, "[7e]: IFactorySpecialCaseComposite::Field ");
  (5%nat, "[0]: 'cflush.d.l1', mask=0x1f00f80, field_set=0x12, value=0x0, nfixed=2, extractor=Extractor 'R', factory=IFactory('cflush.d.l1'), stencil = 0xfc000073");
  (5%nat, "[1]: 'cdiscard.d.l1', mask=0x1f00f80, field_set=0x12, value=0x200000, nfixed=2, extractor=Extractor 'R', factory=IFactory('cdiscard.d.l1'), stencil = 0xfc200073");
  (5%nat, "[2]: 'cflush.i.l1', mask=0x1f00f80, field_set=0x12, value=0x100000, nfixed=2, extractor=Extractor 'R', factory=IFactory('cflush.i.l1'), stencil = 0xfc100073");
  (3%nat, "[1]: IFactoryDenseComposite::Field func7");
  (4%nat, "[default]: IFactorySpecialCaseComposite::Field ");
  (5%nat, "[default]: 'csrrw', extractor=Extractor 'CSR', factory=IFactory('csr'), stencil = 0x1073");
  (3%nat, "[2]: IFactoryDenseComposite::Field func7");
  (4%nat, "[default]: IFactorySpecialCaseComposite::Field ");
  (5%nat, "[default]: 'csrrs', extractor=Extractor 'CSR', factory=IFactory('csr'), stencil = 0x1073");
  (3%nat, "[3]: IFactoryDenseComposite::Field func7");
  (4%nat, "[default]: IFactorySpecialCaseComposite::Field ");
  (5%nat, "[default]: 'csrrc', extractor=Extractor 'CSR', factory=IFactory('csr'), stencil = 0x1073");
  (3%nat, "[5]: IFactoryDenseComposite::Field func7");
  (4%nat, "[default]: IFactorySpecialCaseComposite::Field ");
  (5%nat, "[default]: 'csrrwi', extractor=Extractor 'CSRI', factory=IFactory('csr'), stencil = 0x1073");
  (3%nat, "[6]: IFactoryDenseComposite::Field func7");
  (4%nat, "[default]: IFactorySpecialCaseComposite::Field ");
  (5%nat, "[default]: 'csrrsi', extractor=Extractor 'CSRI', factory=IFactory('csr'), stencil = 0x1073");
  (3%nat, "[7]: IFactoryDenseComposite::Field func7");
  (4%nat, "[default]: IFactorySpecialCaseComposite::Field ");
  (5%nat, "[default]: 'csrrci', extractor=Extractor 'CSRI', factory=IFactory('csr'), stencil = 0x1073")].

(** test/basic/rv64.tset *)
Definition tset_rv64 : list (string * N) := [
  ("beq", 0x63);
  ("bne", 0x1063);
  ("blt", 0x4063);
  ("bge", 0x5063);
  ("bltu", 0x6063);
  ("bgeu", 0x7063);
  ("jalr", 0x67);
  ("jal", 0x6f);
  ("lui", 0x37);
  ("auipc", 0x17);
  ("addi", 0xf0008013);
  ("li", 0xf0000013);
  ("mv", 0x8093);
  ("li", 0x93);
  ("nop", 0x13);
  ("slli", 0x1013);
  ("slti", 0x2013);
  ("sltiu", 0x3013);
  ("xori", 0x4013);
  ("srli", 0x5013);
  ("srai", 0x40005013);
  ("ori", 0x6013);
  ("andi", 0x7013);
  ("add", 0x33);
  ("sub", 0x40000033);
  ("sll", 0x1033);
  ("slt", 0x2033);
  ("sltu", 0x3033);
  ("xor", 0x4033);
  ("srl", 0x5033);
  ("sra", 0x40005033);
  ("or", 0x6033);
  ("and", 0x7033);
  ("addiw", 0x1b);
  ("slliw", 0x101b);
  ("srliw", 0x501b);
  ("sraiw", 0x4000501b);
  ("addw", 0x3b);
  ("subw", 0x4000003b);
  ("sllw", 0x103b);
  ("srlw", 0x503b);
  ("sraw", 0x4000503b);
  ("lb", 0x3);
  ("lh", 0x1003);
  ("lw", 0x2003);
  ("ld", 0x3003);
  ("lbu", 0x4003);
  ("lhu", 0x5003);
  ("lwu", 0x6003);
  ("sb", 0x23);
  ("sh", 0x1023);
  ("sw", 0x2023);
  ("sd", 0x3023);
  ("fence", 0xf);
  ("fence.i", 0x100f);
  ("mul", 0x2000033);
  ("mulh", 0x2001033);
  ("mulhsu", 0x2002033);
  ("mulhu", 0x2003033);
  ("div", 0x2004033);
  ("divu", 0x2005033);
  ("rem", 0x2006033);
  ("remu", 0x2007033);
  ("mulw", 0x200003b);
  ("divw", 0x200403b);
  ("divuw", 0x200503b);
  ("remw", 0x200603b);
  ("remuw", 0x200703b);
  ("amoadd.w", 0x202f);
  ("amoxor.w", 0x2000202f);
  ("amoor.w", 0x4000202f);
  ("amoand.w", 0x6000202f);
  ("amomin.w", 0x8000202f);
  ("amomax.w", 0xa000202f);
  ("amominu.w", 0xc000202f);
  ("amomaxu.w", 0xe000202f);
  ("amoswap.w", 0x800202f);
  ("lr.w", 0x1000202f);
  ("sc.w", 0x1800202f);
  ("amoadd.d", 0x302f);
  ("amoxor.d", 0x2000302f);
  ("amoor.d", 0x4000302f);
  ("amoand.d", 0x6000302f);
  ("amomin.d", 0x8000302f);
  ("amomax.d", 0xa000302f);
  ("amominu.d", 0xc000302f);
  ("amomaxu.d", 0xe000302f);
  ("amoswap.d", 0x800302f);
  ("lr.d", 0x1000302f);
  ("sc.d", 0x1800302f);
  ("ecall", 0x73);
  ("ebreak", 0x100073);
  ("uret", 0x200073);
  ("sret", 0x10200073);
  ("mret", 0x30200073);
  ("dret", 0x7b200073);
  ("sfence.vma", 0x12000073);
  ("wfi", 0x10500073);
  ("csrrw", 0x1073);
  ("csrrs", 0x2073);
  ("csrrc", 0x3073);
  ("csrrwi", 0x5073);
  ("csrrsi", 0x6073);
  ("csrrci", 0x7073);
  ("cflush.d.l1", 0xfc000073);
  ("cdiscard.d.l1", 0xfc200073);
  ("cflush.i.l1", 0xfc100073);
  ("fadd.s", 0x53);
  ("fsub.s", 0x8000053);
  ("fmul.s", 0x10000053);
  ("fdiv.s", 0x18000053);
  ("fsgnj.s", 0x20000053);
  ("fsgnjn.s", 0x20001053);
  ("fsgnjx.s", 0x20002053);
  ("fmin.s", 0x28000053);
  ("fmax.s", 0x28001053);
  ("fsqrt.s", 0x58000053);
  ("fadd.d", 0x2000053);
  ("fsub.d", 0xa000053);
  ("fmul.d", 0x12000053);
  ("fdiv.d", 0x1a000053);
  ("fsgnj.d", 0x22000053);
  ("fsgnjn.d", 0x22001053);
  ("fsgnjx.d", 0x22002053);
  ("fmin.d", 0x2a000053);
  ("fmax.d", 0x2a001053);
  ("fcvt.s.d", 0x40100053);
  ("fcvt.d.s", 0x42000053);
  ("fsqrt.d", 0x5a000053);
  ("fadd.q", 0x6000053);
  ("fsub.q", 0xe000053);
  ("fmul.q", 0x16000053);
  ("fdiv.q", 0x1e000053);
  ("fsgnj.q", 0x26000053);
  ("fsgnjn.q", 0x26001053);
  ("fsgnjx.q", 0x26002053);
  ("fmin.q", 0x2e000053);
  ("fmax.q", 0x2e001053);
  ("fcvt.s.q", 0x40300053);
  ("fcvt.q.s", 0x46000053);
  ("fcvt.d.q", 0x42300053);
  ("fcvt.q.d", 0x46100053);
  ("fsqrt.q", 0x5e000053);
  ("fle.s", 0xa0000053);
  ("flt.s", 0xa0001053);
  ("feq.s", 0xa0002053);
  ("fle.d", 0xa2000053);
  ("flt.d", 0xa2001053);
  ("feq.d", 0xa2002053);
  ("fle.q", 0xa6000053);
  ("flt.q", 0xa6001053);
  ("feq.q", 0xa6002053);
  ("fcvt.w.s", 0xc0000053);
  ("fcvt.wu.s", 0xc0100053);
  ("fcvt.l.s", 0xc0200053);
  ("fcvt.lu.s", 0xc0300053);
  ("fmv.x.w", 0xe0000053);
  ("fclass.s", 0xe0001053);
  ("fcvt.w.d", 0xc2000053);
  ("fcvt.wu.d", 0xc2100053);
  ("fcvt.l.d", 0xc2200053);
  ("fcvt.lu.d", 0xc2300053);
  ("fmv.x.d", 0xe2000053);
  ("fclass.d", 0xe2001053);
  ("fcvt.w.q", 0xc6000053);
  ("fcvt.wu.q", 0xc6100053);
  ("fcvt.l.q", 0xc6200053);
  ("fcvt.lu.q", 0xc6300053);
  ("fmv.x.q", 0xe6000053);
  ("fclass.q", 0xe6001053);
  ("fcvt.s.w", 0xd0000053);
  ("fcvt.s.wu", 0xd0100053);
  ("fcvt.s.l", 0xd0200053);
  ("fcvt.s.lu", 0xd0300053);
  ("fmv.w.x", 0xf0000053);
  ("fcvt.d.w", 0xd2000053);
  ("fcvt.d.wu", 0xd2100053);
  ("fcvt.d.l", 0xd2200053);
  ("fcvt.d.lu", 0xd2300053);
  ("fmv.d.x", 0xf2000053);
  ("fcvt.q.w", 0xd6000053);
  ("fcvt.q.wu", 0xd6100053);
  ("fcvt.q.l", 0xd6200053);
  ("fcvt.q.lu", 0xd6300053);
  ("fmv.q.x", 0xf6000053);
  ("flw", 0x2007);
  ("fld", 0x3007);
  ("flq", 0x4007);
  ("fsw", 0x2027);
  ("fsd", 0x3027);
  ("fsq", 0x4027);
  ("fmadd.s", 0x43);
  ("fmsub.s", 0x47);
  ("fnmsub.s", 0x4b);
  ("fnmadd.s", 0x4f);
  ("fmadd.d", 0x2000043);
  ("fmsub.d", 0x2000047);
  ("fnmsub.d", 0x200004b);
  ("fnmadd.d", 0x200004f);
  ("fmadd.q", 0x6000043);
  ("fmsub.q", 0x6000047);
  ("fnmsub.q", 0x600004b);
  ("fnmadd.q", 0x600004f);
  ("c.addi4spn", 0x0);
  ("c.fld", 0x2000);
  ("c.lw", 0x4000);
  ("c.ld", 0x6000);
  ("c.fsd", 0xa000);
  ("c.sw", 0xc000);
  ("c.sd", 0xe000);
  ("c.addi", 0x81);
  ("c.nop", 0x1);
  ("c.addi16sp", 0x6101);
  ("c.jr", 0x8002);
  ("c.addiw", 0x2001);
  ("c.jalr", 0x9082);
  ("c.li", 0x4001);
  ("c.lui", 0x6001);
  ("c.srli", 0x8001);
  ("c.srai", 0x8401);
  ("c.andi", 0x8801);
  ("c.sub", 0x8c01);
  ("c.xor", 0x8c21);
  ("c.or", 0x8c41);
  ("c.and", 0x8c61);
  ("c.subw", 0x9c01);
  ("c.addw", 0x9c21);
  ("c.j", 0xa001);
  ("c.beqz", 0xc001);
  ("c.bnez", 0xe001);
  ("c.slli", 0x2);
  ("c.fldsp", 0x2002);
  ("c.lwsp", 0x4002);
  ("c.ldsp", 0x6002);
  ("c.mv", 0x8006);
  ("c.ebreak", 0x9002);
  ("c.add", 0x9086);
  ("c.fsdsp", 0xa002);
  ("c.swsp", 0xc002);
  ("c.sdsp", 0xe002);
  ("vsetvli", 0x7057);
  ("vsetvl", 0x80007057);
  ("vsetivli", 0xc0007057);
  ("vle8.v", 0x7);
  ("vle16.v", 0x5007);
  ("vle32.v", 0x6007);
  ("vle64.v", 0x7007);
  ("vse8.v", 0x27);
  ("vse16.v", 0x5027);
  ("vse32.v", 0x6027);
  ("vse64.v", 0x7027);
  ("vlse8.v", 0x8000007);
  ("vlse16.v", 0x8005007);
  ("vlse32.v", 0x8006007);
  ("vlse64.v", 0x8007007);
  ("vsse8.v", 0x8000027);
  ("vsse16.v", 0x8005027);
  ("vsse32.v", 0x8006027);
  ("vsse64.v", 0x8007027);
  ("vloxei8.v", 0xc000007);
  ("vloxei16.v", 0xc005007);
  ("vloxei32.v", 0xc006007);
  ("vloxei64.v", 0xc007007);
  ("vluxei8.v", 0x4000007);
  ("vluxei16.v", 0x4005007);
  ("vluxei32.v", 0x4006007);
  ("vluxei64.v", 0x4007007);
  ("vsoxei8.v", 0xc000027);
  ("vsoxei16.v", 0xc005027);
  ("vsoxei32.v", 0xc006027);
  ("vsoxei64.v", 0xc007027);
  ("vsuxei8.v", 0x4000027);
  ("vsuxei16.v", 0x4005027);
  ("vsuxei32.v", 0x4006027);
  ("vsuxei64.v", 0x4007027);
  ("vle8ff.v", 0x1000007);
  ("vle16ff.v", 0x1005007);
  ("vle32ff.v", 0x1006007);
  ("vle64ff.v", 0x1007007);
  ("vl1re8.v", 0x2800007);
  ("vl1re16.v", 0x2805007);
  ("vl1re32.v", 0x2806007);
  ("vl1re64.v", 0x2807007);
  ("vl2re8.v", 0x22800007);
  ("vl2re16.v", 0x22805007);
  ("vl2re32.v", 0x22806007);
  ("vl2re64.v", 0x22807007);
  ("vl4re8.v", 0x62800007);
  ("vl4re16.v", 0x62805007);
  ("vl4re32.v", 0x62806007);
  ("vl4re64.v", 0x62807007);
  ("vl8re8.v", 0xe2800007);
  ("vl8re16.v", 0xe2805007);
  ("vl8re32.v", 0xe2806007);
  ("vl8re64.v", 0xe2807007);
  ("vs1r.v", 0x2800027);
  ("vs2r.v", 0x22800027);
  ("vs4r.v", 0x62800027);
  ("vs8r.v", 0xe2800027);
  ("vfadd.vf", 0x5057);
  ("vfsub.vf", 0x8005057);
  ("vfmin.vf", 0x10005057);
  ("vfmax.vf", 0x18005057);
  ("vfsgnj.vf", 0x20005057);
  ("vfsgnjn.vf", 0x24005057);
  ("vfsgnjx.vf", 0x28005057);
  ("vfslide1up.vf", 0x38005057);
  ("vfslide1down.vf", 0x3c005057);
  ("vfmv.s.f", 0x42005057);
  ("vfmerge.vfm", 0x5c005057);
  ("vfmv.v.f", 0x5e005057);
  ("vmfeq.vf", 0x60005057);
  ("vmfle.vf", 0x64005057);
  ("vmflt.vf", 0x6c005057);
  ("vmfne.vf", 0x70005057);
  ("vmfgt.vf", 0x74005057);
  ("vmfge.vf", 0x7c005057);
  ("vfdiv.vf", 0x80005057);
  ("vfrdiv.vf", 0x84005057);
  ("vfmul.vf", 0x90005057);
  ("vfrsub.vf", 0x9c005057);
  ("vfmadd.vf", 0xa0005057);
  ("vfnmadd.vf", 0xa4005057);
  ("vfmsub.vf", 0xa8005057);
  ("vfnmsub.vf", 0xac005057);
  ("vfmacc.vf", 0xb0005057);
  ("vfnmacc.vf", 0xb4005057);
  ("vfmsac.vf", 0xb8005057);
  ("vfnmsac.vf", 0xbc005057);
  ("vfwadd.vf", 0xc0005057);
  ("vfwsub.vf", 0xc8005057);
  ("vfwadd.wf", 0xd0005057);
  ("vfwsub.wf", 0xd8005057);
  ("vfwmul.vf", 0xe0005057);
  ("vfwmacc.vf", 0xf0005057);
  ("vfwnmacc.vf", 0xf4005057);
  ("vfwmsac.vf", 0xf8005057);
  ("vfwnmsac.vf", 0xfc005057);
  ("vfadd.vv", 0x1057);
  ("vfredusum.vs", 0x4001057);
  ("vfsub.vv", 0x8001057);
  ("vfredosum.vs", 0xc001057);
  ("vfmin.vv", 0x10001057);
  ("vfredmin.vs", 0x14001057);
  ("vfmax.vv", 0x18001057);
  ("vfredmax.vs", 0x1c001057);
  ("vfsgnj.vv", 0x20001057);
  ("vfsgnjn.vv", 0x24001057);
  ("vfsgnjx.vv", 0x28001057);
  ("vfmv.f.s", 0x42001057);
  ("vmfeq.vv", 0x60001057);
  ("vmfle.vv", 0x64001057);
  ("vmflt.vv", 0x6c001057);
  ("vmfne.vv", 0x70001057);
  ("vfdiv.vv", 0x80001057);
  ("vfmul.vv", 0x90001057);
  ("vfmadd.vv", 0xa0001057);
  ("vfnmadd.vv", 0xa4001057);
  ("vfmsub.vv", 0xa8001057);
  ("vfnmsub.vv", 0xac001057);
  ("vfmacc.vv", 0xb0001057);
  ("vfnmacc.vv", 0xb4001057);
  ("vfmsac.vv", 0xb8001057);
  ("vfnmsac.vv", 0xbc001057);
  ("vfcvt.xu.f.v", 0x48001057);
  ("vfcvt.x.f.v", 0x48009057);
  ("vfcvt.f.xu.v", 0x48011057);
  ("vfcvt.f.x.v", 0x48019057);
  ("vfcvt.rtz.xu.f.v", 0x48031057);
  ("vfcvt.rtz.x.f.v", 0x48039057);
  ("vfwcvt.xu.f.v", 0x48041057);
  ("vfwcvt.x.f.v", 0x48049057);
  ("vfwcvt.f.xu.v", 0x48051057);
  ("vfwcvt.f.x.v", 0x48059057);
  ("vfwcvt.f.f.v", 0x48061057);
  ("vfwcvt.rtz.xu.f.v", 0x48071057);
  ("vfwcvt.rtz.x.f.v", 0x48079057);
  ("vfncvt.xu.f.w", 0x48081057);
  ("vfncvt.x.f.w", 0x48089057);
  ("vfncvt.f.xu.w", 0x48091057);
  ("vfncvt.f.x.w", 0x48099057);
  ("vfncvt.f.f.w", 0x480a1057);
  ("vfncvt.rod.f.f.w", 0x480a9057);
  ("vfncvt.rtz.xu.f.w", 0x480b1057);
  ("vfncvt.rtz.x.f.w", 0x480b9057);
  ("vfsqrt.v", 0x4c001057);
  ("vfclass.v", 0x4c081057);
  ("vfwadd.vv", 0xc0001057);
  ("vfwredusum.vs", 0xc4001057);
  ("vfwsub.vv", 0xc8001057);
  ("vfwredosum.vs", 0xcc001057);
  ("vfwadd.wv", 0xd0001057);
  ("vfwsub.wv", 0xd8001057);
  ("vfwmul.vv", 0xe0001057);
  ("vfdot.vv", 0xe4001057);
  ("vfwmacc.vv", 0xf0001057);
  ("vfwnmacc.vv", 0xf4001057);
  ("vfwmsac.vv", 0xf8001057);
  ("vfwnmsac.vv", 0xfc001057);
  ("vadd.vx", 0x4057);
  ("vsub.vx", 0x8004057);
  ("vrsub.vx", 0xc004057);
  ("vminu.vx", 0x10004057);
  ("vmin.vx", 0x14004057);
  ("vmaxu.vx", 0x18004057);
  ("vmax.vx", 0x1c004057);
  ("vand.vx", 0x24004057);
  ("vor.vx", 0x28004057);
  ("vxor.vx", 0x2c004057);
  ("vrgather.vx", 0x30004057);
  ("vslideup.vx", 0x38004057);
  ("vslidedown.vx", 0x3c004057);
  ("vadc.vxm", 0x40004057);
  ("vmadc.vxm", 0x44004057);
  ("vsbc.vxm", 0x48004057);
  ("vmsbc.vxm", 0x4c004057);
  ("vmerge.vxm", 0x5c004057);
  ("vmv.v.x", 0x5e004057);
  ("vmseq.vx", 0x60004057);
  ("vmsne.vx", 0x64004057);
  ("vmsltu.vx", 0x68004057);
  ("vmslt.vx", 0x6c004057);
  ("vmsleu.vx", 0x70004057);
  ("vmsle.vx", 0x74004057);
  ("vmsgtu.vx", 0x78004057);
  ("vmsgt.vx", 0x7c004057);
  ("vsaddu.vx", 0x80004057);
  ("vsadd.vx", 0x84004057);
  ("vssubu.vx", 0x88004057);
  ("vssub.vx", 0x8c004057);
  ("vsll.vx", 0x94004057);
  ("vsmul.vx", 0x9c004057);
  ("vsrl.vx", 0xa0004057);
  ("vsra.vx", 0xa4004057);
  ("vssrl.vx", 0xa8004057);
  ("vssra.vx", 0xac004057);
  ("vnsrl.wx", 0xb0004057);
  ("vnsra.wx", 0xb4004057);
  ("vnclipu.wx", 0xb8004057);
  ("vnclip.wx", 0xbc004057);
  ("vadd.vv", 0x57);
  ("vsub.vv", 0x8000057);
  ("vminu.vv", 0x10000057);
  ("vmin.vv", 0x14000057);
  ("vmaxu.vv", 0x18000057);
  ("vmax.vv", 0x1c000057);
  ("vand.vv", 0x24000057);
  ("vor.vv", 0x28000057);
  ("vxor.vv", 0x2c000057);
  ("vrgather.vv", 0x30000057);
  ("vrgatherei16.vv", 0x38000057);
  ("vadc.vvm", 0x40000057);
  ("vmadc.vvm", 0x44000057);
  ("vsbc.vvm", 0x48000057);
  ("vmsbc.vvm", 0x4c000057);
  ("vmerge.vvm", 0x5c000057);
  ("vmv.v.v", 0x5e000057);
  ("vmseq.vv", 0x60000057);
  ("vmsne.vv", 0x64000057);
  ("vmsltu.vv", 0x68000057);
  ("vmslt.vv", 0x6c000057);
  ("vmsleu.vv", 0x70000057);
  ("vmsle.vv", 0x74000057);
  ("vsaddu.vv", 0x80000057);
  ("vsadd.vv", 0x84000057);
  ("vssubu.vv", 0x88000057);
  ("vssub.vv", 0x8c000057);
  ("vsll.vv", 0x94000057);
  ("vsmul.vv", 0x9c000057);
  ("vsrl.vv", 0xa0000057);
  ("vsra.vv", 0xa4000057);
  ("vssrl.vv", 0xa8000057);
  ("vssra.vv", 0xac000057);
  ("vnsrl.wv", 0xb0000057);
  ("vnsra.wv", 0xb4000057);
  ("vnclipu.wv", 0xb8000057);
  ("vnclip.wv", 0xbc000057);
  ("vwredsumu.vs", 0xc0000057);
  ("vwredsum.vs", 0xc4000057);
  ("vadd.vi", 0x3057);
  ("vrsub.vi", 0xc003057);
  ("vand.vi", 0x24003057);
  ("vor.vi", 0x28003057);
  ("vxor.vi", 0x2c003057);
  ("vrgather.vi", 0x30003057);
  ("vslideup.vi", 0x38003057);
  ("vslidedown.vi", 0x3c003057);
  ("vadc.vim", 0x40003057);
  ("vmadc.vim", 0x44003057);
  ("vmerge.vim", 0x5c003057);
  ("vmv.v.i", 0x5e003057);
  ("vmseq.vi", 0x60003057);
  ("vmsne.vi", 0x64003057);
  ("vmsleu.vi", 0x70003057);
  ("vmsle.vi", 0x74003057);
  ("vmsgtu.vi", 0x78003057);
  ("vmsgt.vi", 0x7c003057);
  ("vsaddu.vi", 0x80003057);
  ("vsadd.vi", 0x84003057);
  ("vsll.vi", 0x94003057);
  ("vmv1r.v", 0x9e003057);
  ("vmv2r.v", 0x9e00b057);
  ("vmv4r.v", 0x9e01b057);
  ("vmv8r.v", 0x9e03b057);
  ("vsrl.vi", 0xa0003057);
  ("vsra.vi", 0xa4003057);
  ("vssrl.vi", 0xa8003057);
  ("vssra.vi", 0xac003057);
  ("vnsrl.wi", 0xb0003057);
  ("vnsra.wi", 0xb4003057);
  ("vnclipu.wi", 0xb8003057);
  ("vnclip.wi", 0xbc003057);
  ("vredsum.vs", 0x2057);
  ("vredand.vs", 0x4002057);
  ("vredor.vs", 0x8002057);
  ("vredxor.vs", 0xc002057);
  ("vredminu.vs", 0x10002057);
  ("vredmin.vs", 0x14002057);
  ("vredmaxu.vs", 0x18002057);
  ("vredmax.vs", 0x1c002057);
  ("vaaddu.vv", 0x20002057);
  ("vaadd.vv", 0x24002057);
  ("vasubu.vv", 0x28002057);
  ("vasub.vv", 0x2c002057);
  ("vmv.x.s", 0x42002057);
  ("vzext.vf8", 0x48012057);
  ("vsext.vf8", 0x4801a057);
  ("vzext.vf4", 0x48022057);
  ("vsext.vf4", 0x4802a057);
  ("vzext.vf2", 0x48032057);
  ("vsext.vf2", 0x4803a057);
  ("vcompress.vm", 0x5e002057);
  ("vmandn.mm", 0x60002057);
  ("vmand.mm", 0x64002057);
  ("vmor.mm", 0x68002057);
  ("vmxor.mm", 0x6c002057);
  ("vmorn.mm", 0x70002057);
  ("vmnand.mm", 0x74002057);
  ("vmnor.mm", 0x78002057);
  ("vmxnor.mm", 0x7c002057);
  ("vmsbf.m", 0x5000a057);
  ("vmsof.m", 0x50012057);
  ("vmsif.m", 0x5001a057);
  ("viota.m", 0x50082057);
  ("vid.v", 0x5008a057);
  ("vpopc.m", 0x40082057);
  ("vfirst.m", 0x4008a057);
  ("vdivu.vv", 0x80002057);
  ("vdiv.vv", 0x84002057);
  ("vremu.vv", 0x88002057);
  ("vrem.vv", 0x8c002057);
  ("vmulhu.vv", 0x90002057);
  ("vmul.vv", 0x94002057);
  ("vmulhsu.vv", 0x98002057);
  ("vmulh.vv", 0x9c002057);
  ("vmadd.vv", 0xa4002057);
  ("vnmsub.vv", 0xac002057);
  ("vmacc.vv", 0xb4002057);
  ("vnmsac.vv", 0xbc002057);
  ("vwaddu.vv", 0xc0002057);
  ("vwadd.vv", 0xc4002057);
  ("vwsubu.vv", 0xc8002057);
  ("vwsub.vv", 0xcc002057);
  ("vwaddu.wv", 0xd0002057);
  ("vwadd.wv", 0xd4002057);
  ("vwsubu.wv", 0xd8002057);
  ("vwsub.wv", 0xdc002057);
  ("vwmulu.vv", 0xe0002057);
  ("vwmulsu.vv", 0xe8002057);
  ("vwmul.vv", 0xec002057);
  ("vwmaccu.vv", 0xf0002057);
  ("vwmacc.vv", 0xf4002057);
  ("vwmaccsu.vv", 0xfc002057);
  ("vaaddu.vx", 0x20006057);
  ("vaadd.vx", 0x24006057);
  ("vasubu.vx", 0x28006057);
  ("vasub.vx", 0x2c006057);
  ("vmv.s.x", 0x42006057);
  ("vslide1up.vx", 0x38006057);
  ("vslide1down.vx", 0x3c006057);
  ("vdivu.vx", 0x80006057);
  ("vdiv.vx", 0x84006057);
  ("vremu.vx", 0x88006057);
  ("vrem.vx", 0x8c006057);
  ("vmulhu.vx", 0x90006057);
  ("vmul.vx", 0x94006057);
  ("vmulhsu.vx", 0x98006057);
  ("vmulh.vx", 0x9c006057);
  ("vmadd.vx", 0xa4006057);
  ("vnmsub.vx", 0xac006057);
  ("vmacc.vx", 0xb4006057);
  ("vnmsac.vx", 0xbc006057);
  ("vwaddu.vx", 0xc0006057);
  ("vwadd.vx", 0xc4006057);
  ("vwsubu.vx", 0xc8006057);
  ("vwsub.vx", 0xcc006057);
  ("vwaddu.wx", 0xd0006057);
  ("vwadd.wx", 0xd4006057);
  ("vwsubu.wx", 0xd8006057);
  ("vwsub.wx", 0xdc006057);
  ("vwmulu.vx", 0xe0006057);
  ("vwmulsu.vx", 0xe8006057);
  ("vwmul.vx", 0xec006057);
  ("vwmaccu.vx", 0xf0006057);
  ("vwmacc.vx", 0xf4006057);
  ("vwmaccus.vx", 0xf8006057);
  ("vwmaccsu.vx", 0xfc006057)].

(** test/basic/rv64h.tset *)
Definition tset_rv64h : list (string * N) := [
  ("hfence.vvma", 0x22000073);
  ("hfence.gvma", 0x62000073);
  ("hlv.b", 0x60004073);
  ("hlv.bu", 0x60104073);
  ("hlv.h", 0x64004073);
  ("hlv.hu", 0x64104073);
  ("hlvx.hu", 0x64304073);
  ("hlv.w", 0x68004073);
  ("hlvx.wu", 0x68304073);
  ("hsv.b", 0x62004073);
  ("hsv.h", 0x66004073);
  ("hsv.w", 0x6a004073);
  ("hlv.wu", 0x68104073);
  ("hlv.d", 0x6c004073);
  ("hsv.d", 0x6e004073)].

(** test/basic/rv64_bf16.tset *)
Definition tset_rv64_bf16 : list (string * N) := [
  ("fcvt.bf16.s", 0x448ff6d3);
  ("fcvt.s.bf16", 0x4061f153);
  ("vfwmaccbf16.vv", 0xec109157);
  ("vfwmaccbf16.vf", 0xec105157)].

(** test/basic/rv64_bits.tset *)
Definition tset_rv64_bits : list (string * N) := [
  ("rol", 0x60001033);
  ("sh2add", 0x20004033);
  ("ror", 0x60005033);
  ("clz", 0x60001013);
  ("xnor", 0x40004033);
  ("sh3add", 0x20006033);
  ("ctzw", 0x6010101b);
  ("sh1add.uw", 0x2000203b);
  ("packuw", 0x4800403b);
  ("orn", 0x40006033);
  ("cpop", 0x60201013);
  ("rori", 0x60005013);
  ("ctz", 0x60101013);
  ("sext.h", 0x60501013);
  ("rorw", 0x6000503b);
  ("sext.b", 0x60401013);
  ("slli.uw", 0x800101b);
  ("slli.uw", 0xa00101b);
  ("andn", 0x40007033);
  ("add.uw", 0x800003b);
  ("packu", 0x48004033);
  ("packw", 0x800403b);
  ("roriw", 0x6000501b);
  ("sh3add.uw", 0x2000603b);
  ("pack", 0x8004033);
  ("sh2add.uw", 0x2000403b);
  ("minu", 0xa005033);
  ("rolw", 0x6000103b);
  ("min", 0xa004033);
  ("gorci", 0x28005013);
  ("clzw", 0x6000101b);
  ("maxu", 0xa007033);
  ("sh1add", 0x20002033);
  ("max", 0xa006033);
  ("grevi", 0x68005013);
  ("cpopw", 0x6020101b);
  ("bclr", 0x48001033);
  ("bclri", 0x48001013);
  ("bext", 0x48005033);
  ("bexti", 0x48005013);
  ("binv", 0x68001033);
  ("binvi", 0x68001013);
  ("bset", 0x28001033);
  ("bseti", 0x28001013);
  ("clmul", 0xa001033);
  ("clmulh", 0xa003033);
  ("clmulr", 0xa002033)].
