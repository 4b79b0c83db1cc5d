(** Generated by tools/gen_texts.py from /repo/json; do not edit.  One list per file, one
    entry per JSON object, in file order. *)
From Coq Require Import List String.
From Verif Require Import M_Raw M_Text G_Tables.
Import ListNotations.
Local Open Scope string_scope.

(** json/isa_rv32a.json *)
Definition isa_rv32a_texts : list texts := [
  mkTexts (Some "0x202f") [] None [];
  mkTexts (Some "0x2000202f") [] None [];
  mkTexts (Some "0x4000202f") [] None [];
  mkTexts (Some "0x6000202f") [] None [];
  mkTexts (Some "0x8000202f") [] None [];
  mkTexts (Some "0xa000202f") [] None [];
  mkTexts (Some "0xc000202f") [] None [];
  mkTexts (Some "0xe000202f") [] None [];
  mkTexts (Some "0x800202f") [] None [];
  mkTexts (Some "0x1000202f") [] None [];
  mkTexts (Some "0x1800202f") [] None []
].

(** json/isa_rv32c.json *)
Definition isa_rv32c_texts : list texts := [
  mkTexts (Some "0x0") [] None [];
  mkTexts (Some "0x4000") [] None [];
  mkTexts (Some "0xc000") [] None [];
  mkTexts (Some "0x1") [] None [];
  mkTexts (Some "0x1") [] None [];
  mkTexts (Some "0x6101") [] None [];
  mkTexts (Some "0x8002") [] None [];
  mkTexts (Some "0x9002") [] None [];
  mkTexts (Some "0x4001") [] None [];
  mkTexts (Some "0x6001") [] None [];
  mkTexts (Some "0x8001") [] None [];
  mkTexts (Some "0x8401") [] None [];
  mkTexts (Some "0x8801") [] None [];
  mkTexts (Some "0x8c01") [] None [];
  mkTexts (Some "0x8c21") [] None [];
  mkTexts (Some "0x8c41") [] None [];
  mkTexts (Some "0x8c61") [] None [];
  mkTexts (Some "0xa001") [] None [];
  mkTexts (Some "0x2001") [] None [];
  mkTexts (Some "0xc001") [] None [];
  mkTexts (Some "0xe001") [] None [];
  mkTexts (Some "0x2") [] None [];
  mkTexts (Some "0x4002") [] None [];
  mkTexts (Some "0x8002") [] None [];
  mkTexts (Some "0x9002") [] None [];
  mkTexts (Some "0x9002") [] None [];
  mkTexts (Some "0xc002") [] None []
].

(** json/isa_rv32cd.json *)
Definition isa_rv32cd_texts : list texts := [
  mkTexts (Some "0x2000") [] None [];
  mkTexts (Some "0xa000") [] None [];
  mkTexts (Some "0x2002") [] None [];
  mkTexts (Some "0xa002") [] None []
].

(** json/isa_rv32cf.json *)
Definition isa_rv32cf_texts : list texts := [
  mkTexts (Some "0x6000") [] None [];
  mkTexts (Some "0xe000") [] None [];
  mkTexts (Some "0x6002") [] None [];
  mkTexts (Some "0xe002") [] None []
].

(** json/isa_rv32d.json *)
Definition isa_rv32d_texts : list texts := [
  mkTexts (Some "0x2000053") [] None [];
  mkTexts (Some "0xa000053") [] None [];
  mkTexts (Some "0x12000053") [] None [];
  mkTexts (Some "0x1a000053") [] None [];
  mkTexts (Some "0x22000053") [] None [];
  mkTexts (Some "0x22001053") [] None [];
  mkTexts (Some "0x22002053") [] None [];
  mkTexts (Some "0x2a000053") [] None [];
  mkTexts (Some "0x2a001053") [] None [];
  mkTexts (Some "0x40100053") [] None [];
  mkTexts (Some "0x42000053") [] None [];
  mkTexts (Some "0x5a000053") [] None [];
  mkTexts (Some "0xa2000053") [] None [];
  mkTexts (Some "0xa2001053") [] None [];
  mkTexts (Some "0xa2002053") [] None [];
  mkTexts (Some "0xc2000053") [] None [];
  mkTexts (Some "0xc2100053") [] None [];
  mkTexts (Some "0xe2001053") [] None [];
  mkTexts (Some "0xd2000053") [] None [];
  mkTexts (Some "0xd2100053") [] None [];
  mkTexts (Some "0x3007") [] None [];
  mkTexts (Some "0x3027") [] None [];
  mkTexts (Some "0x2000043") [] None [];
  mkTexts (Some "0x2000047") [] None [];
  mkTexts (Some "0x200004b") [] None [];
  mkTexts (Some "0x200004f") [] None [];
  mkTexts (Some "0xc2801053") [] None [];
  mkTexts (Some "0xa2004053") [] None [];
  mkTexts (Some "0xf2100053") [] None [];
  mkTexts (Some "0xa2005053") [] None [];
  mkTexts (Some "0x2a003053") [] None [];
  mkTexts (Some "0x2a002053") [] None [];
  mkTexts (Some "0x42400053") [] None [];
  mkTexts (Some "0x42500053") [] None []
].

(** json/isa_rv32f.json *)
Definition isa_rv32f_texts : list texts := [
  mkTexts (Some "0x53") [] None [];
  mkTexts (Some "0x8000053") [] None [];
  mkTexts (Some "0x10000053") [] None [];
  mkTexts (Some "0x18000053") [] None [];
  mkTexts (Some "0x20000053") [] None [];
  mkTexts (Some "0x20001053") [] None [];
  mkTexts (Some "0x20002053") [] None [];
  mkTexts (Some "0x28000053") [] None [];
  mkTexts (Some "0x28001053") [] None [];
  mkTexts (Some "0x58000053") [] None [];
  mkTexts (Some "0xa0000053") [] None [];
  mkTexts (Some "0xa0001053") [] None [];
  mkTexts (Some "0xa0002053") [] None [];
  mkTexts (Some "0xc0000053") [] None [];
  mkTexts (Some "0xc0100053") [] None [];
  mkTexts (Some "0xe0000053") [] None [];
  mkTexts (Some "0xe0001053") [] None [];
  mkTexts (Some "0xd0000053") [] None [];
  mkTexts (Some "0xd0100053") [] None [];
  mkTexts (Some "0xf0000053") [] None [];
  mkTexts (Some "0x2007") [] None [];
  mkTexts (Some "0x2027") [] None [];
  mkTexts (Some "0x43") [] None [];
  mkTexts (Some "0x47") [] None [];
  mkTexts (Some "0x4b") [] None [];
  mkTexts (Some "0x4f") [] None [];
  mkTexts (Some "0xa0004053") [] None [];
  mkTexts (Some "0xf0100053") [] None [];
  mkTexts (Some "0xa0005053") [] None [];
  mkTexts (Some "0x28003053") [] None [];
  mkTexts (Some "0x28002053") [] None [];
  mkTexts (Some "0x40400053") [] None [];
  mkTexts (Some "0x40500053") [] None []
].

(** json/isa_rv32i.json *)
Definition isa_rv32i_texts : list texts := [
  mkTexts (Some "0x63") [] None [];
  mkTexts (Some "0x1063") [] None [];
  mkTexts (Some "0x4063") [] None [];
  mkTexts (Some "0x5063") [] None [];
  mkTexts (Some "0x6063") [] None [];
  mkTexts (Some "0x7063") [] None [];
  mkTexts (Some "0x67") [] None [];
  mkTexts (Some "0x6f") [] None [];
  mkTexts (Some "0x37") [] None [];
  mkTexts (Some "0x17") [] None [];
  mkTexts (Some "0x13") [] None [];
  mkTexts (Some "0x13") [] None [];
  mkTexts None [] (Some ["0xFFFFFF80"; "0x00000000"]) [];
  mkTexts None [] (Some ["0xFFF00000"; "0x00000000"]) [];
  mkTexts (Some "0x1013") [] None [];
  mkTexts (Some "0x2013") [] None [];
  mkTexts (Some "0x3013") [] None [];
  mkTexts (Some "0x4013") [] None [];
  mkTexts (Some "0x5013") [] None [];
  mkTexts (Some "0x40005013") [] None [];
  mkTexts (Some "0x6013") [] None [];
  mkTexts (Some "0x7013") [] None [];
  mkTexts (Some "0x33") [] None [];
  mkTexts (Some "0x40000033") [] None [];
  mkTexts (Some "0x1033") [] None [];
  mkTexts (Some "0x2033") [] None [];
  mkTexts (Some "0x3033") [] None [];
  mkTexts (Some "0x4033") [] None [];
  mkTexts (Some "0x5033") [] None [];
  mkTexts (Some "0x40005033") [] None [];
  mkTexts (Some "0x6033") [] None [];
  mkTexts (Some "0x7033") [] None [];
  mkTexts (Some "0x3") [] None [];
  mkTexts (Some "0x1003") [] None [];
  mkTexts (Some "0x2003") [] None [];
  mkTexts (Some "0x4003") [] None [];
  mkTexts (Some "0x5003") [] None [];
  mkTexts (Some "0x23") [] None [];
  mkTexts (Some "0x1023") [] None [];
  mkTexts (Some "0x2023") [] None [];
  mkTexts (Some "0xf") [] None [];
  mkTexts (Some "0x73") [] None [];
  mkTexts (Some "0x100073") [] None [];
  mkTexts (Some "0x200073") [] None [];
  mkTexts (Some "0x10200073") [] None [];
  mkTexts (Some "0x30200073") [] None [];
  mkTexts (Some "0x7b200073") [] None [];
  mkTexts (Some "0x12000073") [] None [];
  mkTexts (Some "0x10500073") [] None [];
  mkTexts (Some "0xfc000073") [] None [];
  mkTexts (Some "0xfc200073") [] None [];
  mkTexts (Some "0xfc100073") [] None []
].

(** json/isa_rv32m.json *)
Definition isa_rv32m_texts : list texts := [
  mkTexts (Some "0x2000033") [] None [];
  mkTexts (Some "0x2001033") [] None [];
  mkTexts (Some "0x2002033") [] None [];
  mkTexts (Some "0x2003033") [] None [];
  mkTexts (Some "0x2004033") [] None [];
  mkTexts (Some "0x2005033") [] None [];
  mkTexts (Some "0x2006033") [] None [];
  mkTexts (Some "0x2007033") [] None []
].

(** json/isa_rv32zawrs.json *)
Definition isa_rv32zawrs_texts : list texts := [
  mkTexts (Some "0xd00073") [] None [];
  mkTexts (Some "0x1d00073") [] None []
].

(** json/isa_rv32zba.json *)
Definition isa_rv32zba_texts : list texts := [
  mkTexts (Some "0x20002033") [] None ["B"];
  mkTexts (Some "0x20004033") [] None ["B"];
  mkTexts (Some "0x20006033") [] None ["B"]
].

(** json/isa_rv32zbb.json *)
Definition isa_rv32zbb_texts : list texts := [
  mkTexts (Some "0x40007033") [] None ["B"];
  mkTexts (Some "0x40006033") [] None ["B"];
  mkTexts (Some "0x40004033") [] None ["B"];
  mkTexts (Some "0x60001013") [] None ["B"];
  mkTexts (Some "0x60101013") [] None ["B"];
  mkTexts (Some "0x60201013") [] None ["B"];
  mkTexts (Some "0xa006033") [] None ["B"];
  mkTexts (Some "0xa007033") [] None ["B"];
  mkTexts (Some "0xa004033") [] None ["B"];
  mkTexts (Some "0xa005033") [] None ["B"];
  mkTexts (Some "0x60401013") [] None ["B"];
  mkTexts (Some "0x60501013") [] None ["B"];
  mkTexts (Some "0x8004033") [] None ["B"];
  mkTexts (Some "0x800403b") [] None ["B"];
  mkTexts (Some "0x48004033") [] None ["B"];
  mkTexts (Some "0x4800403b") [] None ["B"];
  mkTexts (Some "0x60001033") [] None ["B"];
  mkTexts (Some "0x60005033") [] None ["B"];
  mkTexts (Some "0x60005013") [] None ["B"];
  mkTexts (Some "0x28005013") [] None ["B"];
  mkTexts (Some "0x68005013") [] None ["B"]
].

(** json/isa_rv32zbc.json *)
Definition isa_rv32zbc_texts : list texts := [
  mkTexts (Some "0xa001033") [] None ["B"];
  mkTexts (Some "0xa003033") [] None ["B"];
  mkTexts (Some "0xa002033") [] None ["B"]
].

(** json/isa_rv32zbs.json *)
Definition isa_rv32zbs_texts : list texts := [
  mkTexts (Some "0x48001033") [] None ["B"];
  mkTexts (Some "0x48001013") [] None ["B"];
  mkTexts (Some "0x48005033") [] None ["B"];
  mkTexts (Some "0x48005013") [] None ["B"];
  mkTexts (Some "0x68001033") [] None ["B"];
  mkTexts (Some "0x68001013") [] None ["B"];
  mkTexts (Some "0x28001033") [] None ["B"];
  mkTexts (Some "0x28001013") [] None ["B"]
].

(** json/isa_rv32zcb.json *)
Definition isa_rv32zcb_texts : list texts := [
  mkTexts (Some "0x8000") [] None [];
  mkTexts (Some "0x8440") [] None [];
  mkTexts (Some "0x8400") [] None [];
  mkTexts (Some "0x8800") [] None [];
  mkTexts (Some "0x8c00") [] None [];
  mkTexts (Some "0x9c61") [] None [];
  mkTexts (Some "0x9c65") [] None [];
  mkTexts (Some "0x9c69") [] None [];
  mkTexts (Some "0x9c6d") [] None [];
  mkTexts (Some "0x9c75") [] None [];
  mkTexts (Some "0x9c41") [] None []
].

(** json/isa_rv32zclsd.json *)
Definition isa_rv32zclsd_texts : list texts := [
  mkTexts (Some "0x6000") [] None [];
  mkTexts (Some "0x6002") [] None [];
  mkTexts (Some "0xe000") [] None [];
  mkTexts (Some "0xe002") [] None []
].

(** json/isa_rv32zicond.json *)
Definition isa_rv32zicond_texts : list texts := [
  mkTexts (Some "0xe005033") [] None [];
  mkTexts (Some "0xe007033") [] None []
].

(** json/isa_rv32zicsr.json *)
Definition isa_rv32zicsr_texts : list texts := [
  mkTexts (Some "0x1073") [] None [];
  mkTexts (Some "0x2073") [] None [];
  mkTexts (Some "0x3073") [] None [];
  mkTexts (Some "0x5073") [] None [];
  mkTexts (Some "0x6073") [] None [];
  mkTexts (Some "0x7073") [] None []
].

(** json/isa_rv32zifencei.json *)
Definition isa_rv32zifencei_texts : list texts := [
  mkTexts (Some "0x100f") [] None []
].

(** json/isa_rv32zihintpause.json *)
Definition isa_rv32zihintpause_texts : list texts := [
  mkTexts (Some "0x0100000f") [] (Some ["0xFFFF8F80"; "0x01000000"]) []
].

(** json/isa_rv32zilsd.json *)
Definition isa_rv32zilsd_texts : list texts := [
  mkTexts (Some "0x3003") [] None [];
  mkTexts (Some "0x3023") [] None []
].

(** json/isa_rv64a.json *)
Definition isa_rv64a_texts : list texts := [
  mkTexts (Some "0x202f") [] None [];
  mkTexts (Some "0x2000202f") [] None [];
  mkTexts (Some "0x4000202f") [] None [];
  mkTexts (Some "0x6000202f") [] None [];
  mkTexts (Some "0x8000202f") [] None [];
  mkTexts (Some "0xa000202f") [] None [];
  mkTexts (Some "0xc000202f") [] None [];
  mkTexts (Some "0xe000202f") [] None [];
  mkTexts (Some "0x800202f") [] None [];
  mkTexts (Some "0x1000202f") [] None [];
  mkTexts (Some "0x1800202f") [] None [];
  mkTexts (Some "0x302f") [] None [];
  mkTexts (Some "0x2000302f") [] None [];
  mkTexts (Some "0x4000302f") [] None [];
  mkTexts (Some "0x6000302f") [] None [];
  mkTexts (Some "0x8000302f") [] None [];
  mkTexts (Some "0xa000302f") [] None [];
  mkTexts (Some "0xc000302f") [] None [];
  mkTexts (Some "0xe000302f") [] None [];
  mkTexts (Some "0x800302f") [] None [];
  mkTexts (Some "0x1000302f") [] None [];
  mkTexts (Some "0x1800302f") [] None []
].

(** json/isa_rv64c.json *)
Definition isa_rv64c_texts : list texts := [
  mkTexts (Some "0x0") [] None [];
  mkTexts (Some "0x4000") [] None [];
  mkTexts (Some "0x6000") [] None [];
  mkTexts (Some "0xc000") [] None [];
  mkTexts (Some "0xe000") [] None [];
  mkTexts (Some "0x1") [] None [];
  mkTexts (Some "0x1") [] None [];
  mkTexts (Some "0x6101") [] None [];
  mkTexts (Some "0x8002") [] None [];
  mkTexts (Some "0x2001") [] None [];
  mkTexts (Some "0x9002") [] None [];
  mkTexts (Some "0x4001") [] None [];
  mkTexts (Some "0x6001") [] None [];
  mkTexts (Some "0x8001") [] None [];
  mkTexts (Some "0x8401") [] None [];
  mkTexts (Some "0x8801") [] None [];
  mkTexts (Some "0x8c01") [] None [];
  mkTexts (Some "0x8c21") [] None [];
  mkTexts (Some "0x8c41") [] None [];
  mkTexts (Some "0x8c61") [] None [];
  mkTexts (Some "0x9c01") [] None [];
  mkTexts (Some "0x9c21") [] None [];
  mkTexts (Some "0xa001") [] None [];
  mkTexts (Some "0xc001") [] None [];
  mkTexts (Some "0xe001") [] None [];
  mkTexts (Some "0x2") [] None [];
  mkTexts (Some "0x4002") [] None [];
  mkTexts (Some "0x6002") [] None [];
  mkTexts (Some "0x8002") [] None [];
  mkTexts (Some "0x9002") [] None [];
  mkTexts (Some "0x9002") [] None [];
  mkTexts (Some "0xc002") [] None [];
  mkTexts (Some "0xe002") [] None []
].

(** json/isa_rv64cd.json *)
Definition isa_rv64cd_texts : list texts := [
  mkTexts (Some "0x2000") [] None [];
  mkTexts (Some "0xa000") [] None [];
  mkTexts (Some "0x2002") [] None [];
  mkTexts (Some "0xa002") [] None []
].

(** json/isa_rv64cf.json *)
Definition isa_rv64cf_texts : list texts := [

].

(** json/isa_rv64d.json *)
Definition isa_rv64d_texts : list texts := [
  mkTexts (Some "0x2000053") [] None [];
  mkTexts (Some "0xa000053") [] None [];
  mkTexts (Some "0x12000053") [] None [];
  mkTexts (Some "0x1a000053") [] None [];
  mkTexts (Some "0x22000053") [] None [];
  mkTexts (Some "0x22001053") [] None [];
  mkTexts (Some "0x22002053") [] None [];
  mkTexts (Some "0x2a000053") [] None [];
  mkTexts (Some "0x2a001053") [] None [];
  mkTexts (Some "0x40100053") [] None [];
  mkTexts (Some "0x42000053") [] None [];
  mkTexts (Some "0x5a000053") [] None [];
  mkTexts (Some "0xa2000053") [] None [];
  mkTexts (Some "0xa2001053") [] None [];
  mkTexts (Some "0xa2002053") [] None [];
  mkTexts (Some "0xc2000053") [] None [];
  mkTexts (Some "0xc2100053") [] None [];
  mkTexts (Some "0xc2200053") [] None [];
  mkTexts (Some "0xc2300053") [] None [];
  mkTexts (Some "0xe2000053") [] None [];
  mkTexts (Some "0xe2001053") [] None [];
  mkTexts (Some "0xd2000053") [] None [];
  mkTexts (Some "0xd2100053") [] None [];
  mkTexts (Some "0xd2200053") [] None [];
  mkTexts (Some "0xd2300053") [] None [];
  mkTexts (Some "0xf2000053") [] None [];
  mkTexts (Some "0x3007") [] None [];
  mkTexts (Some "0x3027") [] None [];
  mkTexts (Some "0x2000043") [] None [];
  mkTexts (Some "0x2000047") [] None [];
  mkTexts (Some "0x200004b") [] None [];
  mkTexts (Some "0x200004f") [] None [];
  mkTexts (Some "0xc2801053") [] None [];
  mkTexts (Some "0xa2004053") [] None [];
  mkTexts (Some "0xf2100053") [] None [];
  mkTexts (Some "0xa2005053") [] None [];
  mkTexts (Some "0x2a003053") [] None [];
  mkTexts (Some "0x2a002053") [] None [];
  mkTexts (Some "0x42400053") [] None [];
  mkTexts (Some "0x42500053") [] None []
].

(** json/isa_rv64f.json *)
Definition isa_rv64f_texts : list texts := [
  mkTexts (Some "0x53") [] None [];
  mkTexts (Some "0x8000053") [] None [];
  mkTexts (Some "0x10000053") [] None [];
  mkTexts (Some "0x18000053") [] None [];
  mkTexts (Some "0x20000053") [] None [];
  mkTexts (Some "0x20001053") [] None [];
  mkTexts (Some "0x20002053") [] None [];
  mkTexts (Some "0x28000053") [] None [];
  mkTexts (Some "0x28001053") [] None [];
  mkTexts (Some "0x58000053") [] None [];
  mkTexts (Some "0xa0000053") [] None [];
  mkTexts (Some "0xa0001053") [] None [];
  mkTexts (Some "0xa0002053") [] None [];
  mkTexts (Some "0xc0000053") [] None [];
  mkTexts (Some "0xc0100053") [] None [];
  mkTexts (Some "0xc0200053") [] None [];
  mkTexts (Some "0xc0300053") [] None [];
  mkTexts (Some "0xe0000053") [] None [];
  mkTexts (Some "0xe0001053") [] None [];
  mkTexts (Some "0xd0000053") [] None [];
  mkTexts (Some "0xd0100053") [] None [];
  mkTexts (Some "0xd0200053") [] None [];
  mkTexts (Some "0xd0300053") [] None [];
  mkTexts (Some "0xf0000053") [] None [];
  mkTexts (Some "0x2007") [] None [];
  mkTexts (Some "0x2027") [] None [];
  mkTexts (Some "0x43") [] None [];
  mkTexts (Some "0x47") [] None [];
  mkTexts (Some "0x4b") [] None [];
  mkTexts (Some "0x4f") [] None [];
  mkTexts (Some "0xa0004053") [] None [];
  mkTexts (Some "0xf0100053") [] None [];
  mkTexts (Some "0xa0005053") [] None [];
  mkTexts (Some "0x28003053") [] None [];
  mkTexts (Some "0x28002053") [] None [];
  mkTexts (Some "0x40400053") [] None [];
  mkTexts (Some "0x40500053") [] None []
].

(** json/isa_rv64h.json *)
Definition isa_rv64h_texts : list texts := [
  mkTexts (Some "0x22000073") [] None [];
  mkTexts (Some "0x62000073") [] None [];
  mkTexts (Some "0x60004073") [] None [];
  mkTexts (Some "0x60104073") [] None [];
  mkTexts (Some "0x64004073") [] None [];
  mkTexts (Some "0x64104073") [] None [];
  mkTexts (Some "0x64304073") [] None [];
  mkTexts (Some "0x68004073") [] None [];
  mkTexts (Some "0x68304073") [] None [];
  mkTexts (Some "0x62004073") [] None [];
  mkTexts (Some "0x66004073") [] None [];
  mkTexts (Some "0x6a004073") [] None [];
  mkTexts (Some "0x68104073") [] None [];
  mkTexts (Some "0x6c004073") [] None [];
  mkTexts (Some "0x6e004073") [] None []
].

(** json/isa_rv64i.json *)
Definition isa_rv64i_texts : list texts := [
  mkTexts (Some "0x63") [] None [];
  mkTexts (Some "0x1063") [] None [];
  mkTexts (Some "0x4063") [] None [];
  mkTexts (Some "0x5063") [] None [];
  mkTexts (Some "0x6063") [] None [];
  mkTexts (Some "0x7063") [] None [];
  mkTexts (Some "0x67") [] None [];
  mkTexts (Some "0x6f") [] None [];
  mkTexts (Some "0x37") [] None [];
  mkTexts (Some "0x17") [] None [];
  mkTexts (Some "0x13") [] None [];
  mkTexts (Some "0x13") [] None [];
  mkTexts None [] (Some ["0xFFFFFF80"; "0x00000000"]) [];
  mkTexts None [] (Some ["0xFFF00000"; "0x00000000"]) [];
  mkTexts (Some "0x1013") [] None [];
  mkTexts (Some "0x2013") [] None [];
  mkTexts (Some "0x3013") [] None [];
  mkTexts (Some "0x4013") [] None [];
  mkTexts (Some "0x5013") [] None [];
  mkTexts (Some "0x40005013") [] None [];
  mkTexts (Some "0x6013") [] None [];
  mkTexts (Some "0x7013") [] None [];
  mkTexts (Some "0x33") [] None [];
  mkTexts (Some "0x40000033") [] None [];
  mkTexts (Some "0x1033") [] None [];
  mkTexts (Some "0x2033") [] None [];
  mkTexts (Some "0x3033") [] None [];
  mkTexts (Some "0x4033") [] None [];
  mkTexts (Some "0x5033") [] None [];
  mkTexts (Some "0x40005033") [] None [];
  mkTexts (Some "0x6033") [] None [];
  mkTexts (Some "0x7033") [] None [];
  mkTexts (Some "0x1b") [] None [];
  mkTexts (Some "0x101b") [] None [];
  mkTexts (Some "0x501b") [] None [];
  mkTexts (Some "0x4000501b") [] None [];
  mkTexts (Some "0x3b") [] None [];
  mkTexts (Some "0x4000003b") [] None [];
  mkTexts (Some "0x103b") [] None [];
  mkTexts (Some "0x503b") [] None [];
  mkTexts (Some "0x4000503b") [] None [];
  mkTexts (Some "0x3") [] None [];
  mkTexts (Some "0x1003") [] None [];
  mkTexts (Some "0x2003") [] None [];
  mkTexts (Some "0x3003") [] None [];
  mkTexts (Some "0x4003") [] None [];
  mkTexts (Some "0x5003") [] None [];
  mkTexts (Some "0x6003") [] None [];
  mkTexts (Some "0x23") [] None [];
  mkTexts (Some "0x1023") [] None [];
  mkTexts (Some "0x2023") [] None [];
  mkTexts (Some "0x3023") [] None [];
  mkTexts (Some "0xf") [] None [];
  mkTexts (Some "0x73") [] None [];
  mkTexts (Some "0x100073") [] None [];
  mkTexts (Some "0x200073") [] None [];
  mkTexts (Some "0x10200073") [] None [];
  mkTexts (Some "0x30200073") [] None [];
  mkTexts (Some "0x7b200073") [] None [];
  mkTexts (Some "0x12000073") [] None [];
  mkTexts (Some "0x10500073") [] None [];
  mkTexts (Some "0xfc000073") [] None [];
  mkTexts (Some "0xfc200073") [] None [];
  mkTexts (Some "0xfc100073") [] None []
].

(** json/isa_rv64m.json *)
Definition isa_rv64m_texts : list texts := [
  mkTexts (Some "0x2000033") [] None [];
  mkTexts (Some "0x2001033") [] None [];
  mkTexts (Some "0x2002033") [] None [];
  mkTexts (Some "0x2003033") [] None [];
  mkTexts (Some "0x2004033") [] None [];
  mkTexts (Some "0x2005033") [] None [];
  mkTexts (Some "0x2006033") [] None [];
  mkTexts (Some "0x2007033") [] None [];
  mkTexts (Some "0x200003b") [] None [];
  mkTexts (Some "0x200403b") [] None [];
  mkTexts (Some "0x200503b") [] None [];
  mkTexts (Some "0x200603b") [] None [];
  mkTexts (Some "0x200703b") [] None []
].

(** json/isa_rv64q.json *)
Definition isa_rv64q_texts : list texts := [
  mkTexts (Some "0x6000053") [] None [];
  mkTexts (Some "0xe000053") [] None [];
  mkTexts (Some "0x16000053") [] None [];
  mkTexts (Some "0x1e000053") [] None [];
  mkTexts (Some "0x26000053") [] None [];
  mkTexts (Some "0x26001053") [] None [];
  mkTexts (Some "0x26002053") [] None [];
  mkTexts (Some "0x2e000053") [] None [];
  mkTexts (Some "0x2e001053") [] None [];
  mkTexts (Some "0x40300053") [] None [];
  mkTexts (Some "0x46000053") [] None [];
  mkTexts (Some "0x42300053") [] None [];
  mkTexts (Some "0x46100053") [] None [];
  mkTexts (Some "0x5e000053") [] None [];
  mkTexts (Some "0xa6000053") [] None [];
  mkTexts (Some "0xa6001053") [] None [];
  mkTexts (Some "0xa6002053") [] None [];
  mkTexts (Some "0xc6000053") [] None [];
  mkTexts (Some "0xc6100053") [] None [];
  mkTexts (Some "0xc6200053") [] None [];
  mkTexts (Some "0xc6300053") [] None [];
  mkTexts (Some "0xe6000053") [] None [];
  mkTexts (Some "0xe6001053") [] None [];
  mkTexts (Some "0xd6000053") [] None [];
  mkTexts (Some "0xd6100053") [] None [];
  mkTexts (Some "0xd6200053") [] None [];
  mkTexts (Some "0xd6300053") [] None [];
  mkTexts (Some "0xf6000053") [] None [];
  mkTexts (Some "0x4007") [] None [];
  mkTexts (Some "0x4027") [] None [];
  mkTexts (Some "0x6000043") [] None [];
  mkTexts (Some "0x6000047") [] None [];
  mkTexts (Some "0x600004b") [] None [];
  mkTexts (Some "0x600004f") [] None [];
  mkTexts (Some "0xa6004053") [] None [];
  mkTexts (Some "0xf6100053") [] None [];
  mkTexts (Some "0xa6005053") [] None [];
  mkTexts (Some "0x2e003053") [] None [];
  mkTexts (Some "0x2e002053") [] None [];
  mkTexts (Some "0x46400053") [] None [];
  mkTexts (Some "0x46500053") [] None [];
  mkTexts (Some "0xe6100053") [] None [];
  mkTexts (Some "0xb6000053") [] None []
].

(** json/isa_rv64v.json *)
Definition isa_rv64v_texts : list texts := [
  mkTexts (Some "0x7057") [] None [];
  mkTexts (Some "0x80007057") [] None [];
  mkTexts (Some "0x2b00007") [] None [];
  mkTexts (Some "0xc0007057") [] None [];
  mkTexts (Some "0x7") [] None [];
  mkTexts (Some "0x5007") [] None [];
  mkTexts (Some "0x6007") [] None [];
  mkTexts (Some "0x7007") [] None [];
  mkTexts (Some "0x2b00027") [] None [];
  mkTexts (Some "0x27") [] None [];
  mkTexts (Some "0x5027") [] None [];
  mkTexts (Some "0x6027") [] None [];
  mkTexts (Some "0x7027") [] None [];
  mkTexts (Some "0x8000007") [] None [];
  mkTexts (Some "0x8005007") [] None [];
  mkTexts (Some "0x8006007") [] None [];
  mkTexts (Some "0x8007007") [] None [];
  mkTexts (Some "0x8000027") [] None [];
  mkTexts (Some "0x8005027") [] None [];
  mkTexts (Some "0x8006027") [] None [];
  mkTexts (Some "0x8007027") [] None [];
  mkTexts (Some "0xc000007") [] None [];
  mkTexts (Some "0xc005007") [] None [];
  mkTexts (Some "0xc006007") [] None [];
  mkTexts (Some "0xc007007") [] None [];
  mkTexts (Some "0x4000007") [] None [];
  mkTexts (Some "0x4005007") [] None [];
  mkTexts (Some "0x4006007") [] None [];
  mkTexts (Some "0x4007007") [] None [];
  mkTexts (Some "0xc000027") [] None [];
  mkTexts (Some "0xc005027") [] None [];
  mkTexts (Some "0xc006027") [] None [];
  mkTexts (Some "0xc007027") [] None [];
  mkTexts (Some "0x4000027") [] None [];
  mkTexts (Some "0x4005027") [] None [];
  mkTexts (Some "0x4006027") [] None [];
  mkTexts (Some "0x4007027") [] None [];
  mkTexts (Some "0x1000007") [] None [];
  mkTexts (Some "0x1005007") [] None [];
  mkTexts (Some "0x1006007") [] None [];
  mkTexts (Some "0x1007007") [] None [];
  mkTexts (Some "0x2800007") [] None [];
  mkTexts (Some "0x2805007") [] None [];
  mkTexts (Some "0x2806007") [] None [];
  mkTexts (Some "0x2807007") [] None [];
  mkTexts (Some "0x22800007") [] None [];
  mkTexts (Some "0x22805007") [] None [];
  mkTexts (Some "0x22806007") [] None [];
  mkTexts (Some "0x22807007") [] None [];
  mkTexts (Some "0x62800007") [] None [];
  mkTexts (Some "0x62805007") [] None [];
  mkTexts (Some "0x62806007") [] None [];
  mkTexts (Some "0x62807007") [] None [];
  mkTexts (Some "0xe2800007") [] None [];
  mkTexts (Some "0xe2805007") [] None [];
  mkTexts (Some "0xe2806007") [] None [];
  mkTexts (Some "0xe2807007") [] None [];
  mkTexts (Some "0x2800027") [] None [];
  mkTexts (Some "0x22800027") [] None [];
  mkTexts (Some "0x62800027") [] None [];
  mkTexts (Some "0xe2800027") [] None [];
  mkTexts (Some "0x4057") [] None [];
  mkTexts (Some "0x8004057") [] None [];
  mkTexts (Some "0xc004057") [] None [];
  mkTexts (Some "0x10004057") [] None [];
  mkTexts (Some "0x14004057") [] None [];
  mkTexts (Some "0x18004057") [] None [];
  mkTexts (Some "0x1c004057") [] None [];
  mkTexts (Some "0x24004057") [] None [];
  mkTexts (Some "0x28004057") [] None [];
  mkTexts (Some "0x2c004057") [] None [];
  mkTexts (Some "0x30004057") [] None [];
  mkTexts (Some "0x38004057") [] None [];
  mkTexts (Some "0x3c004057") [] None [];
  mkTexts (Some "0x40004057") [] None [];
  mkTexts (Some "0x44004057") [] None [];
  mkTexts (Some "0x48004057") [] None [];
  mkTexts (Some "0x4c004057") [] None [];
  mkTexts (Some "0x5c004057") [] None [];
  mkTexts (Some "0x5e004057") [] None [];
  mkTexts (Some "0x60004057") [] None [];
  mkTexts (Some "0x64004057") [] None [];
  mkTexts (Some "0x68004057") [] None [];
  mkTexts (Some "0x6c004057") [] None [];
  mkTexts (Some "0x70004057") [] None [];
  mkTexts (Some "0x74004057") [] None [];
  mkTexts (Some "0x78004057") [] None [];
  mkTexts (Some "0x7c004057") [] None [];
  mkTexts (Some "0x80004057") [] None [];
  mkTexts (Some "0x84004057") [] None [];
  mkTexts (Some "0x88004057") [] None [];
  mkTexts (Some "0x8c004057") [] None [];
  mkTexts (Some "0x94004057") [] None [];
  mkTexts (Some "0x9c004057") [] None [];
  mkTexts (Some "0xa0004057") [] None [];
  mkTexts (Some "0xa4004057") [] None [];
  mkTexts (Some "0xa8004057") [] None [];
  mkTexts (Some "0xac004057") [] None [];
  mkTexts (Some "0xb0004057") [] None [];
  mkTexts (Some "0xb4004057") [] None [];
  mkTexts (Some "0xb8004057") [] None [];
  mkTexts (Some "0xbc004057") [] None [];
  mkTexts (Some "0x57") [] None [];
  mkTexts (Some "0x8000057") [] None [];
  mkTexts (Some "0x10000057") [] None [];
  mkTexts (Some "0x14000057") [] None [];
  mkTexts (Some "0x18000057") [] None [];
  mkTexts (Some "0x1c000057") [] None [];
  mkTexts (Some "0x24000057") [] None [];
  mkTexts (Some "0x28000057") [] None [];
  mkTexts (Some "0x2c000057") [] None [];
  mkTexts (Some "0x30000057") [] None [];
  mkTexts (Some "0x38000057") [] None [];
  mkTexts (Some "0x40000057") [] None [];
  mkTexts (Some "0x44000057") [] None [];
  mkTexts (Some "0x48000057") [] None [];
  mkTexts (Some "0x4c000057") [] None [];
  mkTexts (Some "0x5c000057") [] None [];
  mkTexts (Some "0x5e000057") [] None [];
  mkTexts (Some "0x60000057") [] None [];
  mkTexts (Some "0x64000057") [] None [];
  mkTexts (Some "0x68000057") [] None [];
  mkTexts (Some "0x6c000057") [] None [];
  mkTexts (Some "0x70000057") [] None [];
  mkTexts (Some "0x74000057") [] None [];
  mkTexts (Some "0x80000057") [] None [];
  mkTexts (Some "0x84000057") [] None [];
  mkTexts (Some "0x88000057") [] None [];
  mkTexts (Some "0x8c000057") [] None [];
  mkTexts (Some "0x94000057") [] None [];
  mkTexts (Some "0x9c000057") [] None [];
  mkTexts (Some "0xa0000057") [] None [];
  mkTexts (Some "0xa4000057") [] None [];
  mkTexts (Some "0xa8000057") [] None [];
  mkTexts (Some "0xac000057") [] None [];
  mkTexts (Some "0xb0000057") [] None [];
  mkTexts (Some "0xb4000057") [] None [];
  mkTexts (Some "0xb8000057") [] None [];
  mkTexts (Some "0xbc000057") [] None [];
  mkTexts (Some "0xc0000057") [] None [];
  mkTexts (Some "0xc4000057") [] None [];
  mkTexts (Some "0x3057") [] None [];
  mkTexts (Some "0xc003057") [] None [];
  mkTexts (Some "0x24003057") [] None [];
  mkTexts (Some "0x28003057") [] None [];
  mkTexts (Some "0x2c003057") [] None [];
  mkTexts (Some "0x30003057") [] None [];
  mkTexts (Some "0x38003057") [] None [];
  mkTexts (Some "0x3c003057") [] None [];
  mkTexts (Some "0x40003057") [] None [];
  mkTexts (Some "0x44003057") [] None [];
  mkTexts (Some "0x5c003057") [] None [];
  mkTexts (Some "0x5e003057") [] None [];
  mkTexts (Some "0x60003057") [] None [];
  mkTexts (Some "0x64003057") [] None [];
  mkTexts (Some "0x70003057") [] None [];
  mkTexts (Some "0x74003057") [] None [];
  mkTexts (Some "0x78003057") [] None [];
  mkTexts (Some "0x7c003057") [] None [];
  mkTexts (Some "0x80003057") [] None [];
  mkTexts (Some "0x84003057") [] None [];
  mkTexts (Some "0x94003057") [] None [];
  mkTexts (Some "0x9e003057") [] None [];
  mkTexts (Some "0x9e00b057") [] None [];
  mkTexts (Some "0x9e01b057") [] None [];
  mkTexts (Some "0x9e03b057") [] None [];
  mkTexts (Some "0xa0003057") [] None [];
  mkTexts (Some "0xa4003057") [] None [];
  mkTexts (Some "0xa8003057") [] None [];
  mkTexts (Some "0xac003057") [] None [];
  mkTexts (Some "0xb0003057") [] None [];
  mkTexts (Some "0xb4003057") [] None [];
  mkTexts (Some "0xb8003057") [] None [];
  mkTexts (Some "0xbc003057") [] None [];
  mkTexts (Some "0x2057") [] None [];
  mkTexts (Some "0x4002057") [] None [];
  mkTexts (Some "0x8002057") [] None [];
  mkTexts (Some "0xc002057") [] None [];
  mkTexts (Some "0x10002057") [] None [];
  mkTexts (Some "0x14002057") [] None [];
  mkTexts (Some "0x18002057") [] None [];
  mkTexts (Some "0x1c002057") [] None [];
  mkTexts (Some "0x20002057") [] None [];
  mkTexts (Some "0x24002057") [] None [];
  mkTexts (Some "0x28002057") [] None [];
  mkTexts (Some "0x2c002057") [] None [];
  mkTexts (Some "0x42002057") [] None [];
  mkTexts (Some "0x48012057") [] None [];
  mkTexts (Some "0x4801a057") [] None [];
  mkTexts (Some "0x48022057") [] None [];
  mkTexts (Some "0x4802a057") [] None [];
  mkTexts (Some "0x48032057") [] None [];
  mkTexts (Some "0x4803a057") [] None [];
  mkTexts (Some "0x5e002057") [] None [];
  mkTexts (Some "0x60002057") [] None [];
  mkTexts (Some "0x64002057") [] None [];
  mkTexts (Some "0x68002057") [] None [];
  mkTexts (Some "0x6c002057") [] None [];
  mkTexts (Some "0x70002057") [] None [];
  mkTexts (Some "0x74002057") [] None [];
  mkTexts (Some "0x78002057") [] None [];
  mkTexts (Some "0x7c002057") [] None [];
  mkTexts (Some "0x5000a057") [] None [];
  mkTexts (Some "0x50012057") [] None [];
  mkTexts (Some "0x5001a057") [] None [];
  mkTexts (Some "0x50082057") [] None [];
  mkTexts (Some "0x5008a057") [] None [];
  mkTexts (Some "0x40082057") [] None [];
  mkTexts (Some "0x4008a057") [] None [];
  mkTexts (Some "0x80002057") [] None [];
  mkTexts (Some "0x84002057") [] None [];
  mkTexts (Some "0x88002057") [] None [];
  mkTexts (Some "0x8c002057") [] None [];
  mkTexts (Some "0x90002057") [] None [];
  mkTexts (Some "0x94002057") [] None [];
  mkTexts (Some "0x98002057") [] None [];
  mkTexts (Some "0x9c002057") [] None [];
  mkTexts (Some "0xa4002057") [] None [];
  mkTexts (Some "0xac002057") [] None [];
  mkTexts (Some "0xb4002057") [] None [];
  mkTexts (Some "0xbc002057") [] None [];
  mkTexts (Some "0xc0002057") [] None [];
  mkTexts (Some "0xc4002057") [] None [];
  mkTexts (Some "0xc8002057") [] None [];
  mkTexts (Some "0xcc002057") [] None [];
  mkTexts (Some "0xd0002057") [] None [];
  mkTexts (Some "0xd4002057") [] None [];
  mkTexts (Some "0xd8002057") [] None [];
  mkTexts (Some "0xdc002057") [] None [];
  mkTexts (Some "0xe0002057") [] None [];
  mkTexts (Some "0xe8002057") [] None [];
  mkTexts (Some "0xec002057") [] None [];
  mkTexts (Some "0xf0002057") [] None [];
  mkTexts (Some "0xf4002057") [] None [];
  mkTexts (Some "0xfc002057") [] None [];
  mkTexts (Some "0x20006057") [] None [];
  mkTexts (Some "0x24006057") [] None [];
  mkTexts (Some "0x28006057") [] None [];
  mkTexts (Some "0x2c006057") [] None [];
  mkTexts (Some "0x42006057") [] None [];
  mkTexts (Some "0x38006057") [] None [];
  mkTexts (Some "0x3c006057") [] None [];
  mkTexts (Some "0x80006057") [] None [];
  mkTexts (Some "0x84006057") [] None [];
  mkTexts (Some "0x88006057") [] None [];
  mkTexts (Some "0x8c006057") [] None [];
  mkTexts (Some "0x90006057") [] None [];
  mkTexts (Some "0x94006057") [] None [];
  mkTexts (Some "0x98006057") [] None [];
  mkTexts (Some "0x9c006057") [] None [];
  mkTexts (Some "0xa4006057") [] None [];
  mkTexts (Some "0xac006057") [] None [];
  mkTexts (Some "0xb4006057") [] None [];
  mkTexts (Some "0xbc006057") [] None [];
  mkTexts (Some "0xc0006057") [] None [];
  mkTexts (Some "0xc4006057") [] None [];
  mkTexts (Some "0xc8006057") [] None [];
  mkTexts (Some "0xcc006057") [] None [];
  mkTexts (Some "0xd0006057") [] None [];
  mkTexts (Some "0xd4006057") [] None [];
  mkTexts (Some "0xd8006057") [] None [];
  mkTexts (Some "0xdc006057") [] None [];
  mkTexts (Some "0xe0006057") [] None [];
  mkTexts (Some "0xe8006057") [] None [];
  mkTexts (Some "0xec006057") [] None [];
  mkTexts (Some "0xf0006057") [] None [];
  mkTexts (Some "0xf4006057") [] None [];
  mkTexts (Some "0xf8006057") [] None [];
  mkTexts (Some "0xfc006057") [] None []
].

(** json/isa_rv64vf.json *)
Definition isa_rv64vf_texts : list texts := [
  mkTexts (Some "0x5057") [] None [];
  mkTexts (Some "0x8005057") [] None [];
  mkTexts (Some "0x10005057") [] None [];
  mkTexts (Some "0x18005057") [] None [];
  mkTexts (Some "0x20005057") [] None [];
  mkTexts (Some "0x24005057") [] None [];
  mkTexts (Some "0x28005057") [] None [];
  mkTexts (Some "0x38005057") [] None [];
  mkTexts (Some "0x3c005057") [] None [];
  mkTexts (Some "0x42005057") [] None [];
  mkTexts (Some "0x5c005057") [] None [];
  mkTexts (Some "0x5e005057") [] None [];
  mkTexts (Some "0x60005057") [] None [];
  mkTexts (Some "0x64005057") [] None [];
  mkTexts (Some "0x6c005057") [] None [];
  mkTexts (Some "0x70005057") [] None [];
  mkTexts (Some "0x74005057") [] None [];
  mkTexts (Some "0x7c005057") [] None [];
  mkTexts (Some "0x80005057") [] None [];
  mkTexts (Some "0x84005057") [] None [];
  mkTexts (Some "0x90005057") [] None [];
  mkTexts (Some "0x9c005057") [] None [];
  mkTexts (Some "0xa0005057") [] None [];
  mkTexts (Some "0xa4005057") [] None [];
  mkTexts (Some "0xa8005057") [] None [];
  mkTexts (Some "0xac005057") [] None [];
  mkTexts (Some "0xb0005057") [] None [];
  mkTexts (Some "0xb4005057") [] None [];
  mkTexts (Some "0xb8005057") [] None [];
  mkTexts (Some "0xbc005057") [] None [];
  mkTexts (Some "0xc0005057") [] None [];
  mkTexts (Some "0xc8005057") [] None [];
  mkTexts (Some "0xd0005057") [] None [];
  mkTexts (Some "0xd8005057") [] None [];
  mkTexts (Some "0xe0005057") [] None [];
  mkTexts (Some "0xf0005057") [] None [];
  mkTexts (Some "0xf4005057") [] None [];
  mkTexts (Some "0xf8005057") [] None [];
  mkTexts (Some "0xfc005057") [] None [];
  mkTexts (Some "0x1057") [] None [];
  mkTexts (Some "0x4001057") [] None [];
  mkTexts (Some "0x8001057") [] None [];
  mkTexts (Some "0xc001057") [] None [];
  mkTexts (Some "0x10001057") [] None [];
  mkTexts (Some "0x14001057") [] None [];
  mkTexts (Some "0x18001057") [] None [];
  mkTexts (Some "0x1c001057") [] None [];
  mkTexts (Some "0x20001057") [] None [];
  mkTexts (Some "0x24001057") [] None [];
  mkTexts (Some "0x28001057") [] None [];
  mkTexts (Some "0x42001057") [] None [];
  mkTexts (Some "0x60001057") [] None [];
  mkTexts (Some "0x64001057") [] None [];
  mkTexts (Some "0x6c001057") [] None [];
  mkTexts (Some "0x70001057") [] None [];
  mkTexts (Some "0x80001057") [] None [];
  mkTexts (Some "0x90001057") [] None [];
  mkTexts (Some "0xa0001057") [] None [];
  mkTexts (Some "0xa4001057") [] None [];
  mkTexts (Some "0xa8001057") [] None [];
  mkTexts (Some "0xac001057") [] None [];
  mkTexts (Some "0xb0001057") [] None [];
  mkTexts (Some "0xb4001057") [] None [];
  mkTexts (Some "0xb8001057") [] None [];
  mkTexts (Some "0xbc001057") [] None [];
  mkTexts (Some "0x48001057") [] None [];
  mkTexts (Some "0x48009057") [] None [];
  mkTexts (Some "0x48011057") [] None [];
  mkTexts (Some "0x48019057") [] None [];
  mkTexts (Some "0x48031057") [] None [];
  mkTexts (Some "0x48039057") [] None [];
  mkTexts (Some "0x48041057") [] None [];
  mkTexts (Some "0x48049057") [] None [];
  mkTexts (Some "0x48051057") [] None [];
  mkTexts (Some "0x48059057") [] None [];
  mkTexts (Some "0x48061057") [] None [];
  mkTexts (Some "0x48071057") [] None [];
  mkTexts (Some "0x48079057") [] None [];
  mkTexts (Some "0x48081057") [] None [];
  mkTexts (Some "0x48089057") [] None [];
  mkTexts (Some "0x48091057") [] None [];
  mkTexts (Some "0x48099057") [] None [];
  mkTexts (Some "0x480a1057") [] None [];
  mkTexts (Some "0x480a9057") [] None [];
  mkTexts (Some "0x480b1057") [] None [];
  mkTexts (Some "0x480b9057") [] None [];
  mkTexts (Some "0x4c001057") [] None [];
  mkTexts (Some "0x4c021057") [] None [];
  mkTexts (Some "0x4c029057") [] None [];
  mkTexts (Some "0x4c081057") [] None [];
  mkTexts (Some "0xc0001057") [] None [];
  mkTexts (Some "0xc4001057") [] None [];
  mkTexts (Some "0xc8001057") [] None [];
  mkTexts (Some "0xcc001057") [] None [];
  mkTexts (Some "0xd0001057") [] None [];
  mkTexts (Some "0xd8001057") [] None [];
  mkTexts (Some "0xe0001057") [] None [];
  mkTexts (Some "0xe4001057") [] None [];
  mkTexts (Some "0xf0001057") [] None [];
  mkTexts (Some "0xf4001057") [] None [];
  mkTexts (Some "0xf8001057") [] None [];
  mkTexts (Some "0xfc001057") [] None []
].

(** json/isa_rv64zawrs.json *)
Definition isa_rv64zawrs_texts : list texts := [
  mkTexts (Some "0xd00073") [] None [];
  mkTexts (Some "0x1d00073") [] None []
].

(** json/isa_rv64zba.json *)
Definition isa_rv64zba_texts : list texts := [
  mkTexts (Some "0x800003b") [] None ["B"];
  mkTexts (Some "0x20002033") [] None ["B"];
  mkTexts (Some "0x2000203b") [] None ["B"];
  mkTexts (Some "0x20004033") [] None ["B"];
  mkTexts (Some "0x2000403b") [] None ["B"];
  mkTexts (Some "0x20006033") [] None ["B"];
  mkTexts (Some "0x2000603b") [] None ["B"];
  mkTexts (Some "0x800101b") ["0xa00101b"] None ["B"]
].

(** json/isa_rv64zbb.json *)
Definition isa_rv64zbb_texts : list texts := [
  mkTexts (Some "0x40007033") [] None ["B"];
  mkTexts (Some "0x40006033") [] None ["B"];
  mkTexts (Some "0x40004033") [] None ["B"];
  mkTexts (Some "0x60001013") [] None ["B"];
  mkTexts (Some "0x6000101b") [] None ["B"];
  mkTexts (Some "0x60101013") [] None ["B"];
  mkTexts (Some "0x6010101b") [] None ["B"];
  mkTexts (Some "0x60201013") [] None ["B"];
  mkTexts (Some "0x6020101b") [] None ["B"];
  mkTexts (Some "0xa006033") [] None ["B"];
  mkTexts (Some "0xa007033") [] None ["B"];
  mkTexts (Some "0xa004033") [] None ["B"];
  mkTexts (Some "0xa005033") [] None ["B"];
  mkTexts (Some "0x60401013") [] None ["B"];
  mkTexts (Some "0x60501013") [] None ["B"];
  mkTexts (Some "0x8004033") [] None ["B"];
  mkTexts (Some "0x800403b") [] None ["B"];
  mkTexts (Some "0x48004033") [] None ["B"];
  mkTexts (Some "0x4800403b") [] None ["B"];
  mkTexts (Some "0x60001033") [] None ["B"];
  mkTexts (Some "0x6000103b") [] None ["B"];
  mkTexts (Some "0x60005033") [] None ["B"];
  mkTexts (Some "0x60005013") [] None ["B"];
  mkTexts (Some "0x6000501b") [] None ["B"];
  mkTexts (Some "0x6000503b") [] None ["B"];
  mkTexts (Some "0x28005013") [] None ["B"];
  mkTexts (Some "0x68005013") [] None ["B"]
].

(** json/isa_rv64zbc.json *)
Definition isa_rv64zbc_texts : list texts := [
  mkTexts (Some "0xa001033") [] None ["B"];
  mkTexts (Some "0xa003033") [] None ["B"];
  mkTexts (Some "0xa002033") [] None ["B"]
].

(** json/isa_rv64zbs.json *)
Definition isa_rv64zbs_texts : list texts := [
  mkTexts (Some "0x48001033") [] None ["B"];
  mkTexts (Some "0x48001013") [] None ["B"];
  mkTexts (Some "0x48005033") [] None ["B"];
  mkTexts (Some "0x48005013") [] None ["B"];
  mkTexts (Some "0x68001033") [] None ["B"];
  mkTexts (Some "0x68001013") [] None ["B"];
  mkTexts (Some "0x28001033") [] None ["B"];
  mkTexts (Some "0x28001013") [] None ["B"]
].

(** json/isa_rv64zcb.json *)
Definition isa_rv64zcb_texts : list texts := [
  mkTexts (Some "0x8000") [] None [];
  mkTexts (Some "0x8440") [] None [];
  mkTexts (Some "0x8400") [] None [];
  mkTexts (Some "0x8800") [] None [];
  mkTexts (Some "0x8c00") [] None [];
  mkTexts (Some "0x9c61") [] None [];
  mkTexts (Some "0x9c65") [] None [];
  mkTexts (Some "0x9c69") [] None [];
  mkTexts (Some "0x9c6d") [] None [];
  mkTexts (Some "0x9c71") [] None [];
  mkTexts (Some "0x9c75") [] None [];
  mkTexts (Some "0x9c41") [] None []
].

(** json/isa_rv64zfbfmin.json *)
Definition isa_rv64zfbfmin_texts : list texts := [
  mkTexts (Some "0x44800053") [] None [];
  mkTexts (Some "0x40600053") [] None []
].

(** json/isa_rv64zfh.json *)
Definition isa_rv64zfh_texts : list texts := [
  mkTexts (Some "0x4000053") [] None [];
  mkTexts (Some "0xc000053") [] None [];
  mkTexts (Some "0x14000053") [] None [];
  mkTexts (Some "0x1c000053") [] None [];
  mkTexts (Some "0x24000053") [] None [];
  mkTexts (Some "0x24001053") [] None [];
  mkTexts (Some "0x24002053") [] None [];
  mkTexts (Some "0x2c000053") [] None [];
  mkTexts (Some "0x2c001053") [] None [];
  mkTexts (Some "0x5c000053") [] None [];
  mkTexts (Some "0xa4000053") [] None [];
  mkTexts (Some "0xa4001053") [] None [];
  mkTexts (Some "0xa4002053") [] None [];
  mkTexts (Some "0x44000053") [] None [];
  mkTexts (Some "0x40200053") [] None [];
  mkTexts (Some "0xc4000053") [] None [];
  mkTexts (Some "0xc4100053") [] None [];
  mkTexts (Some "0xc4200053") [] None [];
  mkTexts (Some "0xc4300053") [] None [];
  mkTexts (Some "0xd4200053") [] None [];
  mkTexts (Some "0xd4300053") [] None [];
  mkTexts (Some "0xe4000053") [] None [];
  mkTexts (Some "0xe4001053") [] None [];
  mkTexts (Some "0xd4000053") [] None [];
  mkTexts (Some "0xd4100053") [] None [];
  mkTexts (Some "0xf4000053") [] None [];
  mkTexts (Some "0x1007") [] None [];
  mkTexts (Some "0x1027") [] None [];
  mkTexts (Some "0x4000043") [] None [];
  mkTexts (Some "0x4000047") [] None [];
  mkTexts (Some "0x400004b") [] None [];
  mkTexts (Some "0x400004f") [] None [];
  mkTexts (Some "0xa4004053") [] None [];
  mkTexts (Some "0xf4100053") [] None [];
  mkTexts (Some "0xa4005053") [] None [];
  mkTexts (Some "0x2c003053") [] None [];
  mkTexts (Some "0x2c002053") [] None [];
  mkTexts (Some "0x44400053") [] None [];
  mkTexts (Some "0x44500053") [] None []
].

(** json/isa_rv64zfh_d.json *)
Definition isa_rv64zfh_d_texts : list texts := [
  mkTexts (Some "0x44100053") [] None [];
  mkTexts (Some "0x42200053") [] None []
].

(** json/isa_rv64zicbo.json *)
Definition isa_rv64zicbo_texts : list texts := [
  mkTexts (Some "0x10200f") [] None [];
  mkTexts (Some "0x20200f") [] None [];
  mkTexts (Some "0x200f") [] None [];
  mkTexts (Some "0x40200f") [] None [];
  mkTexts None [] (Some ["0x00F00F80"; "0x00000000"]) [];
  mkTexts (Some "0x106013") [] (Some ["0x00F00F80"; "0x00100000"]) [];
  mkTexts (Some "0x306013") [] (Some ["0x00F00F80"; "0x00300000"]) []
].

(** json/isa_rv64zicond.json *)
Definition isa_rv64zicond_texts : list texts := [
  mkTexts (Some "0xe005033") [] None [];
  mkTexts (Some "0xe007033") [] None []
].

(** json/isa_rv64zicsr.json *)
Definition isa_rv64zicsr_texts : list texts := [
  mkTexts (Some "0x1073") [] None [];
  mkTexts (Some "0x2073") [] None [];
  mkTexts (Some "0x3073") [] None [];
  mkTexts (Some "0x5073") [] None [];
  mkTexts (Some "0x6073") [] None [];
  mkTexts (Some "0x7073") [] None []
].

(** json/isa_rv64zifencei.json *)
Definition isa_rv64zifencei_texts : list texts := [
  mkTexts (Some "0x100f") [] None []
].

(** json/isa_rv64zihintntl.json *)
Definition isa_rv64zihintntl_texts : list texts := [
  mkTexts (Some "0x00200033") [] None [];
  mkTexts (Some "0x00300033") [] None [];
  mkTexts (Some "0x00400033") [] None [];
  mkTexts (Some "0x00500033") [] None [];
  mkTexts (Some "0x900a") [] None [];
  mkTexts (Some "0x900e") [] None [];
  mkTexts (Some "0x9012") [] None [];
  mkTexts (Some "0x9016") [] None []
].

(** json/isa_rv64zihintpause.json *)
Definition isa_rv64zihintpause_texts : list texts := [
  mkTexts (Some "0x0100000f") [] (Some ["0xFFFF8F80"; "0x01000000"]) []
].

(** json/isa_rv64zvfbfwma.json *)
Definition isa_rv64zvfbfwma_texts : list texts := [
  mkTexts (Some "0xec001057") [] None [];
  mkTexts (Some "0xec005057") [] None []
].

(** json/isa_rv64zvk.json *)
Definition isa_rv64zvk_texts : list texts := [
  mkTexts (Some "0xa600a077") [] None [];
  mkTexts (Some "0xa200a077") [] None [];
  mkTexts (Some "0xa6002077") [] None [];
  mkTexts (Some "0xa2002077") [] None [];
  mkTexts (Some "0xa601a077") [] None [];
  mkTexts (Some "0xa201a077") [] None [];
  mkTexts (Some "0xa6012077") [] None [];
  mkTexts (Some "0xa2012077") [] None [];
  mkTexts (Some "0x8a002077") [] None [];
  mkTexts (Some "0xaa002077") [] None [];
  mkTexts (Some "0xa603a077") [] None [];
  mkTexts (Some "0x4000057") [] None [];
  mkTexts (Some "0x4004057") [] None [];
  mkTexts (Some "0x48042057") [] None [];
  mkTexts (Some "0x30002057") [] None [];
  mkTexts (Some "0x30006057") [] None [];
  mkTexts (Some "0x34002057") [] None [];
  mkTexts (Some "0x34006057") [] None [];
  mkTexts (Some "0xb2002077") [] None [];
  mkTexts (Some "0xa208a077") [] None [];
  mkTexts (Some "0x4804a057") [] None [];
  mkTexts (Some "0x48052057") [] None [];
  mkTexts (Some "0x48062057") [] None [];
  mkTexts (Some "0x4806a057") [] None [];
  mkTexts (Some "0x48072057") [] None [];
  mkTexts (Some "0x54000057") [] None [];
  mkTexts (Some "0x54004057") [] None [];
  mkTexts (Some "0x50003057") [] None [];
  mkTexts (Some "0x50000057") [] None [];
  mkTexts (Some "0x50004057") [] None [];
  mkTexts (Some "0xd4003057") [] None [];
  mkTexts (Some "0xd4000057") [] None [];
  mkTexts (Some "0xd4004057") [] None [];
  mkTexts (Some "0xba002077") [] None [];
  mkTexts (Some "0xbe002077") [] None [];
  mkTexts (Some "0xb6002077") [] None [];
  mkTexts (Some "0xae002077") [] None [];
  mkTexts (Some "0x82002077") [] None [];
  mkTexts (Some "0x86002077") [] None [];
  mkTexts (Some "0xa2082077") [] None [];
  mkTexts (Some "0xa6082077") [] None []
].

(** Each table with its texts. *)
Definition shipped_texts : list (list raw * list texts) := [
  (isa_rv32a, isa_rv32a_texts);
  (isa_rv32c, isa_rv32c_texts);
  (isa_rv32cd, isa_rv32cd_texts);
  (isa_rv32cf, isa_rv32cf_texts);
  (isa_rv32d, isa_rv32d_texts);
  (isa_rv32f, isa_rv32f_texts);
  (isa_rv32i, isa_rv32i_texts);
  (isa_rv32m, isa_rv32m_texts);
  (isa_rv32zawrs, isa_rv32zawrs_texts);
  (isa_rv32zba, isa_rv32zba_texts);
  (isa_rv32zbb, isa_rv32zbb_texts);
  (isa_rv32zbc, isa_rv32zbc_texts);
  (isa_rv32zbs, isa_rv32zbs_texts);
  (isa_rv32zcb, isa_rv32zcb_texts);
  (isa_rv32zclsd, isa_rv32zclsd_texts);
  (isa_rv32zicond, isa_rv32zicond_texts);
  (isa_rv32zicsr, isa_rv32zicsr_texts);
  (isa_rv32zifencei, isa_rv32zifencei_texts);
  (isa_rv32zihintpause, isa_rv32zihintpause_texts);
  (isa_rv32zilsd, isa_rv32zilsd_texts);
  (isa_rv64a, isa_rv64a_texts);
  (isa_rv64c, isa_rv64c_texts);
  (isa_rv64cd, isa_rv64cd_texts);
  (isa_rv64cf, isa_rv64cf_texts);
  (isa_rv64d, isa_rv64d_texts);
  (isa_rv64f, isa_rv64f_texts);
  (isa_rv64h, isa_rv64h_texts);
  (isa_rv64i, isa_rv64i_texts);
  (isa_rv64m, isa_rv64m_texts);
  (isa_rv64q, isa_rv64q_texts);
  (isa_rv64v, isa_rv64v_texts);
  (isa_rv64vf, isa_rv64vf_texts);
  (isa_rv64zawrs, isa_rv64zawrs_texts);
  (isa_rv64zba, isa_rv64zba_texts);
  (isa_rv64zbb, isa_rv64zbb_texts);
  (isa_rv64zbc, isa_rv64zbc_texts);
  (isa_rv64zbs, isa_rv64zbs_texts);
  (isa_rv64zcb, isa_rv64zcb_texts);
  (isa_rv64zfbfmin, isa_rv64zfbfmin_texts);
  (isa_rv64zfh, isa_rv64zfh_texts);
  (isa_rv64zfh_d, isa_rv64zfh_d_texts);
  (isa_rv64zicbo, isa_rv64zicbo_texts);
  (isa_rv64zicond, isa_rv64zicond_texts);
  (isa_rv64zicsr, isa_rv64zicsr_texts);
  (isa_rv64zifencei, isa_rv64zifencei_texts);
  (isa_rv64zihintntl, isa_rv64zihintntl_texts);
  (isa_rv64zihintpause, isa_rv64zihintpause_texts);
  (isa_rv64zvfbfwma, isa_rv64zvfbfwma_texts);
  (isa_rv64zvk, isa_rv64zvk_texts)
].
