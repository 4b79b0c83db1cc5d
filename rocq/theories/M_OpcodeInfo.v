(** Model of the register queries of mavis::OpcodeInfo (mavis/OpcodeInfo.h) and of
    the derived members of DecodedInstructionInfo (mavis/DecodedInstInfo.h). *)
From Coq Require Import NArith List Bool.
From Verif Require Import M_Base M_Meta M_OperandInfo M_Decoded.
Import ListNotations.
Local Open Scope N_scope.

(** An operand type given by a caller: None is OperandTypes::NONE, which is the same
    enumerator value as __N (InstMetaData.h:104-115). *)
Definition otype := option kind.
Inductive side := Src | Dst.
(** DecodedInstInfo.h:305-345: int_n_... and float_n_... members (uint32_t sums). *)
Definition n_by_kind (d : dinfo) (s : side) (k : kind) : N :=
  match s with Src => d_n_srcT d k | Dst => d_n_dstT d k end.
Definition d_int_n (d : dinfo) (s : side) : N := u32 (n_by_kind d s KWord + n_by_kind d s KLong).
Definition d_float_n (d : dinfo) (s : side) : N := u32 (n_by_kind d s KSingle + n_by_kind d s KDouble).
(** DecodedInstInfo.h:307-347: int_operands, int_n_operands, float_operands, float_n_operands. *)
Definition d_int_operands (d : dinfo) : N := N.lor (d_int_sources d) (d_int_dests d).
Definition d_float_operands (d : dinfo) : N := N.lor (d_float_sources d) (d_float_dests d).
Definition d_int_n_operands (d : dinfo) : N := u32 (d_int_n d Src + d_int_n d Dst).
Definition d_float_n_operands (d : dinfo) : N := u32 (d_float_n d Src + d_float_n d Dst).

(** OpcodeInfo.h:83 getSourceRegs, 175 getDestRegs. *)
Definition get_regs (d : dinfo) (s : side) : N :=
  match s with Src => d_sources d | Dst => d_dests d end.
(** OpcodeInfo.h:98 getIntSourceRegs, 190 getIntDestRegs. *)
Definition get_int_regs (d : dinfo) (s : side) : N :=
  match s with Src => d_int_sources d | Dst => d_int_dests d end.
(** OpcodeInfo.h:103 getFloatSourceRegs, 195 getFloatDestRegs. *)
Definition get_float_regs (d : dinfo) (s : side) : N :=
  match s with Src => d_float_sources d | Dst => d_float_dests d end.
(** OpcodeInfo.h:108 getVectorSourceRegs, 200 getVectorDestRegs. *)
Definition get_vector_regs (d : dinfo) (s : side) : N :=
  match s with Src => d_srcT d KVector | Dst => d_dstT d KVector end.
(** OpcodeInfo.h:113-132 getSourceRegsByType, 205-224 getDestRegsByType. *)
Definition get_regs_by_type (d : dinfo) (s : side) (t : otype) : res N :=
  match t with
  | None => AssertFail
  | Some k => Ok (match s with Src => d_srcT d k | Dst => d_dstT d k end)
  end.
(** OpcodeInfo.h:134 numSourceRegs, 226 numDestRegs. *)
Definition num_regs (d : dinfo) (s : side) : N :=
  match s with Src => d_n_sources d | Dst => d_n_dests d end.
(** OpcodeInfo.h:139-152 and 231-244: numInt..., numFloat..., numVector... *)
Definition num_int_regs (d : dinfo) (s : side) : N := d_int_n d s.
Definition num_float_regs (d : dinfo) (s : side) : N := d_float_n d s.
Definition num_vector_regs (d : dinfo) (s : side) : N := n_by_kind d s KVector.
(** OpcodeInfo.h:154-173 numSourceRegsByType, 246-265 numDestRegsByType. *)
Definition num_regs_by_type (d : dinfo) (s : side) (t : otype) : res N :=
  match t with None => AssertFail | Some k => Ok (n_by_kind d s k) end.
