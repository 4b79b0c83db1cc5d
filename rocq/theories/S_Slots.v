(** Specification: the register operands of every instruction format, as the
    RISC-V manual draws them.  A slot says where the register number is in the
    opcode (by bit position), under which operand field it is reported and which
    field's type it has. *)
From Coq Require Import NArith List Bool.
From Verif Require Import M_Meta M_OperandInfo M_Extract S_Bits.
Import ListNotations.
Local Open Scope N_scope.

Inductive loc :=
| LReg (lo : N)       (* 5-bit register number at bit [lo]; absent when the field is fixed *)
| LAlways (lo : N)    (* the same, present even when the field is fixed *)
| LCReg (lo : N)      (* 3-bit register number at bit [lo], naming x8..x15; absent when fixed *)
| LConst (n : N).     (* an implicit register *)
Inductive slot_type := TField (f : fid) | TKind (k : kind).
Record slot := mkSlot {
  sl_fid : fid; sl_loc : loc; sl_sdata : bool; sl_implied : bool; sl_ty : slot_type }.

Definition s_reg f lo := mkSlot f (LReg lo) false false (TField f).
Definition s_always f lo := mkSlot f (LAlways lo) false false (TField f).
Definition s_sdata f lo := mkSlot f (LReg lo) true false (TField f).
Definition s_implied f lo := mkSlot f (LReg lo) false true (TField f).
Definition s_creg f lo := mkSlot f (LCReg lo) false false (TField f).
Definition s_csdata f lo := mkSlot f (LCReg lo) true false (TField f).
Definition s_const f n tf := mkSlot f (LConst n) false false (TField tf).
Definition s_long f n := mkSlot f (LConst n) false false (TKind KLong).

(** The register number in the slot, and whether the instruction fixes its field
    ([ffm]: the bits of all fixed fields). *)
Definition loc_val (l : loc) (ic : N) : N :=
  match l with
  | LReg lo | LAlways lo => slice lo 5 ic
  | LCReg lo => slice lo 3 ic + 8
  | LConst n => n
  end.
Definition loc_fixed (l : loc) (ffm : N) : bool :=
  match l with
  | LReg lo => negb (slice lo 5 ffm =? 0)
  | LCReg lo => negb (slice lo 3 ffm =? 0)
  | LAlways _ | LConst _ => false
  end.
Definition live (ffm : N) (ss : list slot) : list slot :=
  filter (fun s => negb (loc_fixed (sl_loc s) ffm)) ss.

(** The operands, the register mask, and the mask of the registers of one type. *)
Definition slot_otype (m : meta) (s : slot) : option kind :=
  match sl_ty s with TField f => mt_otype m f | TKind k => Some k end.
Definition slot_is (m : meta) (k : kind) (s : slot) : bool :=
  match sl_ty s with TField f => N.testbit (mt_fset m k) (fid_idx f) | TKind k' => kind_eqb k k' end.
Definition slot_elem (m : meta) (ic : N) (s : slot) : elem :=
  mkE (Some (sl_fid s)) (slot_otype m s) (loc_val (sl_loc s) ic) (sl_sdata s) (sl_implied s).
Definition slot_elems (m : meta) (ss : list slot) (ffm ic : N) : list elem :=
  map (slot_elem m ic) (live ffm ss).
Definition slot_mask (ss : list slot) (ffm ic : N) : N :=
  mask_of (map (fun s => loc_val (sl_loc s) ic) (live ffm ss)).
Definition slot_typed (m : meta) (k : kind) (ss : list slot) (ffm ic : N) : N :=
  mask_of (map (fun s => loc_val (sl_loc s) ic) (filter (slot_is m k) (live ffm ss))).

Definition src_slots (c : xcls) : list slot :=
  match c with
  | X_AMO | X_B | X_R | X_Rfloat | X_V | X_VF_mem | X_V_vsetvl | X_S_pair | X_V_load | X_V_op 
  | X_HV_load =>
      [s_reg RS1 15; s_reg RS2 20]
  | X_C0 | X_CIX | X_C0_load | X_C0_load_byte | X_C0_load_half | X_C0_load_word | X_C0_load_double 
  | X_C0_load_word_pair | X_C1_rsd | X_C1_rsd_I0 | X_C1_rsd_Ineg1 | X_C1_rsd_I0xFF | X_CIX_andi =>
      [s_creg RS1 7]
  | X_C2 =>
      [s_reg RS2 2]
  | X_C2_sp_store | X_C2_sp_store_word | X_C2_sp_store_double | X_C2_sp_store_word_pair =>
      [s_const RS1 2 RS1; s_sdata RS2 2]
  | X_CA =>
      [s_creg RS1 7; s_creg RS2 2]
  | X_CB | X_C1_rsd_zext_I0 =>
      [s_creg RS1 7; s_const RS2 0 RS1]
  | X_CI | X_CJR | X_CI_addi | X_CI_addiw | X_CJALR | X_C2_slli =>
      [s_reg RS1 7]
  | X_CI_rD_only =>
      [s_const RS1 0 RD]
  | X_CIW | X_CJ | X_CSRI | X_J | X_U | X_V_vsetivli | X_CJAL | X_CI_rD_shifted | X_NTL_hint =>
      []
  | X_CSR | X_FENCE | X_I | X_ISH | X_ISHW | X_V_vsetvli | X_I_mv | X_I_load | X_I_load_pair 
  | X_PF_hint =>
      [s_reg RS1 15]
  | X_R4 =>
      [s_reg RS1 15; s_reg RS2 20; s_reg RS3 27]
  | X_S | X_HV_store =>
      [s_reg RS1 15; s_sdata RS2 20]
  | X_V_uimm6 | X_V_uimm | X_V_simm =>
      [s_reg RS2 20]
  | X_C0_store | X_C0_store_byte | X_C0_store_half | X_C0_store_word | X_C0_store_double 
  | X_C0_store_word_pair =>
      [s_creg RS1 7; s_csdata RS2 2]
  | X_CI_sp =>
      [s_always RS1 7]
  | X_CIW_sp =>
      [s_const RS1 2 RD]
  | X_C2_add =>
      [s_reg RS1 7; s_reg RS2 2]
  | X_C2_mv =>
      [s_const RS1 0 RS1; s_reg RS2 2]
  | X_C2_sp =>
      [s_const RS1 2 RS1; s_reg RS2 2]
  | X_C2_sp_load | X_C2_sp_load_word | X_C2_sp_load_double | X_C2_sp_load_word_pair | X_C2_sp_load_float_single 
  | X_C2_sp_load_float_double =>
      [s_const RS1 2 RS1]
  | X_V_store =>
      [s_reg RS1 15; s_reg RS2 20; s_sdata RS3 7]
  | X_V_implied | X_V_op_implied =>
      [s_reg RS1 15; s_reg RS2 20; s_implied RD 7]
  | X_V_uimm_implied =>
      [s_reg RS2 20; s_implied RD 7]
  end.

Definition dst_slots (c : xcls) : list slot :=
  match c with
  | X_AMO | X_C2 | X_CI | X_CI_rD_only | X_CSR | X_CSRI | X_FENCE | X_I | X_ISH | X_ISHW 
  | X_J | X_R | X_Rfloat | X_R4 | X_U | X_V | X_VF_mem | X_V_vsetvli | X_V_vsetivli | X_V_vsetvl 
  | X_V_uimm6 | X_I_mv | X_I_load | X_I_load_pair | X_CI_addi | X_CI_addiw | X_C2_add | X_C2_mv 
  | X_C2_slli | X_C2_sp | X_C2_sp_load | X_C2_sp_load_word | X_C2_sp_load_double | X_C2_sp_load_word_pair 
  | X_C2_sp_load_float_single | X_C2_sp_load_float_double | X_CI_rD_shifted | X_V_load | X_V_uimm 
  | X_V_simm | X_V_op | X_HV_load | X_V_implied | X_V_op_implied | X_V_uimm_implied =>
      [s_reg RD 7]
  | X_B | X_C2_sp_store | X_CB | X_S | X_S_pair | X_C0_store | X_C0_store_byte | X_C0_store_half 
  | X_C0_store_word | X_C0_store_double | X_C0_store_word_pair | X_C2_sp_store_word | X_C2_sp_store_double 
  | X_C2_sp_store_word_pair | X_V_store | X_HV_store | X_NTL_hint | X_PF_hint =>
      []
  | X_C0 | X_CIW | X_C0_load | X_C0_load_byte | X_C0_load_half | X_C0_load_word | X_C0_load_double 
  | X_C0_load_word_pair | X_CIW_sp =>
      [s_creg RD 2]
  | X_CA | X_CIX | X_C1_rsd | X_C1_rsd_I0 | X_C1_rsd_zext_I0 | X_C1_rsd_Ineg1 | X_C1_rsd_I0xFF 
  | X_CIX_andi =>
      [s_creg RD 7]
  | X_CJ | X_CJR =>
      [s_long RD 0]
  | X_CI_sp =>
      [s_always RD 7]
  | X_CJAL | X_CJALR =>
      [s_const RD 1 RS1]
  end.
