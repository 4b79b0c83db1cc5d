(** Specification: the immediates of the instruction formats, in the notation of
    the RISC-V manual. *)
From Coq Require Import NArith ZArith List Bool.
From Verif Require Import M_Extract S_Bits.
Import ListNotations.
Local Open Scope N_scope.

(** [(hi, lo, at)]: immediate bits hi..lo are the instruction bits starting at [at]. *)
Definition segment : Type := N * N * N.
Definition seg_value (s : segment) (ic : N) : N :=
  let '(hi, lo, at_) := s in slice at_ (hi - lo + 1) ic * 2 ^ lo.
(** The immediate: its segments put together (they never overlap, see [segs_disjoint]). *)
Definition imm_value (l : list segment) (ic : N) : N := fold_right (fun s a => N.lor (seg_value s ic) a) 0 l.
Fixpoint segs_disjoint (l : list segment) : bool :=
  match l with
  | [] => true
  | (hi, lo, _) :: r =>
      (lo <=? hi) && forallb (fun s => let '(h, o, _) := s in (h <? lo) || (hi <? o)) r && segs_disjoint r
  end.

Inductive imm_sign := Unsigned | SignBit (p : N).
Inductive imm_desc :=
| NoImm                                                  (* reported as 0 *)
| ConstImm (v : N) (z : Z)                               (* implied by the instruction *)
| ImmSegs (l : list segment) (clear : bool) (s : imm_sign).
(** [clear]: bits of fixed fields count as 0 (otherwise the field is read as is). *)

Definition imm12 := [(11, 0, 20)].
Definition ci_imm := [(5, 5, 12); (4, 0, 2)].

Definition imm_table (c : xcls) : imm_desc :=
  match c with
  (* 32-bit formats *)
  | X_I | X_I_mv | X_I_load | X_I_load_pair => ImmSegs imm12 false (SignBit 11)
  | X_S | X_S_pair => ImmSegs [(11, 5, 25); (4, 0, 7)] true (SignBit 11)
  | X_B => ImmSegs [(12, 12, 31); (10, 5, 25); (4, 1, 8); (11, 11, 7)] true (SignBit 12)
  | X_U => ImmSegs [(31, 12, 12)] true (SignBit 31)
  | X_J => ImmSegs [(20, 20, 31); (10, 1, 21); (11, 11, 20); (19, 12, 12)] true (SignBit 20)
  | X_ISH => ImmSegs [(5, 0, 20)] false Unsigned
  | X_ISHW => ImmSegs [(4, 0, 20)] false Unsigned
  | X_CSRI => ImmSegs [(4, 0, 15)] true Unsigned
  | X_V_vsetvli => ImmSegs [(10, 0, 20)] true Unsigned
  | X_V_vsetivli => ImmSegs [(9, 0, 20)] true Unsigned
  | X_V_uimm6 => ImmSegs [(5, 5, 26); (4, 0, 15)] true Unsigned
  | X_V_uimm | X_V_uimm_implied => ImmSegs [(4, 0, 15)] true Unsigned
  | X_V_simm => ImmSegs [(4, 0, 15)] true (SignBit 4)
  (* prefetch: offset[11:5] at bit 25, reported in units of 32 bytes *)
  | X_PF_hint => ImmSegs [(6, 0, 25)] false (SignBit 6)
  (* compressed formats *)
  | X_CI | X_CI_addi | X_CI_addiw | X_CI_rD_only | X_CIX_andi => ImmSegs ci_imm false (SignBit 5)
  | X_CIX | X_C2_slli => ImmSegs ci_imm false Unsigned
  | X_CI_rD_shifted => ImmSegs [(17, 17, 12); (16, 12, 2)] false (SignBit 17)
  | X_CI_sp => ImmSegs [(9, 9, 12); (4, 4, 6); (6, 6, 5); (8, 7, 3); (5, 5, 2)] false (SignBit 9)
  | X_CIW_sp => ImmSegs [(5, 4, 11); (9, 6, 7); (2, 2, 6); (3, 3, 5)] true Unsigned
  | X_CJ | X_CJAL =>
      ImmSegs [(11, 11, 12); (4, 4, 11); (9, 8, 9); (10, 10, 8); (6, 6, 7); (7, 7, 6); (3, 1, 3); (5, 5, 2)]
              true (SignBit 11)
  | X_CB => ImmSegs [(8, 8, 12); (4, 3, 10); (7, 6, 5); (2, 1, 3); (5, 5, 2)] false (SignBit 8)
  | X_C0_load_byte | X_C0_store_byte => ImmSegs [(0, 0, 6); (1, 1, 5)] false Unsigned
  | X_C0_load_half | X_C0_store_half => ImmSegs [(1, 1, 5)] false Unsigned
  | X_C0_load_word | X_C0_store_word => ImmSegs [(5, 3, 10); (2, 2, 6); (6, 6, 5)] false Unsigned
  | X_C0_load_double | X_C0_store_double | X_C0_load_word_pair | X_C0_store_word_pair =>
      ImmSegs [(5, 3, 10); (7, 6, 5)] false Unsigned
  | X_C2_sp_load_word | X_C2_sp_load_float_single => ImmSegs [(5, 5, 12); (4, 2, 4); (7, 6, 2)] false Unsigned
  | X_C2_sp_load_double | X_C2_sp_load_float_double | X_C2_sp_load_word_pair =>
      ImmSegs [(5, 5, 12); (4, 3, 5); (8, 6, 2)] false Unsigned
  | X_C2_sp_store_word => ImmSegs [(5, 2, 9); (7, 6, 7)] false Unsigned
  | X_C2_sp_store_double | X_C2_sp_store_word_pair => ImmSegs [(5, 3, 10); (8, 6, 7)] false Unsigned
  (* immediates implied by the instruction (zext.b is andi 0xFF, not is xori -1, ...) *)
  | X_C1_rsd_I0 | X_C1_rsd_zext_I0 => ConstImm 0 0
  | X_C1_rsd_Ineg1 => ConstImm 18446744073709551615 (-1)
  | X_C1_rsd_I0xFF => ConstImm 255 255
  (* formats without an immediate, and abstract bases of the formats above *)
  | X_AMO | X_R | X_Rfloat | X_R4 | X_CSR | X_FENCE | X_V | X_VF_mem | X_V_vsetvl | X_V_load | X_V_store
  | X_V_op | X_V_implied | X_V_op_implied | X_HV_load | X_HV_store | X_NTL_hint
  | X_CA | X_CIW | X_CJR | X_CJALR | X_C1_rsd | X_C2 | X_C2_add | X_C2_mv
  | X_C0 | X_C0_load | X_C0_store | X_C2_sp | X_C2_sp_load | X_C2_sp_store => NoImm
  end.

(** The immediate the manual assigns to opcode [ic] with fixed bits [ffm], and
    the integer it denotes. *)
Definition imm_of (d : imm_desc) (ffm ic : N) : N :=
  match d with
  | NoImm => 0
  | ConstImm v _ => v
  | ImmSegs l clear _ => imm_value l (if clear then N.ldiff ic ffm else ic)
  end.
Definition offset_of (d : imm_desc) (v : N) (z : Z) : Prop :=
  match d with
  | NoImm => z = 0%Z
  | ConstImm _ z' => z = z'
  | ImmSegs _ _ Unsigned => z = Z.of_N v
  | ImmSegs _ _ (SignBit p) => twos_complement (p + 1) v z
  end.

(** The 16-bit formats. *)
Definition is_compressed_format (c : xcls) : bool :=
  match c with
  | X_C0 | X_C2 | X_C2_sp_store | X_CA | X_CB | X_CI | X_CI_rD_only | X_CIW | X_CIX | X_CJ | X_CJR
  | X_C0_load | X_C0_load_byte | X_C0_load_half | X_C0_load_word | X_C0_load_double | X_C0_load_word_pair
  | X_C0_store | X_C0_store_byte | X_C0_store_half | X_C0_store_word | X_C0_store_double | X_C0_store_word_pair
  | X_C1_rsd | X_C1_rsd_I0 | X_C1_rsd_zext_I0 | X_C1_rsd_Ineg1 | X_C1_rsd_I0xFF
  | X_CI_addi | X_CI_addiw | X_CI_sp | X_CIW_sp | X_CIX_andi | X_CJAL | X_CJALR
  | X_C2_add | X_C2_mv | X_C2_slli | X_C2_sp | X_C2_sp_load | X_C2_sp_load_word | X_C2_sp_load_double
  | X_C2_sp_load_word_pair | X_C2_sp_load_float_single | X_C2_sp_load_float_double
  | X_C2_sp_store_word | X_C2_sp_store_double | X_C2_sp_store_word_pair | X_CI_rD_shifted | X_NTL_hint => true
  | _ => false
  end.
Definition imm_segs (d : imm_desc) : list segment := match d with ImmSegs l _ _ => l | _ => [] end.
