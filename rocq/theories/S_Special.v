(** Specification: special fields per format (C35), and the classification of
    jumps by their link registers (C29), from the RISC-V manual. *)
From Coq Require Import NArith List Bool.
From Verif Require Import M_Meta M_Extract S_Bits.
Import ListNotations.
Local Open Scope N_scope.

(** Position and width of a special field in a format, and whether it is
    unavailable when the instruction fixes it; [None]: the format has no such field. *)
Definition special_table (c : xcls) (s : sfid) : option (N * N * bool) :=
  match c, s with
  | X_AMO, SF_AQ => Some (26, 1, false)
  | X_AMO, SF_RL => Some (25, 1, false)
  | X_AMO, SF_WD => Some (26, 1, false)
  | X_AMO, SF_VM => Some (25, 1, false)
  | (X_CSR | X_CSRI), SF_CSR => Some (20, 12, false)
  | X_FENCE, SF_FM => Some (28, 4, false)
  | X_FENCE, (SF_PRED | SF_HINT) => Some (24, 4, false)
  | X_FENCE, SF_SUCC => Some (20, 4, false)
  | (X_Rfloat | X_R4), SF_RM => Some (12, 3, false)
  | (X_V | X_VF_mem | X_V_uimm6 | X_V_load | X_V_store | X_V_uimm | X_V_simm | X_V_op
    | X_V_implied | X_V_op_implied | X_V_uimm_implied), SF_VM => Some (25, 1, true)
  | (X_VF_mem | X_V_load | X_V_store), SF_NF => Some (29, 3, true)
  | X_V_vsetivli, SF_AVL => Some (15, 5, false)
  | _, _ => None
  end.

(** Registers of the jump formats: source (if any) and destination. *)
Definition jump_regs (c : xcls) (ic : N) : option (option N * N) :=
  match c with
  | X_I => Some (Some (slice 15 5 ic), slice 7 5 ic)      (* jalr rd, rs1 *)
  | X_J => Some (None, slice 7 5 ic)                      (* jal rd *)
  | X_CJ => Some (None, 0)                                (* c.j *)
  | X_CJAL => Some (None, 1)                              (* c.jal *)
  | X_CJR => Some (Some (slice 7 5 ic), 0)                (* c.jr rs1 *)
  | X_CJALR => Some (Some (slice 7 5 ic), 1)              (* c.jalr rs1 *)
  | _ => None
  end.
(** The register fields of these formats are operands, not fixed. *)
Definition jump_free (c : xcls) (ffm : N) : bool :=
  match c with
  | X_I => (slice 15 5 ffm =? 0) && (slice 7 5 ffm =? 0)
  | X_J | X_CJR | X_CJALR => slice 7 5 ffm =? 0
  | _ => true
  end.
Definition is_link (r : N) : Prop := r = 1 \/ r = 5.
(** Jump-and-link instructions. *)
Definition jumps (m : meta) : bool := is_inst_type m IT_JAL || is_inst_type m IT_JALR.
