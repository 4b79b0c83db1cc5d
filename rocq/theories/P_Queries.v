(** Claim C47: register queries of a decoded instruction. *)
From Coq Require Import NArith List Bool String.
From Verif Require Import M_Base M_Meta M_OperandInfo M_Extract M_Decoded M_OpcodeInfo.
From Verif Require Import S_Regs S_Queries L_RegsRefuted L_Queries.
Import ListNotations.
Local Open Scope N_scope.

(** The counts: of all operands of a side, of the integer (word or long), floating-point
    (single or double) and vector ones, of each type; and of both sides together.
    Asking for no type fails an assertion. *)
Theorem C47_counts : forall c ffm m ic n u d s, pair_ok c ffm -> decode_info n u (ext c ffm) m ic = Ok d ->
  num_regs d s = N.of_nat (List.length (operands d s)) /\
  num_int_regs d s = how_many integer (operands d s) /\
  num_float_regs d s = how_many floating (operands d s) /\
  num_vector_regs d s = how_many vector (operands d s) /\
  (forall k, num_regs_by_type d s (Some k) = Ok (how_many (only k) (operands d s))) /\
  d_int_n_operands d = how_many integer (operands d Src ++ operands d Dst)%list /\
  d_float_n_operands d = how_many floating (operands d Src ++ operands d Dst)%list /\
  (forall k, d_n_operT d k = how_many (only k) (operands d Src ++ operands d Dst)%list) /\
  num_regs_by_type d s None = AssertFail /\ get_regs_by_type d s None = AssertFail.
Proof. exact queries_lemma. Qed.
(** The masks of a class are the union of the masks of its types. *)
Theorem C47_masks : forall d s r,
  (in_mask r (get_int_regs d s) <-> exists k v, integer k = true /\ get_regs_by_type d s (Some k) = Ok v /\ in_mask r v) /\
  (in_mask r (get_float_regs d s) <-> exists k v, floating k = true /\ get_regs_by_type d s (Some k) = Ok v /\ in_mask r v) /\
  (in_mask r (get_vector_regs d s) <-> exists k v, vector k = true /\ get_regs_by_type d s (Some k) = Ok v /\ in_mask r v).
Proof. exact masks_lemma. Qed.
(** Both sides together. *)
Theorem C47_both_sides : forall d r,
  (in_mask r (d_int_operands d) <-> exists s, in_mask r (get_int_regs d s)) /\
  (in_mask r (d_float_operands d) <-> exists s, in_mask r (get_float_regs d s)) /\
  (forall k, in_mask r (d_operT d k) <-> exists s v, get_regs_by_type d s (Some k) = Ok v /\ in_mask r v).
Proof. exact both_lemma. Qed.
Example C47_ex : pair_ok X_R4 0 /\ pair_ok X_S 0 /\
  match decode_info "fmadd.d" 7 (ext X_R4 0) meta_rv64i 0x7a5f0543 with
  | Ok d => num_int_regs d Src = 3 /\ d_int_n_operands d = 4 /\ get_int_regs d Dst = 0x400 /\ num_float_regs d Src = 0
  | _ => False end /\
  match decode_info "sd" 7 (ext X_S 0) meta_rv64i 0x00a53423 with
  | Ok d => num_regs d Src = 2 /\ get_int_regs d Src = 0x400 /\ num_regs d Dst = 0 /\ d_n_operT d KLong = 2
  | _ => False end.
Proof. split; [discriminate|]. split; [discriminate|]. split; vm_compute; repeat split. Qed.
Print Assumptions C47_counts.
Print Assumptions C47_masks.
Print Assumptions C47_both_sides.
