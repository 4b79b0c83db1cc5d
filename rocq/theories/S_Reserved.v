(** Specification: which opcodes of a format are reserved, by bit position.  ([ffm]: the bits of
    the fields the instruction fixes.) *)
From Coq Require Import NArith Bool.
From Verif Require Import M_Extract S_Bits.
Local Open Scope N_scope.

(** The 5-bit register field at bit [lo] is free and names x0. *)
Definition is_x0 (lo ffm ic : N) : bool := (slice lo 5 ffm =? 0) && (slice lo 5 ic =? 0).
(** The 6-bit immediate of format CI is zero. *)
Definition no_ci_imm (ic : N) : bool := (slice 12 1 ic =? 0) && (slice 2 5 ic =? 0).
Definition reserved_when (c : xcls) (ffm ic : N) : bool :=
  match c with
  | X_CJR | X_CJALR | X_CI_addiw | X_C2_sp_load | X_C2_sp_load_word | X_C2_sp_load_double => is_x0 7 ffm ic
  | X_CI_sp | X_CI_rD_shifted => no_ci_imm ic
  | X_CIW_sp => slice 5 8 (N.ldiff ic ffm) =? 0
  (* register pairs start with an even register *)
  | X_I_load_pair | X_C2_sp_load_word_pair => N.testbit ic 7
  | X_S_pair => N.testbit ic 20
  | X_C0_load_word_pair | X_C0_store_word_pair | X_C2_sp_store_word_pair => N.testbit ic 2
  | _ => false
  end.
