(** Specification: the RV32 register-pair loads and stores (Zilsd, Zclsd). *)
From Coq Require Import NArith List Bool.
From Verif Require Import M_Meta M_OperandInfo M_Extract S_Bits S_Slots.
Import ListNotations.
Local Open Scope N_scope.

(** Which formats they are, the number of the first register of the pair, and
    whether its field is free. *)
Definition is_pair_load (c : xcls) : bool :=
  match c with X_I_load_pair | X_C0_load_word_pair | X_C2_sp_load_word_pair => true | _ => false end.
Definition is_pair_store (c : xcls) : bool :=
  match c with X_S_pair | X_C0_store_word_pair | X_C2_sp_store_word_pair => true | _ => false end.
Definition pair_first (c : xcls) (ic : N) : N :=
  match c with
  | X_I_load_pair | X_C2_sp_load_word_pair => slice 7 5 ic
  | X_C0_load_word_pair | X_C0_store_word_pair => slice 2 3 ic + 8
  | X_S_pair => slice 20 5 ic
  | X_C2_sp_store_word_pair => slice 2 5 ic
  | _ => 0
  end.
Definition pair_free (c : xcls) (ffm : N) : bool :=
  match c with
  | X_I_load_pair | X_C2_sp_load_word_pair => slice 7 5 ffm =? 0
  | X_C0_load_word_pair => slice 2 3 ffm =? 0
  | X_C0_store_word_pair => (slice 2 3 ffm =? 0) && (slice 7 3 ffm =? 0)
  | X_S_pair => (slice 20 5 ffm =? 0) && (slice 15 5 ffm =? 0)
  | X_C2_sp_store_word_pair => slice 2 5 ffm =? 0
  | _ => false
  end.
(** The address register of a pair store. *)
Definition pair_base (c : xcls) (ic : N) : N :=
  match c with
  | X_S_pair => slice 15 5 ic
  | X_C0_store_word_pair => slice 7 3 ic + 8
  | _ => 2
  end.
(** The registers of the pair; x0 stands for no register. *)
Definition pair_regs (r : N) : list N := if r =? 0 then [] else [r; r + 1].
Definition pair_dests (m : meta) (r : N) : list elem :=
  if r =? 0 then []
  else [mkE (Some RD) (mt_otype m RD) r false false; mkE (Some RD2) (mt_otype m RD) (r + 1) false false].
Definition pair_data (m : meta) (sd : bool) (r : N) : list elem :=
  if r =? 0 then []
  else [mkE (Some RS2) (mt_otype m RS2) r sd false; mkE (Some RS3) (mt_otype m RS2) (r + 1) sd false].
