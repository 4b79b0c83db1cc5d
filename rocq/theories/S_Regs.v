(** Specification vocabulary for register masks and operand lists of decoded
    instructions (C26-C28, C36, C37, C39). *)
From Coq Require Import NArith List Bool.
From Verif Require Import M_Base M_Meta M_OperandInfo M_Extract M_Decoded S_Bits S_Slots S_Agree S_Pairs.
Import ListNotations.
Local Open Scope N_scope.

(** Register [r] is in mask [v]. *)
Definition in_mask (r v : N) : Prop := N.testbit v r = true.
Definition sub_mask (a b : N) : Prop := forall r, in_mask r a -> in_mask r b.

Definition is_pair (c : xcls) : bool := is_pair_load c || is_pair_store c.
(** The registers of a pair instruction are not fixed (they never are in practice:
    fixing one makes the pair undefined). *)
Definition pair_ok (c : xcls) (ffm : N) : Prop := is_pair c = true -> pair_free c ffm = true.

(** Formats whose typed masks use other fields than their operands: what the
    typing must satisfy for the typed masks to stay within the overall masks. *)
Definition sub_cond (c : xcls) (ffm : N) (m : meta) (ic : N) : bool :=
  match c with
  | X_C2_sp => negb (slice 2 5 ic =? 0)
  | X_C2_sp_load | X_C2_sp_load_word | X_C2_sp_load_double
  | X_C2_sp_load_float_single | X_C2_sp_load_float_double => all_if m RS2
  | X_C2_sp_load_word_pair => all_if m RS2 && (slice 7 5 ffm =? 0) && all_if m RD
  | X_I_load_pair => (slice 7 5 ffm =? 0) && all_if m RD
  | X_C0_load_word_pair => (slice 2 3 ffm =? 0)
  | X_C0_store | X_C0_store_byte | X_C0_store_half | X_C0_store_word | X_C0_store_double => all_if m RD
  | X_S_pair | X_C2_sp_store_word_pair => pair_free c ffm
  | X_C0_store_word_pair => pair_free c ffm && all_if m RD
  | X_CJALR => forallb (fun k => (mt_fset m k =? 0) || N.testbit (mt_fset m k) (fid_idx RS1)) [KWord; KLong]
  | X_U => slice 7 5 ffm =? 0
  | _ => true
  end.
Definition sub_exceptions : list xcls :=
  [X_C2_sp; X_C2_sp_load; X_C2_sp_load_word; X_C2_sp_load_double; X_C2_sp_load_float_single;
   X_C2_sp_load_float_double; X_C2_sp_load_word_pair; X_I_load_pair; X_C0_load_word_pair; X_C0_store; X_C0_store_byte;
   X_C0_store_half; X_C0_store_word; X_C0_store_double; X_S_pair; X_C2_sp_store_word_pair; X_C0_store_word_pair;
   X_CJALR; X_U].
(** Every field has a type. *)
Definition all_typed (m : meta) : Prop := forall f, mt_otype m f <> None.

(** Store formats. *)
Definition is_store (c : xcls) : bool :=
  match c with
  | X_S | X_HV_store | X_V_store | X_C0_store | X_C0_store_byte | X_C0_store_half | X_C0_store_word
  | X_C0_store_double | X_C2_sp_store | X_C2_sp_store_word | X_C2_sp_store_double => true
  | _ => is_pair_store c
  end.
(** The address and data registers split the sources and the operands. *)
Definition store_split (l : list elem) (sources addr data : N) : Prop :=
  (forall r, in_mask r sources <-> in_mask r addr \/ in_mask r data) /\
  (forall e, In e l -> if e_sdata e then in_mask (e_val e) data else in_mask (e_val e) addr) /\
  (forall r, in_mask r data -> exists e, In e l /\ e_sdata e = true /\ e_val e = r) /\
  (forall r, in_mask r addr -> exists e, In e l /\ e_sdata e = false /\ e_val e = r).

(** The operands that are not x0. *)
Definition without_x0 (l : list elem) : list elem := filter (fun e => negb (e_val e =? 0)) l.
(** Formats with an x0 operand that is reported even when x0 is suppressed. *)
Definition keeps_x0 (c : xcls) : bool :=
  match c with X_CB | X_C1_rsd_zext_I0 | X_C2_mv | X_C2_add => true | _ => false end.

(** Scalar load formats. *)
Definition is_load (c : xcls) : bool :=
  match c with
  | X_I_load | X_I_load_pair | X_C0_load | X_C0_load_byte | X_C0_load_half | X_C0_load_word | X_C0_load_double
  | X_C0_load_word_pair | X_C2_sp_load | X_C2_sp_load_word | X_C2_sp_load_double | X_C2_sp_load_word_pair
  | X_C2_sp_load_float_single | X_C2_sp_load_float_double | X_HV_load => true
  | _ => false
  end.
