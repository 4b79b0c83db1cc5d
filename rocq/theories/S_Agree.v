(** Specification: agreement of operand lists and register masks (C25), and the
    conditions on the typing under which it is claimed. *)
From Coq Require Import NArith List Bool.
From Verif Require Import M_Meta M_OperandInfo M_Extract S_Bits.
Import ListNotations.
Local Open Scope N_scope.

(** Every listed register is in the mask and in the mask of its type; an empty
    list has empty masks. *)
Definition lists_agree (l : list elem) (mask : N) (T : kind -> N) : Prop :=
  (forall e, In e l -> N.testbit mask (e_val e) = true) /\
  (forall e k, In e l -> e_type e = Some k -> N.testbit (T k) (e_val e) = true) /\
  (l = [] -> mask = 0 /\ forall k, T k = 0).

(** The two views of an instruction's typing agree: a field reported with type
    [k] is in the field set of [k].  (Every meta-data object the library makes
    satisfies this: [C30_typing_consistent].) *)
Definition typing_ok (m : meta) : Prop :=
  forall f k, mt_otype m f = Some k -> N.testbit (mt_fset m k) (fid_idx f) = true.

(** Field [f] is untyped, integer, or of a type declared for "all" operands. *)
Definition int_or_all (m : meta) (f : fid) : bool :=
  match mt_otype m f with
  | None | Some KWord | Some KLong => true
  | Some k => mt_fset m k =? N.ones 32
  end.
(** Types that include field [f] were declared for "all" operands. *)
Definition all_if (m : meta) (f : fid) : bool :=
  forallb (fun k => negb (N.testbit (mt_fset m k) (fid_idx f)) || (mt_fset m k =? N.ones 32)) all_kinds.

(** The formats whose typed masks and operand lists are computed from different
    fields, and what the typing has to satisfy for them to agree. *)
Definition agree_cond (c : xcls) (ffm : N) (m : meta) (ic : N) : bool :=
  match c with
  | X_CI_rD_only => int_or_all m RD
  | X_CJ | X_CJR => negb (mt_fset m KLong =? 0)
  | X_CJAL => int_or_all m RS1
  | X_C2_add => match mt_otype m RS1 with
                | None => true
                | Some k => N.testbit (mt_fset m k) (fid_idx RD)
                end
  | X_C2_sp => negb (slice 2 5 ic =? 0)
  | X_C0_store | X_C0_store_byte | X_C0_store_half | X_C0_store_word | X_C0_store_double => all_if m RD
  | X_U => slice 7 5 ffm =? 0
  | X_I_load_pair | X_C2_sp_load_word_pair => (slice 7 5 ffm =? 0) && all_if m RD
  | X_C0_load_word_pair => (slice 2 3 ffm =? 0) && all_if m RD
  | X_S_pair => (slice 15 5 ffm =? 0) && (slice 20 5 ffm =? 0) && all_if m RS2
  | X_C0_store_word_pair =>
      (slice 7 3 ffm =? 0) && (slice 2 3 ffm =? 0) && all_if m RS2 && all_if m RD
  | X_C2_sp_store_word_pair => (slice 2 5 ffm =? 0) && all_if m RS2 && negb (slice 2 5 ic =? 0)
  | _ => true
  end.

(** The formats with such a condition. *)
Definition agree_exceptions : list xcls :=
  [X_CI_rD_only; X_CJ; X_CJR; X_CJAL; X_C2_add; X_C2_sp; X_C0_store; X_C0_store_byte; X_C0_store_half; X_C0_store_word;
   X_C0_store_double; X_U; X_I_load_pair; X_C2_sp_load_word_pair; X_C0_load_word_pair; X_S_pair;
   X_C0_store_word_pair; X_C2_sp_store_word_pair].
