(** Claims C29 (jump classification) and C35 (special fields). *)
From Coq Require Import NArith List Bool String.
From Verif Require Import M_Base M_Meta M_OperandInfo M_Extract M_Decoded.
From Verif Require Import S_Bits S_Meta S_Regs S_Special L_Stores L_RegsRefuted L_NameTables.
Import ListNotations.
Local Open Scope N_scope.

(** The return-address-stack table of the manual, for the six jump formats. *)
Theorem C29_jump_classification : forall c ffm m ic n u d rs rd,
  jumps m = true -> jump_regs c ic = Some (rs, rd) -> jump_free c ffm = true ->
  decode_info n u (ext c ffm) m ic = Ok d ->
  (is_ext_type d EXT_CALL = true <-> is_link rd) /\
  (is_ext_type d EXT_RETURN = true <-> exists r, rs = Some r /\ is_link r /\ r <> rd) /\
  (is_ext_type d EXT_INDIRECT = true <-> exists r, rs = Some r /\ r <> 0 /\ ~ is_link r).
Proof. exact C29_lemma. Qed.
(** Instructions that are neither JAL nor JALR have no classification, whatever their registers. *)
Theorem C29_others_unclassified : forall m sources dests, jumps m = false -> ext_itype_of m sources dests = 0.
Proof. exact ext_none. Qed.
(** Queries for a combination of classes: all of them, any of them. *)
Theorem C29_combined : forall d t,
  (is_ext_type d t = true <-> all_in t (d_ext d)) /\
  (is_ext_type_any d t = true <-> exists i, has t i /\ has (d_ext d) i).
Proof. exact ext_combined_lemma. Qed.
Print Assumptions C29_combined.
Example C29_ex : exists m d, make_meta j_jalr false [] = Ok m /\ jumps m = true /\
  jump_regs X_I 0x00028067 = Some (Some 5, 0) /\ jump_free X_I 0 = true /\
  decode_info "jalr" 3 (ext X_I 0) m 0x00028067 = Ok d /\ is_ext_type d EXT_RETURN = true /\ is_ext_type d EXT_CALL = false.
Proof. do 2 eexists. split; [reflexivity|]. split; [reflexivity|]. split; [reflexivity|]. split; [reflexivity|].
  split; [vm_compute; reflexivity|]. split; vm_compute; reflexivity. Qed.

(** Every special field of every format is the tabulated bit field, and asking
    for any other is reported by an exception. *)
Theorem C35_special_fields : forall c ffm s ic, x_spec (ext c ffm) s ic =
  match special_table c s with
  | Some (lo, len, chk) => if chk && negb (slice lo len ffm =? 0) then Throw EUnsupportedSpecialField else Ok (slice lo len ic)
  | None => Throw (match s with SF__N => EInvalidSpecialField | _ => EUnsupportedSpecialField end)
  end.
Proof. exact C35_lemma. Qed.
Example C35_ex : x_spec (ext X_FENCE 0) SF_PRED 0x0ff0000f = Ok 15 /\ x_spec (ext X_R4 0) SF_RM 0x7a5f7543 = Ok 7 /\
  x_spec (ext X_V 0x02000000) SF_VM 0x02000057 = Throw EUnsupportedSpecialField /\
  x_spec (ext X_R 0) SF_CSR 0 = Throw EUnsupportedSpecialField.
Proof. vm_compute. repeat split. Qed.
Print Assumptions C29_jump_classification.
Print Assumptions C29_others_unclassified.
Print Assumptions C35_special_fields.
