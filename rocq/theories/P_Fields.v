(** Claim C66: special fields (getSpecialField) of the shipped tables.  S_Fields gives them by the
    opcode maps of the manuals. *)
From Coq Require Import NArith List Bool String.
From Verif Require Import M_Base M_Extract M_Decoded M_Builder M_DTable S_Bits S_Table S_Shipped S_Manual S_Classes S_Fields L_Fields.
Import ListNotations.
Local Open Scope N_scope.

(** C66.  For every special field and whatever part of a table is configured: the field is the
    bits of the opcode if the instruction has it, and otherwise the call throws.  Missing: the
    opcodes [extra_field], for which bits are reported though the manual has no such field. *)
Theorem C66_field_partial : forall m recs uids annos nu incl excl s, subseq recs (table_of m) -> 0 < nu < w32 ->
  make_decoder uids annos nu incl excl recs = Ok s ->
  forall A U ic v, ic < 2 ^ 64 -> decode (A := A) (U := U) s ic = Ok v ->
  forall f, In f special_fields ->
  ((has_field f ic \/ extra_field f ic) /\ info_special v (sf_id f) = Ok (slice (sf_lo f) (sf_len f) ic)) \/
  (~ has_field f ic /\ ~ extra_field f ic /\ info_special v (sf_id f) = Throw EUnsupportedSpecialField).
Proof. intros m recs uids annos nu incl excl s SB HN HD A U ic v BD DC. exact (C66_field_lemma m recs uids annos nu incl excl s SB HN HD A U ic v BD DC). Qed.
Print Assumptions C66_field_partial.
(** Each of those patterns is needed: the RV64 table decodes an opcode that fits it, does not have
    the field, and reports it. *)
Theorem C66_extra_refuted : exists s, make_decoder [] [] 1 [] [] rv64 = Ok s /\
  forall f p, In f special_fields -> In p (sf_extra f) -> exists ic v n, ic < 2 ^ 64 /\ decode (A := unit) (U := unit) s ic = Ok v /\
    fits p ic /\ ~ has_field f ic /\ info_special v (sf_id f) = Ok n.
Proof. exact C66_extra_lemma. Qed.
Print Assumptions C66_extra_refuted.
(** fadd.s, csrrw, amoadd.w.aq, vadd.vv, vmerge.vvm and fence rw,rw: the fields they report. *)
Example C66_ex : exists s, subseq fielded rv64 /\ make_decoder [] [] 1 [] [] fielded = Ok s /\
  Forall2 (fun ic x => exists v, decode (A := unit) (U := unit) s ic = Ok v /\ d_mnemonic (i_di v) = fst x /\ answered v = snd x) fielded_ops fielded_lists.
Proof. exact C66_case. Qed.
