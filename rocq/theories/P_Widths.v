(** Claim C64: precision of floating-point operands and width of integer ones.  S_Widths gives
    them by the opcode maps of the manuals; [table_of m] is one of the three shipped selections. *)
From Coq Require Import NArith List Bool String.
From Verif Require Import M_Base M_Meta M_OperandInfo M_Decoded M_Builder M_DTable S_Table S_Shipped S_Manual S_Classes S_Widths L_Widths L_WidthCases.
Import ListNotations.
Local Open Scope N_scope.

(** C64.  Whatever part of a table is configured: an operand that is reported as single (double,
    quad, word, long) is one, by the opcode. *)
Theorem C64_width : forall m recs uids annos nu incl excl s, subseq recs (table_of m) -> 0 < nu < w32 ->
  make_decoder uids annos nu incl excl recs = Ok s ->
  forall A U ic v, ic < 2 ^ 64 -> decode (A := A) (U := U) s ic = Ok v ->
  forall p e k, In e (operands_at p (i_di v)) -> e_type e = Some k -> operates m p k ic.
Proof. intros m recs uids annos nu incl excl s SB HN HD A U ic v BD DC. exact (C64_width_lemma m recs uids annos nu incl excl s SB HN HD A U ic v BD DC). Qed.
Print Assumptions C64_width.
(** C64.  The opcode leaves no choice: of the kinds of one register bank at most one is right.  So
    with the bank, which C49 is about, the kind is settled. *)
Theorem C64_one : forall m p k k' ic, bank_of k = bank_of k' -> operates m p k ic -> operates m p k' ic -> k = k'.
Proof. exact C64_one_lemma. Qed.
Print Assumptions C64_one.
(** C64.  Every register operand has a type.  Missing: the instructions [untyped]. *)
Theorem C64_typed_partial : forall m recs uids annos nu incl excl s, subseq recs (table_of m) -> 0 < nu < w32 ->
  make_decoder uids annos nu incl excl recs = Ok s ->
  forall A U ic v, ic < 2 ^ 64 -> decode (A := A) (U := U) s ic = Ok v ->
  forall p e, In e (operands_at p (i_di v)) -> ~ In (d_mnemonic (i_di v)) (untyped m) -> e_type e <> None.
Proof. intros m recs uids annos nu incl excl s SB HN HD A U ic v BD DC. exact (C64_typed_lemma m recs uids annos nu incl excl s SB HN HD A U ic v BD DC). Qed.
Print Assumptions C64_typed_partial.
(** Each of these does have a register without a type. *)
Theorem C64_untyped_refuted : forall m n, In n (untyped m) -> exists recs s ic v e, subseq recs (table_of m) /\ make_decoder [] [] 1 [] [] recs = Ok s /\
  decode (A := unit) (U := unit) s ic = Ok v /\ d_mnemonic (i_di v) = n /\ In e (operands_at Source (i_di v)) /\ e_type e = None.
Proof. exact C64_untyped_lemma. Qed.
Print Assumptions C64_untyped_refuted.
(** fcvt.d.s, fsd, fcvt.w.s, c.fld, vfadd.vf and fcvt.h.s of a part of the RV64 table. *)
Example C64_ex : exists s, subseq floaty rv64 /\ make_decoder [] [] 1 [] [] floaty = Ok s /\
  Forall2 (fun ic x => exists v, decode (A := unit) (U := unit) s ic = Ok v /\ d_mnemonic (i_di v) = fst x /\ type_lists v = snd x) floaty_ops floaty_types.
Proof. exact C64_case. Qed.
(** A conversion from double to single writes single and reads double. *)
Example C64_one_ex : operates Rv64 Dest KSingle 0x40150553 /\ operates Rv64 Source KDouble 0x40150553.
Proof. exact C64_fcvt_case. Qed.
