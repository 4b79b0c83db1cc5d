(** Claim C51: isHint tells the HINT encodings.  The specification is S_Hint; tables and the rows
    of the manual as in C49. *)
From Coq Require Import NArith List Bool String.
From Verif Require Import M_Base M_Field M_Forms M_Meta M_OperandInfo M_Extract M_Decoded M_Trie M_Builder M_DTable.
From Verif Require Import S_Bits S_Table S_Shipped S_Manual S_Manual32 S_Hint L_Hint.
Import ListNotations.
Local Open Scope N_scope.

(** C51.  Every extractor class: isHint answers, and it answers rd = x0, a zero immediate, either
    of them, or false. *)
Theorem C51_formats : forall c ffm ic, ic < 2 ^ 64 -> x_hint (ext c ffm) ic = Ok (hint_when c ffm ic).
Proof. exact hint_lemma. Qed.
Print Assumptions C51_formats.
Example C51_formats_ex : hint_when X_C2_slli 0 0x002 = true /\ hint_when X_C2_slli 0 0x506 = false /\ hint_when X_CI_rD_only 0xF80 0x4001 = false.
Proof. repeat split. Qed.
(** C51 (partial: the names [odd_hints] are wrong, see below).  Any part of a shipped table: an
    opcode that is reported as the instruction that the manual says it is, is reported to be a
    HINT exactly if it is one of the HINTs of the C extension. *)
Theorem C51_shipped_partial : forall T B recs uids annos nu incl excl s, book_of T B -> subseq recs T -> 0 < nu < w32 ->
  make_decoder uids annos nu incl excl recs = Ok s ->
  forall A U ic v m, ic < 2 ^ 64 -> decode (A := A) (U := U) s ic = Ok v ->
  closest (bk_rows B) T m ic -> mi_name m = d_mnemonic (i_di v) -> ~ In (mi_name m) odd_hints ->
  (d_hint (i_di v) = true <-> hint_of hints ic).
Proof. exact C51_shipped_lemma. Qed.
Print Assumptions C51_shipped_partial.
(** c.addi a0, 0 is one; c.addi a0, 1 is not. *)
Example C51_shipped_ex : exists recs s v w, subseq recs rv64 /\ make_decoder [] [] 1 [] [] recs = Ok s /\
  decode (A := unit) (U := unit) s 0x501 = Ok v /\ d_hint (i_di v) = true /\
  (exists m, closest manual64 rv64 m 0x501 /\ mi_name m = d_mnemonic (i_di v)) /\
  decode (A := unit) (U := unit) s 0x505 = Ok w /\ d_hint (i_di w) = false /\
  (exists m, closest manual64 rv64 m 0x505 /\ mi_name m = d_mnemonic (i_di w)) /\
  d_mnemonic (i_di v) = "c.addi"%string /\ d_mnemonic (i_di w) = "c.addi"%string /\ ~ In "c.addi"%string odd_hints.
Proof. exact C51_case. Qed.
(** C51 (partial likewise).  A whole shipped table: the same of every instruction of the manual
    (but those of C49_every_row_refuted). *)
Theorem C51_whole_partial : forall T B uids annos nu s, book_of T B -> 0 < nu < w32 -> make_decoder uids annos nu [] [] T = Ok s ->
  forall A U ic v, ic < 2 ^ 64 -> decode (A := A) (U := U) s ic = Ok v -> in_manual (bk_rows B) (d_mnemonic (i_di v)) ->
  ~ In (d_mnemonic (i_di v)) (bk_patterns B) -> ~ In (d_mnemonic (i_di v)) odd_hints ->
  (d_hint (i_di v) = true <-> hint_of hints ic).
Proof. exact C51_whole_lemma. Qed.
Print Assumptions C51_whole_partial.
(** C51 is false of c.nop, the wrong way round: c.nop itself is reported to be a HINT, and c.nop
    with an immediate, which is one, is not; ... *)
Theorem C51_nop_refuted : exists recs s v w, subseq recs rv64 /\ make_decoder [] [] 1 [] [] recs = Ok s /\
  decode (A := unit) (U := unit) s 0x1 = Ok v /\ d_hint (i_di v) = true /\ ~ hint_of hints 0x1 /\
  decode (A := unit) (U := unit) s 0x5 = Ok w /\ d_hint (i_di w) = false /\ hint_of hints 0x5.
Proof. exact C51_nop_lemma. Qed.
Print Assumptions C51_nop_refuted.
(** ... of the compressed non-temporal hints (c.add x0, ... is a HINT; called c.ntl it is not); ... *)
Theorem C51_ntl_refuted : exists recs s v, subseq recs rv64 /\ make_decoder [] [] 1 [] [] recs = Ok s /\
  decode (A := unit) (U := unit) s 0x900A = Ok v /\ d_mnemonic (i_di v) = "c.ntl.p1"%string /\ d_hint (i_di v) = false /\ hint_of hints 0x900A.
Proof. exact C51_ntl_lemma. Qed.
Print Assumptions C51_ntl_refuted.
(** ... and of the HINTs of the base ISA, none of which is reported: add x0, ra, sp. *)
Theorem C51_wide_refuted : exists recs s v, subseq recs rv64 /\ make_decoder [] [] 1 [] [] recs = Ok s /\
  decode (A := unit) (U := unit) s 0x00208033 = Ok v /\ d_hint (i_di v) = false /\ hint_of wide_hints 0x00208033.
Proof. exact C51_wide_lemma. Qed.
Print Assumptions C51_wide_refuted.
