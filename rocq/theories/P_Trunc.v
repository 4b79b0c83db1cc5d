(** Claim C70: the bits beyond the end of the instruction do not matter. *)
From Coq Require Import NArith List String.
From Verif Require Import M_Base M_Decoded M_Builder M_DTable S_Shipped S_Trie S_Table S_Trunc L_Claims L_TruncShipped L_TruncCases.
Import ListNotations.
Local Open Scope N_scope.

(** C70, for the shipped tables and their parts.  Whatever
    opcode the caller passes, the answer is that for the bits of the instruction alone: for an
    opcode that ends in 00, 01 or 10 the low 16 bits, else the low 32. *)
Theorem C70_shipped : forall T recs uids annos nu incl excl s,
  shipped T -> subseq recs T -> make_decoder uids annos nu incl excl recs = Ok s ->
  forall A U ic, same_report (decode (A := A) (U := U) s ic) (decode (A := A) (U := U) s (own_bits ic)).
Proof. exact C70_shipped_lemma. Qed.
Print Assumptions C70_shipped.
Example C70_shipped_ex : exists s, subseq few rv64 /\ make_decoder [] [] 1 [] [] few = Ok s /\
  own_bits 0xABCD0085 = 0x85 /\ own_bits 0x700000013 = 0x13 /\
  (exists v, decode (A := unit) (U := unit) s 0xABCD0085 = Ok v /\ d_mnemonic (i_di v) = "c.addi"%string) /\
  (exists v, decode (A := unit) (U := unit) s 0x700000013 = Ok v /\ d_mnemonic (i_di v) = "nop"%string).
Proof. exact C70_case. Qed.

(** The same for every well-formed table whose 16-bit instructions, and their overlays, have
    opcode fields, fixed fields, masks and an extractor for 16 bits. *)
Theorem C70_tidy : forall uids annos nu incl excl recs s,
  make_decoder uids annos nu incl excl recs = Ok s ->
  well_formed (kept incl excl recs) -> tidy (kept incl excl recs) ->
  forall A U ic, same_report (decode (A := A) (U := U) s ic) (decode (A := A) (U := U) s (own_bits ic)).
Proof. exact C70_any_lemma. Qed.
Print Assumptions C70_tidy.
Example C70_tidy_ex : exists s, make_decoder [] [] 1 [] [] small = Ok s /\ well_formed (kept [] [] small) /\ tidy (kept [] [] small) /\
  exists v, decode (A := unit) (U := unit) s 0x85 = Ok v /\ d_mnemonic (i_di v) = "c.addi"%string.
Proof. exact C70_any_case. Qed.

(** The condition is needed: nothing stops a record from giving a 32-bit form the
    stencil of a 16-bit instruction, and its operands are then read beyond the end. *)
Theorem C70_untidy_refuted : exists recs s ic, make_decoder [] [] 1 [] [] recs = Ok s /\ well_formed recs /\
  ~ same_report (decode (A := unit) (U := unit) s ic) (decode (A := unit) (U := unit) s (own_bits ic)).
Proof. exact C70_untidy_lemma. Qed.
Print Assumptions C70_untidy_refuted.
