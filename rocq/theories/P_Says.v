(** Claim C68: a decoded instruction says of itself what its record in the table says.  S_Says
    gives the meaning in terms of the texts of the records only. *)
From Coq Require Import NArith List Bool String.
From Verif Require Import M_Base M_Field M_Meta M_OperandInfo M_Extract M_Decoded M_Trie M_Builder M_DTable.
From Verif Require Import S_Meta S_Trie S_Table S_Widths S_Shipped S_Says L_Says L_SaysCases.
Import ListNotations.
Local Open Scope N_scope.

(** C68.  Whatever well-formed table is loaded and whatever opcode is decoded: the instruction has
    exactly the types that its record lists (for a compressed instruction, also those of the one it
    expands to; if an overlay applies, also those of the overlay), the data size, the ISAs and the
    tags of its record, and each operand has the type of the last clause that covers it.
    Missing: the operands of formats with implicit registers and register pairs; and a compressed
    record's own data size, ISAs and operand clauses. *)
Theorem C68_says_partial : forall uids annos nu incl excl recs s, 0 < nu < w32 ->
  make_decoder uids annos nu incl excl recs = Ok s -> well_formed (kept incl excl recs) ->
  forall A U ic v, decode (A := A) (U := U) s ic = Ok v ->
  exists r e d o, listed (kept incl excl recs) r e /\ selected (encodings (kept incl excl recs)) e ic /\ says d r o v /\
    match o with
    | None => d_mnemonic (i_di v) = en_mn e /\ described_by (kept incl excl recs) r d
    | Some ro => d = r /\ In ro (kept incl excl recs) /\ exists mask, overlays ro (d_mnemonic (i_di v)) (en_mn e) mask (N.land ic mask)
    end.
Proof. exact says_lemma. Qed.
Print Assumptions C68_says_partial.
Example C68_says_ex : exists s v, make_decoder [] [] 1 [] [] small = Ok s /\ 0 < 1 < w32 /\ well_formed (kept [] [] small) /\
  decode (A := unit) (U := unit) s 0x85 = Ok v /\
  (d_mnemonic (i_di v), is_inst_type (i_meta v) (2 ^ 0), map e_type (operands_at Dest (i_di v))) = ("c.addi"%string, true, [Some KLong]).
Proof. exact says_case. Qed.

(** C68, finding.  The "data" clause of a record that expands to another one is not used. *)
Theorem C68_compressed_refuted : exists recs s ic v r e, make_decoder [] [] 1 [] [] recs = Ok s /\ well_formed recs /\
  decode (A := unit) (U := unit) s ic = Ok v /\ listed recs r e /\ selected (encodings recs) e ic /\ d_mnemonic (i_di v) = en_mn e /\
  jm_data (r_meta r) = Some 32 /\ mt_data (i_meta v) = 0.
Proof. exact compressed_refuted_lemma. Qed.
Print Assumptions C68_compressed_refuted.
(** C68, finding.  The destination of c.j is a long register, although the record of jal says that
    it is a word. *)
Theorem C68_borrowed_refuted : exists recs s ic v r e d el, make_decoder [] [] 1 [] [] recs = Ok s /\ well_formed recs /\
  decode (A := unit) (U := unit) s ic = Ok v /\ listed recs r e /\ selected (encodings recs) e ic /\ d_mnemonic (i_di v) = en_mn e /\
  described_by recs r d /\ In el (operands_at Dest (i_di v)) /\ e_fid el = Some RD /\ typed_as d RD (Some KWord) /\ e_type el = Some KLong.
Proof. exact borrowed_refuted_lemma. Qed.
Print Assumptions C68_borrowed_refuted.
