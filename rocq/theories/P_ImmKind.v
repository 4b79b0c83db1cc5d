(** Claim C73: whether an instruction has an immediate, and of which sign. *)
From Coq Require Import NArith ZArith List Bool String.
From Verif Require Import M_Base M_Field M_Forms M_Meta M_OperandInfo M_Extract M_Decoded M_Trie M_Builder M_DTable.
From Verif Require Import S_Imm S_Table S_Shipped S_Manual S_Manual32 S_ImmKind L_ImmKind.
Import ListNotations.
Local Open Scope N_scope.

(** C73.  Of a part of a shipped table: the immediate of a decoded instruction is of the kind
    (none, signed, unsigned) of the immediate the manual gives it.  Missing: the names
    [odd_kinds]; the register pairs of RV32 are in C73_pairs. *)
Theorem C73_kind_partial : forall T B recs uids annos nu incl excl s, book_of T B -> subseq recs T -> 0 < nu < w32 ->
  make_decoder uids annos nu incl excl recs = Ok s ->
  forall A U ic v, decode (A := A) (U := U) s ic = Ok v ->
  ~ In (d_mnemonic (i_di v)) odd_kinds -> ~ In (d_mnemonic (i_di v)) (bk_pairs B) ->
  forall m, In m (bk_rows B) -> mi_name m = d_mnemonic (i_di v) -> d_immT (i_di v) = kind_of_imm (mi_imm m).
Proof.
  exact (fun T B recs uids annos nu incl excl s BO S HN HD A U ic v D NO =>
    proj2 (kind_lemma T B BO recs uids annos nu incl excl s S HN HD A U ic v D NO)).
Qed.
(** C73.  hasImmediate alone.  Missing: [odd_extra] and [odd_lost]. *)
Theorem C73_has_partial : forall T B recs uids annos nu incl excl s, book_of T B -> subseq recs T -> 0 < nu < w32 ->
  make_decoder uids annos nu incl excl recs = Ok s ->
  forall A U ic v, decode (A := A) (U := U) s ic = Ok v ->
  ~ In (d_mnemonic (i_di v)) (odd_extra ++ odd_lost) -> ~ In (d_mnemonic (i_di v)) (bk_pairs B) ->
  forall m, In m (bk_rows B) -> mi_name m = d_mnemonic (i_di v) -> (d_has_imm (i_di v) = true <-> mi_imm m <> NoImm).
Proof.
  exact (fun T B recs uids annos nu incl excl s BO S HN HD A U ic v D NO NP =>
    has_lemma T B BO recs uids annos nu incl excl s S HN HD A U ic v D NO NP).
Qed.
(** C73.  Loads and stores of register pairs. *)
Theorem C73_pairs : forall T B recs uids annos nu incl excl s, book_of T B -> subseq recs T -> 0 < nu < w32 ->
  make_decoder uids annos nu incl excl recs = Ok s ->
  forall A U ic v, decode (A := A) (U := U) s ic = Ok v ->
  In (d_mnemonic (i_di v)) (bk_pairs B) -> d_immT (i_di v) = kind_of_pair (d_mnemonic (i_di v)).
Proof.
  exact (fun T B recs uids annos nu incl excl s BO S HN HD A U ic v D IP =>
    proj1 (kind_lemma T B BO recs uids annos nu incl excl s S HN HD A U ic v D (pairs_even T B _ BO IP)) IP).
Qed.
(** C73.  The names left out are wrong, every one that the table has. *)
Theorem C73_every_name_refuted : forall T B, book_of T B -> exists s, make_decoder [] [] 1 [] [] T = Ok s /\
  forall n, In n odd_kinds -> in_manual (bk_rows B) n -> exists ic v m,
    decode (A := unit) (U := unit) s ic = Ok v /\ d_mnemonic (i_di v) = n /\
    In m (bk_rows B) /\ mi_name m = n /\ fits (mi_pat m) ic /\ d_immT (i_di v) <> kind_of_imm (mi_imm m).
Proof. exact kinds_refuted. Qed.
(** C73.  With any table: an immediate that is reported as unsigned is its own signed offset. *)
Theorem C73_unsigned : forall c ffm m ic n u d, ic < 2 ^ 64 -> decode_info n u (ext c ffm) m ic = Ok d ->
  d_immT d = ImmUnsigned -> d_soff d = Z.of_N (d_imm d).
Proof. exact unsigned_plain. Qed.
(** All RV64 files: addi, mv, csrrwi, add; csrrwi is among the rows of the manual. *)
Example C73_ex : exists s v1 v2 v3 v4, make_decoder [] [] 1 [] [] rv64 = Ok s /\
  decode (A := unit) (U := unit) s 0xFFF58513 = Ok v1 /\ d_mnemonic (i_di v1) = "addi"%string /\ d_immT (i_di v1) = ImmSigned /\
  decode (A := unit) (U := unit) s 0x00058513 = Ok v2 /\ d_mnemonic (i_di v2) = "mv"%string /\ d_has_imm (i_di v2) = false /\
  decode (A := unit) (U := unit) s 0x3002D073 = Ok v3 /\ d_mnemonic (i_di v3) = "csrrwi"%string /\ d_immT (i_di v3) = ImmUnsigned /\
  decode (A := unit) (U := unit) s 0x00A58533 = Ok v4 /\ d_mnemonic (i_di v4) = "add"%string /\ d_has_imm (i_di v4) = false.
Proof. exact kind_case. Qed.
Print Assumptions C73_kind_partial.
Print Assumptions C73_has_partial.
Print Assumptions C73_pairs.
Print Assumptions C73_every_name_refuted.
Print Assumptions C73_unsigned.
