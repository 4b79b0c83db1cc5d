(** Claim C62: instruction classes and sizes of memory accesses.  S_Classes gives them by the
    opcode maps of the manuals; [table_of m] is one of the three shipped selections. *)
From Coq Require Import NArith List Bool String.
From Verif Require Import M_Base M_Meta M_Decoded M_Builder M_DTable S_Table S_Shipped S_Manual S_Classes L_Classes L_ClassCases.
Import ListNotations.
Local Open Scope N_scope.

(** C62.  Whatever part of a table is configured: an instruction that isInstType calls a load (a
    store, a branch, ...) has an opcode of that class. *)
Theorem C62_class : forall m recs uids annos nu incl excl s, subseq recs (table_of m) -> 0 < nu < w32 ->
  make_decoder uids annos nu incl excl recs = Ok s ->
  forall A U ic v, ic < 2 ^ 64 -> decode (A := A) (U := U) s ic = Ok v ->
  forall c, In c (classes m) -> is_inst_type (i_meta v) (2 ^ cl_bit c) = true -> in_class c ic /\ ~ omitted c ic.
Proof. intros m recs uids annos nu incl excl s SB HN HD A U ic v BD DC. exact (C62_class_lemma m recs uids annos nu incl excl s SB HN HD A U ic v BD DC). Qed.
Print Assumptions C62_class.
(** C62.  And a data size other than 0 is the size of the memory access, but for prefetch.r. *)
Theorem C62_size : forall m recs uids annos nu incl excl s, subseq recs (table_of m) -> 0 < nu < w32 ->
  make_decoder uids annos nu incl excl recs = Ok s ->
  forall A U ic v, ic < 2 ^ 64 -> decode (A := A) (U := U) s ic = Ok v ->
  d_dsize (i_di v) = 0 \/ has_size m ic (d_dsize (i_di v)) \/
  (d_dsize (i_di v) = 8 /\ exists p, In p (prefetch_r m) /\ fits p ic).
Proof. intros m recs uids annos nu incl excl s SB HN HD A U ic v BD DC. exact (C62_size_lemma m recs uids annos nu incl excl s SB HN HD A U ic v BD DC). Qed.
Print Assumptions C62_size.
(** C62.  With the whole table, isInstType tells for every decoded opcode whether it is of the
    class.  Missing: the opcodes [omitted], which are never flagged. *)
Theorem C62_whole_partial : forall m recs uids annos nu incl excl s, subseq recs (table_of m) -> 0 < nu < w32 ->
  make_decoder uids annos nu incl excl recs = Ok s -> kept incl excl recs = table_of m ->
  forall A U ic v, ic < 2 ^ 64 -> decode (A := A) (U := U) s ic = Ok v ->
  forall c, In c (classes m) -> (is_inst_type (i_meta v) (2 ^ cl_bit c) = true <-> in_class c ic /\ ~ omitted c ic).
Proof. intros m recs uids annos nu incl excl s SB HN HD WH A U ic v BD DC. exact (C62_full_lemma m recs uids annos nu incl excl s SB HN HD A U ic v BD DC WH). Qed.
Print Assumptions C62_whole_partial.
(** C62.  And the data size is the size of the memory access.  Missing: prefetch.r. *)
Theorem C62_whole_size_partial : forall m recs uids annos nu incl excl s, subseq recs (table_of m) -> 0 < nu < w32 ->
  make_decoder uids annos nu incl excl recs = Ok s -> kept incl excl recs = table_of m ->
  forall A U ic v, ic < 2 ^ 64 -> decode (A := A) (U := U) s ic = Ok v ->
  ~ (exists p, In p (prefetch_r m) /\ fits p ic) ->
  forall n, n <> 0 -> (d_dsize (i_di v) = n <-> has_size m ic n).
Proof.
  intros m recs uids annos nu incl excl s SB HN HD WH A U ic v BD DC NP n NZ.
  exact (C62_full_size_lemma m recs uids annos nu incl excl s SB HN HD A U ic v BD DC WH n NZ NP).
Qed.
Print Assumptions C62_whole_size_partial.
(** Every pattern left out is needed: the RV64 table decodes an opcode of the class that fits it
    and is not flagged.  And prefetch.r has a size though it accesses no data. *)
Theorem C62_omitted_refuted : exists s, make_decoder [] [] 1 [] [] rv64 = Ok s /\
  (forall c p, In c (classes Rv64) -> In p (cl_omitted c) -> exists ic v, ic < 2 ^ 64 /\ decode (A := unit) (U := unit) s ic = Ok v /\
     fits p ic /\ in_class c ic /\ is_inst_type (i_meta v) (2 ^ cl_bit c) = false) /\
  (exists ic v, decode (A := unit) (U := unit) s ic = Ok v /\ d_dsize (i_di v) = 8 /\ forall n, ~ has_size Rv64 ic n).
Proof. exact C62_omitted_lemma. Qed.
Print Assumptions C62_omitted_refuted.
(** A part of a table may decode an opcode of the class as something else. *)
Theorem C62_part_refuted : exists recs s ic v c, subseq recs rv64 /\ make_decoder [] [] 1 [] [] recs = Ok s /\ decode (A := unit) (U := unit) s ic = Ok v /\
  In c (classes Rv64) /\ in_class c ic /\ ~ omitted c ic /\ is_inst_type (i_meta v) (2 ^ cl_bit c) = false.
Proof. exact C62_part_lemma. Qed.
Print Assumptions C62_part_refuted.
(** lw, sc.d, amoadd.w, c.jalr x10, c.sw and vle8.v of a part of the RV64 table. *)
Example C62_ex : exists s, subseq mixed rv64 /\ make_decoder [] [] 1 [] [] mixed = Ok s /\
  Forall2 (fun ic x => exists v, decode (A := unit) (U := unit) s ic = Ok v /\ flags Rv64 v = fst x /\ d_dsize (i_di v) = snd x) mixed_ops
    [(["load"], 32); (["store"; "atomic"], 64); (["load"; "atomic"], 32); (["branch"; "jalr"], 0); (["store"], 32); (["load"; "vector"; "unit_stride"], 8)]%string.
Proof. exact C62_case. Qed.
(** The whole table: some opcode is decoded and of some class. *)
Example C62_whole_ex : exists s ic v, make_decoder [] [] 1 [] [] rv64 = Ok s /\ kept [] [] rv64 = table_of Rv64 /\ ic < 2 ^ 64 /\
  decode (A := unit) (U := unit) s ic = Ok v /\ flags Rv64 v <> [].
Proof. exact C62_whole_case. Qed.
