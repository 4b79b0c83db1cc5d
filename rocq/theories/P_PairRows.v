(** Claims C37, C49 and C69 for the RV32 loads and stores of register pairs (ld, sd, c.ld, c.sd, c.ldsp,
    c.sdsp). *)
From Coq Require Import NArith ZArith List Bool String.
From Verif Require Import M_Base M_OperandInfo M_Extract M_Decoded M_Builder M_DTable.
From Verif Require Import S_Bits S_Table S_Shipped S_Manual S_Manual32 S_Expand S_PairRows S_ExpandPairs L_PairRows L_ExpandPairs L_PairCases L_CloneCases.
Import ListNotations.
Local Open Scope N_scope.

(** C49.  A decoded load or store of a register pair has the address register, the two registers
    and the immediate of the manual.  Missing: sd does not mark the registers it stores. *)
Theorem C49_pairs_partial : forall T B recs uids annos nu incl excl s, book_of T B -> subseq recs T -> 0 < nu < w32 ->
  make_decoder uids annos nu incl excl recs = Ok s ->
  forall A U ic v, ic < 2 ^ 64 -> decode (A := A) (U := U) s ic = Ok v -> In (d_mnemonic (i_di v)) (bk_pairs B) ->
  exists p, In p pair_manual /\ pi_name p = d_mnemonic (i_di v) /\ pair_reports (negb (String.eqb (pi_name p) "sd")) p ic (i_di v).
Proof. exact C49_pairs_lemma. Qed.
Print Assumptions C49_pairs_partial.
Theorem C49_sd_marks_refuted : exists s ic v p, make_decoder [] [] 1 [] [] rv32p = Ok s /\ decode (A := unit) (U := unit) s ic = Ok v /\
  d_mnemonic (i_di v) = "sd"%string /\ In p pair_manual /\ pi_name p = "sd"%string /\ place_val (pi_first p) ic <> 0 /\ ~ pair_reports true p ic (i_di v).
Proof. exact C49_sd_lemma. Qed.
Print Assumptions C49_sd_marks_refuted.
(** c.sd x10, 0(x8) and ld x10, 0(x8). *)
Example C49_pairs_ex : exists s v w, make_decoder [] [] 1 [] [] rv32p = Ok s /\
  book_of rv32p (mkBook (m_shared ++ m_shifts ++ m_zilsd ++ m_zclsd) reserved32p odd_patterns32 odd_operands32 pairs32) /\
  decode (A := unit) (U := unit) s 0xE008 = Ok v /\ d_mnemonic (i_di v) = "c.sd"%string /\ In "c.sd"%string pairs32 /\
  map shown (oi_elems (d_src_oi (i_di v))) = [(Some BX, 8, false, false); (Some BX, 10, true, false); (Some BX, 11, true, false)] /\
  decode (A := unit) (U := unit) s 0x43503 = Ok w /\ d_mnemonic (i_di w) = "ld"%string /\ In "ld"%string pairs32 /\
  map shown (oi_elems (d_dst_oi (i_di w))) = [(Some BX, 10, false, false); (Some BX, 11, false, false)].
Proof. exact C49_pairs_case. Qed.
(** C69.  The compressed load of a register pair is decoded like the load it abbreviates.  The
    compressed store has the registers and the offset of the store it abbreviates; missing: its
    marks, for which this is false. *)
Theorem C69_pairs_partial : forall uids annos nu s, 0 < nu < w32 -> make_decoder uids annos nu [] [] rv32p = Ok s ->
  forall A U ic v ps, ic < 2 ^ 64 -> decode (A := A) (U := U) s ic = Ok v -> In (d_mnemonic (i_di v), ps) zclsd_expansions ->
  exists w, decode (A := A) (U := U) s (expanded ps ic) = Ok w /\ alike_but_marks v w /\ (In (d_mnemonic (i_di v)) zclsd_loads -> alike v w).
Proof. exact C69_pairs_lemma. Qed.
Print Assumptions C69_pairs_partial.
Theorem C69_marks_refuted : exists s ic v ps w, make_decoder [] [] 1 [] [] rv32p = Ok s /\ decode (A := unit) (U := unit) s ic = Ok v /\
  In (d_mnemonic (i_di v), ps) zclsd_expansions /\ decode (A := unit) (U := unit) s (expanded ps ic) = Ok w /\ ~ alike v w.
Proof. exact C69_marks_lemma. Qed.
Print Assumptions C69_marks_refuted.
Example C69_pairs_ex : exists s v w, make_decoder [] [] 1 [] [] rv32p = Ok s /\ decode (A := unit) (U := unit) s 0x6008 = Ok v /\
  In (d_mnemonic (i_di v), c_load8 "011" LOAD) zclsd_expansions /\ In (d_mnemonic (i_di v)) zclsd_loads /\ expanded (c_load8 "011" LOAD) 0x6008 = 0x43503 /\
  decode (A := unit) (U := unit) s 0x43503 = Ok w /\ alike v w.
Proof. exact C69_pairs_case. Qed.

(** C37 is false of records with fixed fields (there are none among the shipped pair loads and stores): such a
    record gets a clone of the extractor it asks for, and the clone of a pair load is the load of
    one register.  It reports x10 alone, and accepts the odd register x11. *)
Theorem C37_fixed_refuted : exists recs s v w, map rec_class recs = [Ok X_I_load_pair] /\ well_formed recs /\
  make_decoder [] [] 1 [] [] recs = Ok s /\
  decode (A := unit) (U := unit) s 0x13503 = Ok v /\ map e_val (oi_elems (d_dst_oi (i_di v))) = [10] /\
  decode (A := unit) (U := unit) s 0x13583 = Ok w /\ map e_val (oi_elems (d_dst_oi (i_di w))) = [11].
Proof. exact C37_fixed_lemma. Qed.
Print Assumptions C37_fixed_refuted.
