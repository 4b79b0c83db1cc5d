(** Claim C49: the shipped tables say what the RISC-V manuals say.  S_Manual and S_Manual32 list
    the instructions as the manuals give them; [book_of T B]: table [T] (all RV64 files, or the
    RV32 files with isa_rv32cf.json or isa_rv32zclsd.json) and the list for it.  Whatever part of
    the table is configured (fewer files or records, tag filters): *)
From Coq Require Import NArith List Bool String.
From Verif Require Import M_Base M_Field M_Forms M_Meta M_OperandInfo M_Extract M_Decoded M_Trie M_Builder M_DTable.
From Verif Require Import S_Bits S_Table S_Shipped S_Manual S_Manual32 S_Sdsp L_ManualClaims L_ManualTie.
Import ListNotations.
Local Open Scope N_scope.

(** C49.  A decoded opcode has the bit pattern of the instruction it is reported as, and no other
    configured instruction has a narrower pattern that it fits; or it is reported as an
    instruction of no manual and is no opcode of one.  Missing: the names [bk_patterns]. *)
Theorem C49_instruction_partial : forall T B recs uids annos nu incl excl s, book_of T B -> subseq recs T -> 0 < nu < w32 ->
  make_decoder uids annos nu incl excl recs = Ok s ->
  forall A U ic v, decode (A := A) (U := U) s ic = Ok v -> ~ In (d_mnemonic (i_di v)) (bk_patterns B) ->
  (exists m, mi_name m = d_mnemonic (i_di v) /\ closest (bk_rows B) (kept incl excl recs) m ic) \/
  (~ in_manual (bk_rows B) (d_mnemonic (i_di v)) /\ forall m, In m (bk_rows B) -> ~ fits (mi_pat m) ic).
Proof. intros T B recs uids annos nu incl excl s BO S HN HD A U ic v. exact (C49_instruction_lemma T B BO recs uids annos nu incl excl s S HN HD A U ic v). Qed.
Print Assumptions C49_instruction_partial.
(** C49.  Its operands (register files, numbers, order, which ones are stored) and its immediate
    are those of the manual.  Missing: the names [bk_operands]; for
    the register pairs see C49_pairs_partial. *)
Theorem C49_operands_partial : forall T B recs uids annos nu incl excl s, book_of T B -> subseq recs T -> 0 < nu < w32 ->
  make_decoder uids annos nu incl excl recs = Ok s ->
  forall A U ic v, ic < 2 ^ 64 -> decode (A := A) (U := U) s ic = Ok v ->
  ~ In (d_mnemonic (i_di v)) (bk_operands B) -> ~ In (d_mnemonic (i_di v)) (bk_pairs B) ->
  forall m, In m (bk_rows B) -> mi_name m = d_mnemonic (i_di v) -> fits (mi_pat m) ic -> reports m ic (i_di v).
Proof. intros T B recs uids annos nu incl excl s BO S HN HD A U ic v L. exact (C49_operands_lemma T B BO recs uids annos nu incl excl s S HN HD A U ic L v). Qed.
Print Assumptions C49_operands_partial.
(** The names left out are wrong, every one of them: some opcode is reported as an instruction
    whose pattern it does not fit; some opcode is reported with other operands. *)
Theorem C49_every_row_refuted : forall T B, book_of T B -> exists s, make_decoder [] [] 1 [] [] T = Ok s /\
  (forall n, In n (bk_patterns B) -> exists ic v, decode (A := unit) (U := unit) s ic = Ok v /\ d_mnemonic (i_di v) = n /\
     forall m, In m (bk_rows B) -> mi_name m = n -> ~ fits (mi_pat m) ic) /\
  (forall n, In n (bk_operands B) -> exists ic v m, decode (A := unit) (U := unit) s ic = Ok v /\ d_mnemonic (i_di v) = n /\
     In m (bk_rows B) /\ mi_name m = n /\ fits (mi_pat m) ic /\ ~ reports m ic (i_di v)).
Proof. exact C49_odd_lemma. Qed.
Print Assumptions C49_every_row_refuted.
(** C49.  An opcode is unknown only if no configured instruction has it. *)
Theorem C49_unknown : forall T B recs uids annos nu incl excl s, book_of T B -> subseq recs T ->
  make_decoder uids annos nu incl excl recs = Ok s ->
  forall A U ic, decode (A := A) (U := U) s ic = Throw EUnknownOpcode ->
  forall m, In m (bk_rows B) -> provided (kept incl excl recs) (mi_name m) -> ~ fits (mi_pat m) ic.
Proof. intros T B recs uids annos nu incl excl s BO S HD A U ic. exact (C49_unknown_lemma T B BO recs uids annos nu incl excl s S HD A U ic). Qed.
Print Assumptions C49_unknown.
(** C49.  An opcode is illegal only if the manual reserves it or it belongs to an instruction
    that is not configured. *)
Theorem C49_illegal : forall T B recs uids annos nu incl excl s, book_of T B -> subseq recs T ->
  make_decoder uids annos nu incl excl recs = Ok s ->
  forall A U ic, ic < 2 ^ 64 -> decode (A := A) (U := U) s ic = Throw EIllegalOpcode ->
  (exists p, In p (bk_reserved B) /\ fits p ic) \/
  exists m, In m (bk_rows B) /\ fits (mi_pat m) ic /\ ~ provided (kept incl excl recs) (mi_name m).
Proof. intros T B recs uids annos nu incl excl s BO S HD A U ic L. exact (C49_illegal_lemma T B BO recs uids annos nu incl excl s S HD A U ic L). Qed.
Print Assumptions C49_illegal.
(** C49.  With the whole table: exactly the reserved opcodes are illegal -- but for c.ldsp to x0
    of RV32, which is reserved too. *)
Theorem C49_reserved_partial : forall T B uids annos nu s, book_of T B -> 0 < nu < w32 -> make_decoder uids annos nu [] [] T = Ok s ->
  forall A U ic, ic < 2 ^ 64 -> (decode (A := A) (U := U) s ic = Throw EIllegalOpcode <-> exists p, In p (bk_reserved B) /\ fits p ic).
Proof. exact C49_reserved_lemma. Qed.
Print Assumptions C49_reserved_partial.
Theorem C49_ldsp_x0_refuted : exists s ic v, make_decoder [] [] 1 [] [] rv32p = Ok s /\ fits ldsp_x0 ic /\
  decode (A := unit) (U := unit) s ic = Ok v.
Proof. exact C49_ldsp_lemma. Qed.
Print Assumptions C49_ldsp_x0_refuted.
(** C49.  An opcode of a configured instruction (and of no narrower one) is decoded as that
    instruction, or is reserved; "addi rd, x0, 0" fits li and mv alike, and is li where both are
    configured.  Missing: opcodes reported under one of [bk_patterns]; the opcodes of
    C38_pair_refuted. *)
Theorem C49_complete_partial : forall T B recs uids annos nu incl excl s, book_of T B -> subseq recs T -> 0 < nu < w32 ->
  make_decoder uids annos nu incl excl recs = Ok s ->
  forall A U ic m, ic < 2 ^ 64 -> (T = rv32p -> ~ sdsp_x0 ic) ->
  provided (kept incl excl recs) (mi_name m) -> closest (bk_rows B) (kept incl excl recs) m ic ->
  (exists v, decode (A := A) (U := U) s ic = Ok v /\
     (d_mnemonic (i_di v) = mi_name m \/ In (d_mnemonic (i_di v)) (bk_patterns B) \/
      mi_name m = "mv"%string /\ d_mnemonic (i_di v) = "li"%string)) \/
  (decode (A := A) (U := U) s ic = Throw EIllegalOpcode /\
     ((exists p, In p (bk_reserved B) /\ fits p ic) \/
      exists m, In m (bk_rows B) /\ fits (mi_pat m) ic /\ ~ provided (kept incl excl recs) (mi_name m))).
Proof. intros T B recs uids annos nu incl excl s BO S HN HD A U ic m. exact (complete_lemma T B BO recs uids annos nu incl excl s S HN HD A U ic m). Qed.
Print Assumptions C49_complete_partial.
(** C49.  Where li is configured, no opcode of li is reported as mv. *)
Theorem C49_tie : forall T B recs uids annos nu incl excl s, book_of T B -> subseq recs T -> 0 < nu < w32 ->
  make_decoder uids annos nu incl excl recs = Ok s ->
  forall A U ic v m, decode (A := A) (U := U) s ic = Ok v -> provided (kept incl excl recs) "li" ->
  In m (bk_rows B) -> mi_name m = "li"%string -> fits (mi_pat m) ic -> d_mnemonic (i_di v) <> "mv"%string.
Proof. intros T B recs uids annos nu incl excl s BO S HN HD A U ic v m. exact (tie_lemma T B BO recs uids annos nu incl excl s S HN HD A U ic v m). Qed.
Print Assumptions C49_tie.
(** addi a0,x0,0 fits both; addi a0,a1,0 is mv. *)
Example C49_tie_ex : exists s v w, make_decoder [] [] 1 [] [] rv64 = Ok s /\
  decode (A := unit) (U := unit) s 0x00000513 = Ok v /\ d_mnemonic (i_di v) = "li"%string /\
  decode (A := unit) (U := unit) s 0x00058513 = Ok w /\ d_mnemonic (i_di w) = "mv"%string.
Proof. exact tied_case. Qed.
Example C49_tie_rows : provided rv64 "li" /\ forall n, In n ["li"; "mv"]%string -> exists m, In m manual64 /\ mi_name m = n /\ fits (mi_pat m) 0x00000513.
Proof. exact tied_rows. Qed.
(** All RV64 files: add a0,a1,a0; c.ebreak, which also fits c.jalr; c.jr x0; an unknown opcode. *)
Example C49_ex : exists s v w, make_decoder [] [] 1 [] [] rv64 = Ok s /\
  decode (A := unit) (U := unit) s 0x00A58533 = Ok v /\ d_mnemonic (i_di v) = "add"%string /\
  decode (A := unit) (U := unit) s 0x9002 = Ok w /\ d_mnemonic (i_di w) = "c.ebreak"%string /\
  decode (A := unit) (U := unit) s 0x8002 = Throw EIllegalOpcode /\ decode (A := unit) (U := unit) s 0x7F = Throw EUnknownOpcode /\
  ~ In "add"%string odd_patterns /\ ~ In "add"%string odd_operands /\ ~ In "c.ebreak"%string odd_patterns /\
  (exists m, mi_name m = "c.jalr"%string /\ In m manual64 /\ fits (mi_pat m) 0x9002) /\
  (exists m, mi_name m = "c.ebreak"%string /\ provided rv64 (mi_name m) /\ closest manual64 rv64 m 0x9002).
Proof. exact C49_case. Qed.
