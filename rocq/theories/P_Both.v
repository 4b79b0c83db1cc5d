(** Claim C71: an instruction that two tables define alike is reported alike by both, and so the
    RV32 and the RV64 tables of the library report the instructions they share alike. *)
From Coq Require Import NArith ZArith List Bool String.
From Verif Require Import M_Base M_OperandInfo M_Extract M_Decoded M_Builder M_DTable.
From Verif Require Import S_Bits S_Table S_Shipped S_Both S_BothNames L_Both L_BothShipped L_BothShifts L_BothCases L_BothRenamed.
Import ListNotations.
Local Open Scope N_scope.

(** Two decoders for any two tables, with any further instructions, lists of UIDs and annotations:
    if both decode an opcode as an instruction that the tables define alike, they report the same. *)
Theorem C71_alike : forall uids uids' annos annos' nu nu' incl excl incl' excl' recs recs' s s' ic,
  0 < nu < w32 -> 0 < nu' < w32 ->
  make_decoder uids annos nu incl excl recs = Ok s -> make_decoder uids' annos' nu' incl' excl' recs' = Ok s' ->
  well_formed (kept incl excl recs) -> well_formed (kept incl' excl' recs') ->
  forall A U v v', decode (A := A) (U := U) s ic = Ok v -> decode (A := A) (U := U) s' ic = Ok v' ->
  d_mnemonic (i_di v) = d_mnemonic (i_di v') -> defined_alike (kept incl excl recs) (kept incl' excl' recs') (d_mnemonic (i_di v)) ->
  same_answer (Ok v) (Ok v').
Proof. exact (@both_alike). Qed.
Print Assumptions C71_alike.

(** Any parts of any two of the shipped tables. *)
Theorem C71_shipped : forall T T' recs recs' uids uids' annos annos' nu nu' incl excl incl' excl' s s',
  shipped T -> shipped T' -> subseq recs T -> subseq recs' T' -> 0 < nu < w32 -> 0 < nu' < w32 ->
  make_decoder uids annos nu incl excl recs = Ok s -> make_decoder uids' annos' nu' incl' excl' recs' = Ok s' ->
  forall A U ic v v', decode (A := A) (U := U) s ic = Ok v -> decode (A := A) (U := U) s' ic = Ok v' ->
  d_mnemonic (i_di v) = d_mnemonic (i_di v') -> ~ In (d_mnemonic (i_di v)) (shifts ++ pairs) -> same_answer (Ok v) (Ok v').
Proof. exact shipped_alike. Qed.
Print Assumptions C71_shipped.

(** The shifts, which the tables describe by different forms, have the same operands, immediate,
    type and special fields.  Missing: the text, which is different. *)
Theorem C71_shifts_partial : forall T T' recs recs' uids uids' annos annos' nu nu' incl excl incl' excl' s s',
  shipped T -> shipped T' -> subseq recs T -> subseq recs' T' -> 0 < nu < w32 -> 0 < nu' < w32 ->
  make_decoder uids annos nu incl excl recs = Ok s -> make_decoder uids' annos' nu' incl' excl' recs' = Ok s' ->
  forall A U ic v v', decode (A := A) (U := U) s ic = Ok v -> decode (A := A) (U := U) s' ic = Ok v' ->
  d_mnemonic (i_di v) = d_mnemonic (i_di v') -> In (d_mnemonic (i_di v)) shifts ->
  i_icode v = i_icode v' /\ but_uid (i_di v) = but_uid (i_di v') /\ i_meta v = i_meta v' /\
  forall f, x_spec (i_x v) f ic = x_spec (i_x v') f ic.
Proof. exact shipped_shifts. Qed.
Print Assumptions C71_shifts_partial.

(** c.addi x1, 1 and nop are told alike by the two; slli x1, x1, 5 is a shift. *)
Example C71_ex : exists s s', subseq (some_of rv64) rv64 /\ subseq (some_of rv32p) rv32p /\
  make_decoder [] [] 1 [] [] (some_of rv64) = Ok s /\ make_decoder [] [] 1 [] [] (some_of rv32p) = Ok s' /\
  (exists v v', decode (A := unit) (U := unit) s 0x85 = Ok v /\ decode (A := unit) (U := unit) s' 0x85 = Ok v' /\
    d_mnemonic (i_di v) = "c.addi"%string /\ d_mnemonic (i_di v') = "c.addi"%string /\ ~ In "c.addi"%string (shifts ++ pairs)) /\
  (exists v v', decode (A := unit) (U := unit) s 0x13 = Ok v /\ decode (A := unit) (U := unit) s' 0x13 = Ok v' /\
    d_mnemonic (i_di v) = "nop"%string /\ d_mnemonic (i_di v') = "nop"%string /\ ~ In "nop"%string (shifts ++ pairs)) /\
  (exists v v', decode (A := unit) (U := unit) s 0x509093 = Ok v /\ decode (A := unit) (U := unit) s' 0x509093 = Ok v' /\
    d_mnemonic (i_di v) = "slli"%string /\ d_mnemonic (i_di v') = "slli"%string /\ In "slli"%string shifts).
Proof. exact C71_case. Qed.

(** The exclusions are needed.  clz x1, x1 is written with a shift amount in RV32, which it does
    not have. *)
Theorem C71_text_refuted : exists recs recs' s s' ic v v', subseq recs rv64 /\ subseq recs' rv32p /\
  make_decoder [] [] 1 [] [] recs = Ok s /\ make_decoder [] [] 1 [] [] recs' = Ok s' /\
  decode (A := unit) (U := unit) s ic = Ok v /\ decode (A := unit) (U := unit) s' ic = Ok v' /\
  d_mnemonic (i_di v) = "clz"%string /\ d_mnemonic (i_di v') = "clz"%string /\
  info_dasm v = Ok ("clz" ++ tab ++ "x1,x1")%string /\ info_dasm v' = Ok ("clz" ++ tab ++ "x1,x1, SHAMTW=0")%string.
Proof. exact C71_text_lemma. Qed.
Print Assumptions C71_text_refuted.
(** ld loads one register in RV64 and a pair of registers in RV32. *)
Theorem C71_pairs_refuted : exists recs recs' s s' ic v v', subseq recs rv64 /\ subseq recs' rv32p /\
  make_decoder [] [] 1 [] [] recs = Ok s /\ make_decoder [] [] 1 [] [] recs' = Ok s' /\
  decode (A := unit) (U := unit) s ic = Ok v /\ decode (A := unit) (U := unit) s' ic = Ok v' /\
  d_mnemonic (i_di v) = "ld"%string /\ d_mnemonic (i_di v') = "ld"%string /\
  List.length (oi_elems (d_dst_oi (i_di v))) = 1%nat /\ List.length (oi_elems (d_dst_oi (i_di v'))) = 2%nat.
Proof. exact C71_pairs_lemma. Qed.
Print Assumptions C71_pairs_refuted.

(** The shipped RV64 tables and either set of the shipped RV32 tables, all of them configured: an
    opcode that both decode has the same name in both, but for the listed pairs of names. *)
Theorem C71_names : forall T uids uids' annos annos' nu nu' s s', T = rv32f \/ T = rv32p -> 0 < nu < w32 -> 0 < nu' < w32 ->
  make_decoder uids annos nu [] [] rv64 = Ok s -> make_decoder uids' annos' nu' [] [] T = Ok s' ->
  forall A U ic v v', decode (A := A) (U := U) s ic = Ok v -> decode (A := A) (U := U) s' ic = Ok v' ->
  d_mnemonic (i_di v) = d_mnemonic (i_di v') \/ In (d_mnemonic (i_di v), d_mnemonic (i_di v')) renamed.
Proof. exact shipped_names. Qed.
Print Assumptions C71_names.
(** Each of the listed pairs is the two names of some opcode. *)
Theorem C71_renamed : exists s s', make_decoder [] [] 1 [] [] rv64 = Ok s /\ make_decoder [] [] 1 [] [] rv32f = Ok s' /\
  forall n m, In (n, m) renamed -> exists ic v v', decode (A := unit) (U := unit) s ic = Ok v /\ decode (A := unit) (U := unit) s' ic = Ok v' /\
    d_mnemonic (i_di v) = n /\ d_mnemonic (i_di v') = m.
Proof. exact shipped_renamed. Qed.
Print Assumptions C71_renamed.
(** No part of a shipped table knows an opcode that the RV64 tables do not know. *)
Theorem C71_known : forall T recs uids uids' annos annos' nu nu' incl excl s s', shipped T -> subseq recs T ->
  make_decoder uids annos nu [] [] rv64 = Ok s -> make_decoder uids' annos' nu' incl excl recs = Ok s' ->
  forall A U ic, decode (A := A) (U := U) s ic = Throw EUnknownOpcode -> decode (A := A) (U := U) s' ic = Throw EUnknownOpcode.
Proof. exact shipped_known. Qed.
Print Assumptions C71_known.
(** 0xB is unknown to both; addw x1, x1, x1 to RV32 only. *)
Example C71_known_ex : exists s s', make_decoder [] [] 1 [] [] rv64 = Ok s /\ make_decoder [] [] 1 [] [] rv32p = Ok s' /\
  decode (A := unit) (U := unit) s 0x0b = Throw EUnknownOpcode /\ decode (A := unit) (U := unit) s' 0x0b = Throw EUnknownOpcode /\
  decode (A := unit) (U := unit) s 0x1080bb <> Throw EUnknownOpcode /\ decode (A := unit) (U := unit) s' 0x1080bb = Throw EUnknownOpcode.
Proof. exact shipped_known_case. Qed.
