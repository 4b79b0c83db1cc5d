(** Claim C38: the shipped instruction tables.  [rv64] are all RV64 files, [rv32f] and [rv32p]
    the RV32 files with either isa_rv32cf.json or isa_rv32zclsd.json. *)
From Coq Require Import NArith List Bool String Permutation.
From Verif Require Import M_Base M_Field M_Forms M_Meta M_OperandInfo M_Extract M_Decoded M_Trie M_Builder M_DTable.
From Verif Require Import S_Bits S_Trie S_Agree S_Table S_Shipped S_Sdsp L_Shipped L_Claims L_Sdsp.
Import ListNotations.
Local Open Scope N_scope.

(** C38.  Every shipped table loads. *)
Theorem C38_loads : forall T, shipped T -> exists s, make_decoder [] [] 1 [] [] T = Ok s.
Proof. exact C38_loads_lemma. Qed.
Print Assumptions C38_loads.
Example C38_loads_ex : (Nat.ltb 800 (List.length rv64) && Nat.ltb 200 (List.length rv32f))%bool = true.
Proof. vm_compute. reflexivity. Qed.

(** C38.  Every mnemonic a shipped table lists (overlays included) is what some opcode decodes to. *)
Theorem C38_reaches : forall T uids annos nu s, shipped T -> 0 < nu < w32 -> make_decoder uids annos nu [] [] T = Ok s ->
  forall A U r mn, In r T -> r_mn r = Some mn ->
  exists ic v, decode (A := A) (U := U) s ic = Ok v /\ d_mnemonic (i_di v) = mn.
Proof. exact C38_reaches_lemma. Qed.
Print Assumptions C38_reaches.
(** C38 as stated (each record's own stencil) is false: the stencil of c.jalr is c.ebreak. *)
Theorem C38_own_stencil_refuted : exists s v, make_decoder [] [] 1 [] [] rv64 = Ok s /\
  (exists r, In r rv64 /\ is_inst r "c.jalr" /\ decode (A := unit) (U := unit) s (r_stencil r) = Ok v) /\
  d_mnemonic (i_di v) = "c.ebreak"%string /\ exists r', In r' rv64 /\ is_inst r' "c.ebreak".
Proof. exact C38_own_lemma. Qed.
Print Assumptions C38_own_stencil_refuted.

(** C38.  Whatever part of a shipped table is configured (fewer files or records, tag filters):
    the table is well formed, and every decode answers what the configured records prescribe
    (C42, hence C02-C04, C07, C14, C19). *)
Theorem C38_well_formed : forall T recs incl excl, shipped T -> subseq recs T -> well_formed (kept incl excl recs).
Proof. intros T recs incl excl. exact (shipped_kept_wf incl excl recs T). Qed.
Print Assumptions C38_well_formed.
Theorem C38_decodes : forall T recs uids annos nu incl excl s, shipped T -> subseq recs T -> 0 < nu < w32 ->
  make_decoder uids annos nu incl excl recs = Ok s ->
  forall A U ic, decodes (kept incl excl recs) (lookup_uid s) ic (decode (A := A) (U := U) s ic).
Proof. exact C38_decodes_lemma. Qed.
Print Assumptions C38_decodes.
(** C38.  No opcode makes such a decoder fail an assertion, do something undefined or throw
    anything but UnknownOpcode and IllegalOpcode -- but for the opcodes of c.sdsp x0 when
    isa_rv32zclsd.json is loaded. *)
Theorem C38_total_partial : forall T recs uids annos nu incl excl s, shipped T -> subseq recs T -> 0 < nu < w32 ->
  make_decoder uids annos nu incl excl recs = Ok s ->
  forall A U ic, ic < 2 ^ 64 -> (T = rv32p -> ~ sdsp_x0 ic) ->
  match decode (A := A) (U := U) s ic with
  | Ok v => lists_agree (oi_elems (d_src_oi (i_di v))) (d_sources (i_di v)) (d_srcT (i_di v)) /\
            lists_agree (oi_elems (d_dst_oi (i_di v))) (d_dests (i_di v)) (d_dstT (i_di v))
  | Throw e => e = EUnknownOpcode \/ e = EIllegalOpcode
  | AssertFail | UB => False
  end.
Proof. exact total_lemma. Qed.
Print Assumptions C38_total_partial.
(** The base files alone, without the records tagged "m". *)
Example C38_part_ex : exists recs excl s, subseq recs rv64 /\ kept [] excl recs <> recs /\ kept [] excl recs <> [] /\
  make_decoder [] [] 1 [] excl recs = Ok s.
Proof. exact C38_part_case. Qed.
(** The exception is real: c.sdsp of x0 (0xE002), a legal instruction. *)
Theorem C38_pair_refuted : exists s, make_decoder [] [] 1 [] [] rv32p = Ok s /\ decode (A := unit) (U := unit) s 0xE002 = AssertFail.
Proof. exact C38_pair_lemma. Qed.
Print Assumptions C38_pair_refuted.
(** isa_rv32cf.json and isa_rv32zclsd.json are accepted together although they use the same
    opcodes; which one decodes depends on their order. *)
Theorem C38_both_refuted : exists s s' v v', make_decoder [] [] 1 [] [] rv32_both = Ok s /\ make_decoder [] [] 1 [] [] rv32_both_swapped = Ok s' /\
  decode (A := unit) (U := unit) s 0x6000 = Ok v /\ d_mnemonic (i_di v) = "c.flw"%string /\
  decode (A := unit) (U := unit) s' 0x6000 = Ok v' /\ d_mnemonic (i_di v') = "c.ld"%string.
Proof. exact C38_both_lemma. Qed.
Print Assumptions C38_both_refuted.

(** C38.  The records of a shipped table may come in any order that loads and has no c.ebreak
    before a c.jalr (P_Decode, C05_every_order_refuted, for the other orders). *)
Theorem C38_order_partial : forall T recs uids annos nu uids' annos' nu' s s', shipped T -> Permutation T recs ->
  ForallOrdPairs (fun e e' => ~ (en_mn e = "c.ebreak"%string /\ en_mn e' = "c.jalr"%string)) (encodings recs) ->
  0 < nu < w32 -> 0 < nu' < w32 ->
  make_decoder uids annos nu [] [] T = Ok s -> make_decoder uids' annos' nu' [] [] recs = Ok s' ->
  forall A U ic, same_answer (decode (A := A) (U := U) s ic) (decode (A := A) (U := U) s' ic).
Proof. exact C38_order_lemma. Qed.
Print Assumptions C38_order_partial.
(** The RV64 table with two files swapped. *)
Example C38_order_ex : exists recs s', recs <> rv64 /\ Permutation rv64 recs /\
  ForallOrdPairs (fun e e' => ~ (en_mn e = "c.ebreak"%string /\ en_mn e' = "c.jalr"%string)) (encodings recs) /\
  make_decoder [] [] 1 [] [] recs = Ok s'.
Proof. exact C38_order_case. Qed.
