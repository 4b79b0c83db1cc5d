(** Claim C50: the line of disassembly names what was decoded.  S_Dasm says how a line is read
    ([words], [says]) and what a line of each instruction format shows ([line], [named]). *)
From Coq Require Import NArith ZArith List Bool String Ascii.
From Verif Require Import M_Base M_Field M_Forms M_Meta M_OperandInfo M_Extract M_Decoded M_Trie M_Builder M_DTable M_Direct.
From Verif Require Import S_Bits S_Table S_Shipped S_Direct S_Dasm L_Dasm L_DasmTables L_DasmTidy L_DasmTidyTables L_DasmDirect.
Import ListNotations.
Local Open Scope N_scope.

(** C50.  Every extractor: the words of the line are the name, the operands that are reported and
    shown, in assembly order with register file and number, and the further words of the format;
    nothing else.  ([as_reported]: the typings under which the line has no liberty.) *)
Theorem C50_reads : forall c ffm m ic mn u d, S_Dasm.plain mn -> decode_info mn u (ext c ffm) m ic = Ok d ->
  as_reported c ffm m ic -> nameable c ffm mn ic ->
  exists t n, x_dasm (ext c ffm) mn ic m = Ok t /\ S_Dasm.named c ffm mn ic n /\ Forall2 says (words t) (Lit n :: line c ffm ic d).
Proof. exact C50_reads_lemma. Qed.
Print Assumptions C50_reads.
(** C50.  The same line for two opcodes of an instruction: the same operands, immediate, further
    fields and number of segments -- unless the format leaves them out. *)
Theorem C50_same_text : forall c ffm m ic ic' mn u u' d d' t, S_Dasm.plain mn -> ic < 2 ^ 64 -> ic' < 2 ^ 64 ->
  decode_info mn u (ext c ffm) m ic = Ok d -> decode_info mn u' (ext c ffm) m ic' = Ok d' ->
  as_reported c ffm m ic -> as_reported c ffm m ic' -> nameable c ffm mn ic -> nameable c ffm mn ic' ->
  x_dasm (ext c ffm) mn ic m = Ok t -> x_dasm (ext c ffm) mn ic' m = Ok t ->
  (shows_operands c ffm = true -> oi_elems (d_src_oi d) = oi_elems (d_src_oi d') /\ oi_elems (d_dst_oi d) = oi_elems (d_dst_oi d')) /\
  (shows_immediate c ffm = true -> d_imm d = d_imm d' /\ d_soff d = d_soff d') /\
  further c ffm ic (d_imm d) (d_soff d) = further c ffm ic' (d_imm d') (d_soff d') /\
  (is_vmem c = true -> slice 29 3 ffm = 0 -> slice 26 2 ic = slice 26 2 ic' -> slice 29 3 ic = slice 29 3 ic').
Proof. exact C50_same_text_lemma. Qed.
Print Assumptions C50_same_text.
(** vluxei8.v with two fields per segment; the same with other registers. *)
Example C50_reads_ex : exists d d', decode_info "vluxei8.v" 1 (ext X_V_load 0) meta_rv64i 0x24000007 = Ok d /\
  decode_info "vluxei8.v" 1 (ext X_V_load 0) meta_rv64i 0x24108187 = Ok d' /\
  as_reported X_V_load 0 meta_rv64i 0x24000007 /\ nameable X_V_load 0 "vluxei8.v" 0x24000007 /\
  x_dasm (ext X_V_load 0) "vluxei8.v" 0x24000007 meta_rv64i = Ok (tabbed "vluxseg2ei8.v" "x0,x0,x0,v0.t") /\
  x_dasm (ext X_V_load 0) "vluxei8.v" 0x24108187 meta_rv64i = Ok (tabbed "vluxseg2ei8.v" "x3,x1,x1,v0.t").
Proof. exact C50_reads_case. Qed.
(** The conditions are needed: with a fixed CSR, csrrwi shows CSR 0; a segment load with the
    reserved bit 28 has no line. *)
Theorem C50_fixed_csr_refuted : exists ffm ic d t, decode_info "csrrwi" 1 (ext X_CSRI ffm) meta_rv64i ic = Ok d /\
  x_dasm (ext X_CSRI ffm) "csrrwi" ic meta_rv64i = Ok t /\ In "CSR=0x0"%string (words t) /\ In (Hex "CSR=0x" 0x300) (line X_CSRI ffm ic d).
Proof. exact C50_csr_case. Qed.
Print Assumptions C50_fixed_csr_refuted.
Theorem C50_mew_refuted : exists ic d, decode_info "vle8.v" 1 (ext X_V_load 0) meta_rv64i ic = Ok d /\
  x_dasm (ext X_V_load 0) "vle8.v" ic meta_rv64i = Throw EUnsupportedSpecialField.
Proof. exact C50_mew_case. Qed.
Print Assumptions C50_mew_refuted.
(** C50.  Every comma of a line stands between two words, if the instruction leaves open a register that
    the line shows. *)
Theorem C50_tidy : forall c ffm m ic mn t, S_Dasm.plain mn -> some_operand c ffm -> x_dasm (ext c ffm) mn ic m = Ok t -> tidy t = true.
Proof. exact tidy_lemma. Qed.
Print Assumptions C50_tidy.
(** Format I with a fixed destination. *)
Example C50_tidy_ex : S_Dasm.plain "prefetch.i" /\ some_operand X_I 0xF80 /\
  (x_dasm (ext X_I 0xF80) "prefetch.i" 0x00056013 meta_rv64i = Ok (tabbed "prefetch.i" "x10, +0x0")).
Proof. exact tidy_case. Qed.
(** With both registers fixed the line begins with a comma. *)
Theorem C50_comma_refuted : exists c ffm ic d t, decode_info "pause" 1 (ext c ffm) meta_rv64i ic = Ok d /\
  x_dasm (ext c ffm) "pause" ic meta_rv64i = Ok t /\ t = tabbed "pause" ", +0x10" /\ tidy t = false.
Proof. exact comma_lemma. Qed.
Print Assumptions C50_comma_refuted.

(** C50.  Any decoder made from a part of a shipped table: every decoded opcode has a line, and it
    says what was decoded.  Missing: RV32 load and store pairs whose first register is x0. *)
Theorem C50_shipped_partial : forall T recs uids annos nu incl excl s, shipped T -> subseq recs T -> 0 < nu < w32 ->
  make_decoder uids annos nu incl excl recs = Ok s ->
  forall A U ic v, decode (A := A) (U := U) s ic = Ok v -> (T = rv64 \/ first_of_pair (d_mnemonic (i_di v)) ic <> 0) ->
  exists c ffm t n, i_x v = ext c ffm /\ info_dasm v = Ok t /\ S_Dasm.named c ffm (d_mnemonic (i_di v)) ic n /\
    Forall2 says (words t) (Lit n :: line c ffm ic (i_di v)).
Proof. intros T recs uids annos nu incl excl s SH SB HN HD A U. exact (C50_shipped_lemma T SH recs uids annos nu incl excl s SB HN HD A U). Qed.
Print Assumptions C50_shipped_partial.
(** C50.  The lines of such a decoder are punctuated correctly, without exception. *)
Theorem C50_tidy_shipped : forall T recs uids annos nu incl excl s, shipped T -> subseq recs T -> 0 < nu < w32 ->
  make_decoder uids annos nu incl excl recs = Ok s ->
  forall A U ic v t, decode (A := A) (U := U) s ic = Ok v -> info_dasm v = Ok t -> tidy t = true.
Proof. exact tidy_shipped_lemma. Qed.
Print Assumptions C50_tidy_shipped.
(** C50.  Two decoded opcodes with the same line are the same instruction with the same operands
    and immediate.  Missing: the immediate of vsetvli and vsetivli, and the pairs as above. *)
Theorem C50_unambiguous_partial : forall T recs uids annos nu incl excl s, shipped T -> subseq recs T -> 0 < nu < w32 ->
  make_decoder uids annos nu incl excl recs = Ok s ->
  forall A U ic ic' v v' t, ic < 2 ^ 64 -> ic' < 2 ^ 64 ->
  decode (A := A) (U := U) s ic = Ok v -> decode (A := A) (U := U) s ic' = Ok v' ->
  (T = rv64 \/ first_of_pair (d_mnemonic (i_di v)) ic <> 0) -> (T = rv64 \/ first_of_pair (d_mnemonic (i_di v')) ic' <> 0) ->
  info_dasm v = Ok t -> info_dasm v' = Ok t ->
  d_mnemonic (i_di v) = d_mnemonic (i_di v') /\
  oi_elems (d_src_oi (i_di v)) = oi_elems (d_src_oi (i_di v')) /\ oi_elems (d_dst_oi (i_di v)) = oi_elems (d_dst_oi (i_di v')) /\
  (~ In (d_mnemonic (i_di v)) ["vsetvli"; "vsetivli"]%string -> d_imm (i_di v) = d_imm (i_di v') /\ d_soff (i_di v) = d_soff (i_di v')).
Proof. intros T recs uids annos nu incl excl s SH SB HN HD A U. exact (C50_unambiguous_lemma T SH recs uids annos nu incl excl s SB HN HD A U). Qed.
Print Assumptions C50_unambiguous_partial.
(** vsetvli shows bits 7:0 of its immediate only: one line for two opcodes with different
    immediates. *)
Theorem C50_vset_refuted : exists recs s v v' t, subseq recs rv64 /\ make_decoder [] [] 1 [] [] recs = Ok s /\
  decode (A := unit) (U := unit) s 0x00007057 = Ok v /\ decode (A := unit) (U := unit) s 0x10007057 = Ok v' /\
  d_mnemonic (i_di v) = "vsetvli"%string /\ d_mnemonic (i_di v') = "vsetvli"%string /\
  info_dasm v = Ok t /\ info_dasm v' = Ok t /\ d_imm (i_di v) <> d_imm (i_di v').
Proof. exact C50_vset_lemma. Qed.
Print Assumptions C50_vset_refuted.
(** A pair at x0: the line has x0, the operands do not. *)
Theorem C50_pair_refuted : exists recs s v w, subseq recs rv32p /\ make_decoder [] [] 1 [] [] recs = Ok s /\
  decode (A := unit) (U := unit) s 0x0002B003 = Ok v /\ info_dasm v = Ok (tabbed "ld" "x0,x5, +0x0") /\ oi_elems (d_dst_oi (i_di v)) = [] /\
  decode (A := unit) (U := unit) s 0x0002B023 = Ok w /\ info_dasm w = Ok (tabbed "sd" "x0,x5, +0x0") /\ map e_val (oi_elems (d_src_oi (i_di w))) = [5].
Proof. exact C50_pair_lemma. Qed.
Print Assumptions C50_pair_refuted.
(** Some lines; negative offsets are shown modulo 2^64. *)
Example C50_ex : exists recs s v1 v2 v3 v4, subseq recs rv64 /\ make_decoder [] [] 1 [] [] recs = Ok s /\
  decode (A := unit) (U := unit) s 0xFFF50513 = Ok v1 /\ info_dasm v1 = Ok (tabbed "addi" "x10,x10, +0xffffffffffffffff") /\
  decode (A := unit) (U := unit) s 0x0d107057 = Ok v2 /\ info_dasm v2 = Ok (tabbed "vsetvli" "x0,x0, e32,m2,ta,ma") /\
  decode (A := unit) (U := unit) s 0x24000007 = Ok v3 /\ info_dasm v3 = Ok (tabbed "vluxseg2ei8.v" "v0,x0,v0,v0.t") /\
  decode (A := unit) (U := unit) s 0xFEA53C23 = Ok v4 /\ info_dasm v4 = Ok (tabbed "sd" "x10,x10, +0xfffffffffffffff8").
Proof. exact C50_ex_lemma. Qed.

(** C50.  Instructions made without an opcode: the name, the register numbers given (destinations
    first; the data of a store before its addresses) and the immediate. *)
Theorem C50_direct : forall d mn ic m, masks_fit (dx_ops d) -> S_Dasm.plain mn ->
  exists t, x_dasm (direct_ext d) mn ic m = Ok t /\ Forall2 says (words t) (Lit mn :: direct_line d).
Proof. exact C50_direct_lemma. Qed.
Print Assumptions C50_direct.
Example C50_direct_ex :
  x_dasm (direct_ext (direct_named "sw" (Some 255) (DMaskDestStores 4 0x88 2))) "sw" 0 meta_rv64i = Ok (tabbed "sw" " 1, D:3,7, A:2 0xff") /\
  direct_line (direct_named "sw" (Some 255) (DMaskDestStores 4 0x88 2)) =
    [Dec "" 1; Dec "D:" 3; Dec "" 7; Dec "A:" 2; Hex "0x" 255] /\
  masks_fit (DMaskDestStores 4 0x88 2).
Proof. exact C50_direct_case. Qed.
