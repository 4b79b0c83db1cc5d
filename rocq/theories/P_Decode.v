(** Claims about tables and decoding (C02-C07, C14, C18, C19, C42-C44).  [make_decoder] configures
    a decoder from a list of records under tag filters; [kept] are the records the filters let
    through (C18); [decode] is getInfo on that decoder; the specification is S_Trie and S_Table. *)
From Coq Require Import NArith List Bool String Permutation.
From Verif Require Import M_Base M_Field M_Forms M_Meta M_OperandInfo M_Extract M_Decoded M_Trie M_Builder M_DTable.
From Verif Require Import S_Bits S_Trie S_Agree S_Table S_Shipped S_Reserved L_Decode L_Total L_Claims L_Reserved.
Import ListNotations.
Local Open Scope N_scope.

(** C02 (partial: "separated" tables only, see C02_unseparated_refuted).  If every encoding can be told from those before it: what is reported is listed in the
    table, its encoding matches the opcode, and the mnemonic is its own or that of an overlay
    whose bits match. *)
Theorem C02_sound_partial : forall uids annos nu incl excl recs s,
  make_decoder uids annos nu incl excl recs = Ok s -> separated (encodings (kept incl excl recs)) ->
  forall A U ic v, decode (A := A) (U := U) s ic = Ok v ->
  exists r e, listed (kept incl excl recs) r e /\ matches e ic /\ selected (encodings (kept incl excl recs)) e ic /\
    reported (kept incl excl recs) v e ic.
Proof. intros uids annos nu incl excl recs s HD HS A U ic v. exact (C02_lemma uids annos nu incl excl recs s HD HS ic v). Qed.
Print Assumptions C02_sound_partial.
Example C02_ex : exists s, make_decoder [] [] 1 [] [] small = Ok s /\ separated (encodings (kept [] [] small)) /\
  exists v, decode (A := unit) (U := unit) s 0x108093 = Ok v /\ d_mnemonic (i_di v) = "addi"%string.
Proof.
  destruct small_decoder as (s & E & _ & WF & Q). injection Q as _ _ _ _ _ Q _ _ _ _. exists s.
  split; [exact E|]. split; [exact (wf_cells _ WF)|]. exact (name_ok _ _ Q).
Qed.
(** C02 without that hypothesis is false: an accepted table of shipped records decodes an opcode
    as an instruction none of whose encodings matches it. *)
Theorem C02_unseparated_refuted : exists recs s ic v, make_decoder [] [] 1 [] [] recs = Ok s /\
  decode (A := unit) (U := unit) s ic = Ok v /\
  (forall r, In r recs -> r_mn r = Some (d_mnemonic (i_di v)) -> r_overlay r = None) /\
  forall r e, listed recs r e -> en_mn e = d_mnemonic (i_di v) -> ~ matches e ic.
Proof. exact C02_refuted_lemma. Qed.
Print Assumptions C02_unseparated_refuted.

(** C03.  An opcode is reported unknown iff no listed encoding matches it. *)
Theorem C03_complete : forall uids annos nu incl excl recs s,
  make_decoder uids annos nu incl excl recs = Ok s -> separated (encodings (kept incl excl recs)) ->
  forall A U ic, decode (A := A) (U := U) s ic = Throw EUnknownOpcode <->
    forall e, In e (encodings (kept incl excl recs)) -> ~ matches e ic.
Proof. intros uids annos nu incl excl recs s HD HS A U ic. exact (C03_lemma uids annos nu incl excl recs s HD HS ic). Qed.
Print Assumptions C03_complete.
Example C03_ex : exists s, make_decoder [] [] 1 [] [] small = Ok s /\ separated (encodings (kept [] [] small)) /\
  decode (A := unit) (U := unit) s 0x73 = Throw EUnknownOpcode /\ decode (A := unit) (U := unit) s 0x85 <> Throw EUnknownOpcode.
Proof.
  destruct small_decoder as (s & E & _ & WF & Q). injection Q as _ _ _ _ _ _ _ Q _ Q'. exists s.
  split; [exact E|]. split; [exact (wf_cells _ WF)|]. apply name_ok in Q as (v & -> & _). split; [|discriminate].
  destruct (decode s 0x73); cbn [name_of] in Q'; congruence.
Qed.

(** C04.  The encoding that is used matches, and every other one that matches is less specific. *)
Theorem C04_most_specific : forall uids annos nu incl excl recs s, 0 < nu < w32 ->
  make_decoder uids annos nu incl excl recs = Ok s -> well_formed (kept incl excl recs) ->
  forall A U ic v, decode (A := A) (U := U) s ic = Ok v ->
  exists r e, listed (kept incl excl recs) r e /\ matches e ic /\
    (forall e', In e' (encodings (kept incl excl recs)) -> matches e' ic -> e' = e \/ more_specific e e') /\
    (d_mnemonic (i_di v) = en_mn e \/ exists mask, overlay_hit (kept incl excl recs) (d_mnemonic (i_di v)) (en_mn e) mask ic).
Proof. intros uids annos nu incl excl recs s _ HD WF A U ic v. exact (C04_lemma uids annos nu incl excl recs s HD WF ic v). Qed.
Print Assumptions C04_most_specific.
(** c.jalr, c.add and c.ebreak share a cell: the opcode decides by its fixed fields. *)
Example C04_ex : exists s, make_decoder [] [] 1 [] [] small = Ok s /\ 0 < 1 < w32 /\ well_formed (kept [] [] small) /\
  map (fun ic => name_of (decode (A := unit) (U := unit) s ic)) [0x9086; 0x9082; 0x9002] = [Ok "c.add"; Ok "c.jalr"; Ok "c.ebreak"]%string.
Proof.
  destruct small_decoder as (s & E & HN & WF & Q). injection Q as Q1 Q2 _ _ _ _ _ _ Q3 _. exists s.
  split; [exact E|]. split; [exact HN|]. split; [exact WF|]. cbn [map]. now rewrite Q1, Q2, Q3.
Qed.

(** C05 (partial: see C05_every_order_refuted).  Two configurations with the same records, in any order in which every encoding can be
    told from those before it, answer every decode alike but for UIDs and annotations. *)
Theorem C05_order_partial : forall uids uids' annos annos' nu nu' incl excl recs recs' s s', 0 < nu < w32 -> 0 < nu' < w32 ->
  make_decoder uids annos nu incl excl recs = Ok s -> make_decoder uids' annos' nu' incl excl recs' = Ok s' ->
  Permutation recs recs' -> well_formed (kept incl excl recs) -> separated (encodings (kept incl excl recs')) ->
  forall A U ic, same_answer (decode (A := A) (U := U) s ic) (decode (A := A) (U := U) s' ic).
Proof.
  intros uids uids' annos annos' nu nu' incl excl recs recs' s s' HN HN' HD HD' HP WF SP A U ic.
  exact (order _ _ _ _ _ _ _ _ _ _ _ _ HN HN' HD HD' HP WF SP ic).
Qed.
Print Assumptions C05_order_partial.
Theorem C05_any_order_partial : forall uids uids' annos annos' nu nu' incl excl recs recs' s s', 0 < nu < w32 -> 0 < nu' < w32 ->
  make_decoder uids annos nu incl excl recs = Ok s -> make_decoder uids' annos' nu' incl excl recs' = Ok s' ->
  Permutation recs recs' -> well_formed (kept incl excl recs) -> unambiguous (encodings (kept incl excl recs)) ->
  forall A U ic, same_answer (decode (A := A) (U := U) s ic) (decode (A := A) (U := U) s' ic).
Proof. exact C05_unamb_lemma. Qed.
Print Assumptions C05_any_order_partial.
Example C05_ex : exists recs s s', recs <> rev recs /\ make_decoder [] [] 1 [] [] recs = Ok s /\
  make_decoder [] [] 7 [] [] (rev recs) = Ok s' /\ Permutation recs (rev recs) /\ well_formed (kept [] [] recs) /\
  unambiguous (encodings (kept [] [] recs)).
Proof. exact C05_case. Qed.
(** C05 for every accepted table is false: with two records swapped, c.add decodes as c.jalr and
    c.jalr fails an assertion. *)
Theorem C05_every_order_refuted : exists recs recs' s s' ic ic' v v', Permutation recs recs' /\ well_formed recs /\
  make_decoder [] [] 1 [] [] recs = Ok s /\ make_decoder [] [] 1 [] [] recs' = Ok s' /\
  decode (A := unit) (U := unit) s ic = Ok v /\ decode (A := unit) (U := unit) s' ic = Ok v' /\
  d_mnemonic (i_di v) = "c.add"%string /\ d_mnemonic (i_di v') = "c.jalr"%string /\
  decode (A := unit) (U := unit) s ic' <> AssertFail /\ decode (A := unit) (U := unit) s' ic' = AssertFail.
Proof. exact C05_refuted_lemma. Qed.
Print Assumptions C05_every_order_refuted.

(** C06 (partial: see C06_tie_refuted).  An instruction is reached by its own stencil unless a more specific encoding matches
    that stencil: the stencil is reserved, or is read as the instruction or one of its overlays. *)
Theorem C06_own_stencil_partial : forall uids annos nu incl excl recs s, 0 < nu < w32 ->
  make_decoder uids annos nu incl excl recs = Ok s -> well_formed (kept incl excl recs) ->
  forall A U r e, listed (kept incl excl recs) r e ->
  (forall e', In e' (encodings (kept incl excl recs)) -> matches e' (en_stencil e) -> ~ more_specific e' e) ->
  exists x, extractor_of r e x /\
    ((reserved x (en_stencil e) /\ decode (A := A) (U := U) s (en_stencil e) = Throw EIllegalOpcode) \/
     (~ reserved x (en_stencil e) /\ exists y u, reads (kept incl excl recs) r e (en_stencil e) y /\
        answers y u (en_stencil e) (decode (A := A) (U := U) s (en_stencil e)))).
Proof. intros uids annos nu incl excl recs s HN HD WF A U r e. exact (C06_own_lemma uids annos nu incl excl recs s HN HD WF r e). Qed.
Print Assumptions C06_own_stencil_partial.
Example C06_ex : exists s r e, make_decoder [] [] 1 [] [] small = Ok s /\ 0 < 1 < w32 /\ well_formed (kept [] [] small) /\
  listed (kept [] [] small) r e /\ en_mn e = "c.ebreak"%string /\
  (forall e', In e' (encodings (kept [] [] small)) -> matches e' (en_stencil e) -> ~ more_specific e' e).
Proof. exact C06_case. Qed.
(** C06: two instructions that match an opcode and are equally specific are accepted in either
    order, and the order decides how the opcode decodes. *)
Theorem C06_tie_refuted : exists recs recs' s s' ic v v', Permutation recs recs' /\ unambiguous (encodings recs) /\
  make_decoder [] [] 1 [] [] recs = Ok s /\ make_decoder [] [] 1 [] [] recs' = Ok s' /\
  (exists e e', In e (encodings recs) /\ In e' (encodings recs) /\ en_mn e <> en_mn e' /\ matches e ic /\ matches e' ic /\
     specified e = specified e' /\ nfixed e = nfixed e') /\
  decode (A := unit) (U := unit) s ic = Ok v /\ decode (A := unit) (U := unit) s' ic = Ok v' /\
  d_mnemonic (i_di v) <> d_mnemonic (i_di v').
Proof. exact C06_tie_lemma. Qed.
Print Assumptions C06_tie_refuted.
(** C06: two instructions with one encoding are accepted; the stencil of the second decodes as the
    first.  (A line on std::cerr is all there is.) *)
Theorem C06_same_refuted : exists recs s e e' v, make_decoder [] [] 1 [] [] recs = Ok s /\ encodings recs = [e; e'] /\ en_mn e <> en_mn e' /\
  (forall ic, matches e ic <-> matches e' ic) /\ decode (A := unit) (U := unit) s (en_stencil e') = Ok v /\ d_mnemonic (i_di v) = en_mn e.
Proof. exact C06_same_lemma. Qed.
Print Assumptions C06_same_refuted.

(** C07.  The selected encoding is reported illegal iff its extractor calls the opcode reserved;
    an opcode no encoding matches is not reported illegal. *)
Theorem C07_reserved : forall uids annos nu incl excl recs s, 0 < nu < w32 ->
  make_decoder uids annos nu incl excl recs = Ok s -> well_formed (kept incl excl recs) ->
  forall A U ic r e x, listed (kept incl excl recs) r e -> selected (encodings (kept incl excl recs)) e ic -> extractor_of r e x ->
  (decode (A := A) (U := U) s ic = Throw EIllegalOpcode <-> reserved x ic).
Proof. intros uids annos nu incl excl recs s _ HD WF A U ic r e x. exact (C07_sel_lemma uids annos nu incl excl recs s HD WF ic r e x). Qed.
Print Assumptions C07_reserved.
(** C07.  In any decoder whatsoever: illegal iff the extractor of the slot that the decode tree
    selects calls the opcode reserved. *)
Theorem C07_any_table : forall (s : builder * tree) A U ic, decode (A := A) (U := U) s ic = Throw EIllegalOpcode <->
  exists mn p, tree_sel (snd s) ic = Ok (mn, p) /\ reserved (ext (pay_cls p) (pay_ffm p)) ic.
Proof. exact C07_any_lemma. Qed.
Print Assumptions C07_any_table.
Theorem C07_only_selected : forall uids annos nu incl excl recs s,
  make_decoder uids annos nu incl excl recs = Ok s -> separated (encodings (kept incl excl recs)) ->
  forall A U ic, decode (A := A) (U := U) s ic = Throw EIllegalOpcode ->
  exists r e x, listed (kept incl excl recs) r e /\ selected (encodings (kept incl excl recs)) e ic /\ extractor_of r e x /\ reserved x ic.
Proof. exact C07_only_lemma. Qed.
Print Assumptions C07_only_selected.
(** C07.  Which opcodes an extractor calls reserved, by format and bit position (S_Reserved). *)
Theorem C07_formats : forall c ffm ic, ic < 2 ^ 64 -> x_illop (ext c ffm) ic = Ok (reserved_when c ffm ic).
Proof. exact illop_lemma. Qed.
Print Assumptions C07_formats.
Example C07_formats_ex : reserved_when X_CIW_sp 0 0x0004 = true /\ reserved_when X_CIW_sp 0 0x0024 = false /\
  reserved_when X_C2_sp_load_word 0 0x4002 = true /\ reserved_when X_C2_sp_load_word 0 0x4082 = false.
Proof. repeat split; reflexivity. Qed.
Example C07_ex : exists s r e x, make_decoder [] [] 1 [] [] small = Ok s /\ 0 < 1 < w32 /\ well_formed (kept [] [] small) /\
  listed (kept [] [] small) r e /\ selected (encodings (kept [] [] small)) e 0x85 /\ extractor_of r e x /\ ~ reserved x 0x85.
Proof. exact C07_case. Qed.
(** c.lwsp with rd = x0 is reserved. *)
Example C07_illegal_ex : exists s, make_decoder [] [] 1 [] [] lwsp = Ok s /\ separated (encodings (kept [] [] lwsp)) /\
  decode (A := unit) (U := unit) s 0x4002 = Throw EIllegalOpcode /\
  exists v, decode (A := unit) (U := unit) s 0x4082 = Ok v.
Proof. exact C07_illegal_case. Qed.

(** C14.  A compressed instruction is reported under its own mnemonic with the id of its
    expansion (which is not the invalid id 0). *)
Theorem C14_expansion_uid : forall uids annos nu incl excl recs s, 0 < nu < w32 ->
  make_decoder uids annos nu incl excl recs = Ok s -> well_formed (kept incl excl recs) ->
  forall A U ic v r e, decode (A := A) (U := U) s ic = Ok v -> listed (kept incl excl recs) r e ->
  selected (encodings (kept incl excl recs)) e ic -> r_expand r <> ""%string ->
  d_mnemonic (i_di v) = en_mn e /\ d_uid (i_di v) = lookup_uid s (r_expand r) /\ d_uid (i_di v) <> 0.
Proof. intros uids annos nu incl excl recs s HN HD WF A U ic v r e. exact (C14_lemma uids annos nu incl excl recs s HN HD WF ic v r e). Qed.
Print Assumptions C14_expansion_uid.
Example C14_ex : exists s v r e, make_decoder [] [] 1 [] [] small = Ok s /\ 0 < 1 < w32 /\ well_formed (kept [] [] small) /\
  decode (A := unit) (U := unit) s 0x85 = Ok v /\ listed (kept [] [] small) r e /\ selected (encodings (kept [] [] small)) e 0x85 /\
  r_expand r = "addi"%string /\ en_mn e = "c.addi"%string.
Proof. exact C14_case. Qed.
(** C14: looking up the id of the reported mnemonic need not give the reported id. *)
Theorem C14_lookup_refuted : exists recs uids s ic v, make_decoder uids [] 1 [] [] recs = Ok s /\
  decode (A := unit) (U := unit) s ic = Ok v /\ d_uid (i_di v) <> lookup_uid s (d_mnemonic (i_di v)).
Proof. exact C14_lookup_lemma. Qed.
Print Assumptions C14_lookup_refuted.

(** C18.  A record is kept iff one of its tags matches an inclusion (or there are none) and no
    tag matches an exclusion ... *)
Theorem C18_kept : forall incl excl recs r, In r (kept incl excl recs) <-> In r recs /\ wanted incl excl (r_tags r).
Proof. exact C18_kept_lemma. Qed.
Print Assumptions C18_kept.
(** ... and configuring with filters is configuring the kept records without filters. *)
Theorem C18_configures_kept : forall uids annos nu incl excl recs,
  (forall r, In r recs -> r_mn r = None -> r_pseudo r <> None) ->
  make_decoder uids annos nu incl excl recs = make_decoder uids annos nu [] [] (kept incl excl recs).
Proof. exact C18_decoder_lemma. Qed.
Print Assumptions C18_configures_kept.
Example C18_ex : exists excl : list pattern, kept [] excl small <> small /\ kept [] excl small <> [] /\
  exists s, make_decoder [] [] 1 [] excl small = Ok s.
Proof. exact C18_case. Qed.

(** C19.  An opcode is reported as the selected instruction iff none of its overlays hits, else
    as the one overlay that hits with the most mask bits. *)
Theorem C19_overlay : forall uids annos nu incl excl recs s, 0 < nu < w32 ->
  make_decoder uids annos nu incl excl recs = Ok s -> well_formed (kept incl excl recs) ->
  forall A U ic v r e, decode (A := A) (U := U) s ic = Ok v -> listed (kept incl excl recs) r e ->
  selected (encodings (kept incl excl recs)) e ic ->
  (d_mnemonic (i_di v) = en_mn e /\ forall mn mask, ~ overlay_hit (kept incl excl recs) mn (en_mn e) mask ic) \/
  (exists mask, overlay_hit (kept incl excl recs) (d_mnemonic (i_di v)) (en_mn e) mask ic /\
     forall mn' mask', overlay_hit (kept incl excl recs) mn' (en_mn e) mask' ic ->
       popcount mask' <= popcount mask /\ (popcount mask' = popcount mask -> mn' = d_mnemonic (i_di v))).
Proof. intros uids annos nu incl excl recs s HN HD WF A U ic v r e. exact (C19_wf_lemma uids annos nu incl excl recs s HN HD WF ic v r e). Qed.
Print Assumptions C19_overlay.
(** nop is an overlay of li (0x13, not 0x93), mv one of addi (0x8093, not 0x108093). *)
Example C19_ex : exists s, make_decoder [] [] 1 [] [] small = Ok s /\ 0 < 1 < w32 /\ well_formed (kept [] [] small) /\
  map (fun ic => name_of (decode (A := unit) (U := unit) s ic)) [0x13; 0x93; 0x8093; 0x108093] = [Ok "nop"; Ok "li"; Ok "mv"; Ok "addi"]%string /\
  forallb (fun n => existsb (fun r => match r_mn r, r_overlay r with Some m, Some _ => String.eqb m n | _, _ => false end) small) ["nop"; "mv"]%string = true.
Proof.
  destruct small_decoder as (s & E & HN & WF & Q). injection Q as _ _ Q1 Q2 Q3 Q4 _ _ _ _. exists s.
  split; [exact E|]. split; [exact HN|]. split; [exact WF|]. cbn [map]. rewrite Q1, Q2, Q3, Q4. split; [reflexivity|]. vm_compute. reflexivity.
Qed.

(** C42.  Every answer of the decoder is the one the table prescribes ([decodes] in S_Table):
    unknown iff nothing matches, illegal iff reserved, else what the selected record's extractor
    reads under the record's own meta-data (or those of its overlay or expansion). *)
Theorem C42_refines : forall uids annos nu incl excl recs s, 0 < nu < w32 ->
  make_decoder uids annos nu incl excl recs = Ok s -> well_formed (kept incl excl recs) ->
  forall A U ic, decodes (kept incl excl recs) (lookup_uid s) ic (decode (A := A) (U := U) s ic).
Proof. intros uids annos nu incl excl recs s HN HD WF A U ic. exact (outcome uids annos nu incl excl recs s HN HD WF ic). Qed.
Print Assumptions C42_refines.
Theorem C42_own_meta : forall uids annos nu incl excl recs s, 0 < nu < w32 ->
  make_decoder uids annos nu incl excl recs = Ok s -> well_formed (kept incl excl recs) ->
  forall A U ic v, decode (A := A) (U := U) s ic = Ok v ->
  exists r e y, listed (kept incl excl recs) r e /\ selected (encodings (kept incl excl recs)) e ic /\ reads (kept incl excl recs) r e ic y /\
    i_icode v = ic /\ i_meta v = rd_meta y /\ d_mnemonic (i_di v) = rd_mn y /\
    decode_info (rd_mn y) (d_uid (i_di v)) (rd_x y) (rd_meta y) ic = Ok (i_di v).
Proof. intros uids annos nu incl excl recs s HN HD WF A U ic v. exact (C42_lemma uids annos nu incl excl recs s HN HD WF ic v). Qed.
Print Assumptions C42_own_meta.
Example C42_ex : exists s, make_decoder [] [] 1 [] [] small = Ok s /\ 0 < 1 < w32 /\ well_formed (kept [] [] small) /\
  exists v, decode (A := unit) (U := unit) s 0x108093 = Ok v /\ d_mnemonic (i_di v) = "addi"%string.
Proof.
  destruct small_decoder as (s & E & HN & WF & Q). injection Q as _ _ _ _ _ Q _ _ _ _. exists s.
  split; [exact E|]. split; [exact HN|]. split; [exact WF|]. exact (name_ok _ _ Q).
Qed.

(** C43.  getOpcode of a mnemonic is the stencil of its record. *)
Theorem C43_get_opcode : forall uids annos nu incl excl recs s,
  make_decoder uids annos nu incl excl recs = Ok s -> separated (encodings (kept incl excl recs)) ->
  forall r mn, In r (kept incl excl recs) -> is_inst r mn -> r_expand r = ""%string -> sole (kept incl excl recs) mn ->
  get_opcode s mn = Ok (r_stencil r).
Proof. exact opcode_lemma. Qed.
Print Assumptions C43_get_opcode.
Example C43_ex : exists r, In r (kept [] [] small) /\ is_inst r "addi" /\ r_expand r = ""%string /\ sole (kept [] [] small) "addi".
Proof. exact C43_case. Qed.

(** C44.  Where the operand typings allow it, a decode answers or throws UnknownOpcode or
    IllegalOpcode: no assertion fails, nothing undefined happens, no other exception escapes,
    and the operand lists and register masks of the answer agree. *)
Theorem C44_total : forall uids annos nu incl excl recs s, 0 < nu < w32 ->
  make_decoder uids annos nu incl excl recs = Ok s -> well_formed (kept incl excl recs) ->
  forall A U ic, ic < 2 ^ 64 -> readable (kept incl excl recs) ic ->
  match decode (A := A) (U := U) s ic with
  | Ok v => lists_agree (oi_elems (d_src_oi (i_di v))) (d_sources (i_di v)) (d_srcT (i_di v)) /\
            lists_agree (oi_elems (d_dst_oi (i_di v))) (d_dests (i_di v)) (d_dstT (i_di v))
  | Throw e => e = EUnknownOpcode \/ e = EIllegalOpcode
  | AssertFail | UB => False
  end.
Proof. intros uids annos nu incl excl recs s HN HD WF A U ic. exact (total uids annos nu incl excl recs s HN HD WF ic). Qed.
Print Assumptions C44_total.
Example C44_ex : exists s, make_decoder [] [] 1 [] [] small = Ok s /\ 0 < 1 < w32 /\ well_formed (kept [] [] small) /\
  forall ic, readable (kept [] [] small) ic.
Proof.
  destruct small_decoder as (s & E & HN & WF & _). exists s.
  split; [exact E|]. split; [exact HN|]. split; [exact WF|]. exact small_readable.
Qed.
