(** Claims about histories of calls on one decoder (C08-C12).  [run] executes a script of calls
    on the decoder with its caches; the specification, S_History, is a decoder without caches.
    [view] drops from an answer the identity of the object and its constructor arguments. *)
From Coq Require Import NArith ZArith List Bool String.
From Verif Require Import M_Base M_Field M_Meta M_OperandInfo M_Extract M_Decoded M_Cache M_Registry M_Trie M_Builder M_DTable M_Direct.
From Verif Require Import S_Maps S_Trie S_Table S_Shipped S_History.
From Verif Require Import L_HistClaims L_Objects L_Traces L_Names L_HistRefuted L_HistCases L_Claims.
Import ListNotations.
Local Open Scope N_scope.

(** C08 (partial: calls that are [covered], see C08_wide_refuted and C11).  Every script of
    calls is answered as by the decoder without caches. *)
Theorem C08_plain_decoder_partial : forall A U (u0 : U) uids annos nu incl excl recs s,
  0 < nu < w32 -> make_decoder uids annos nu incl excl recs = Ok s ->
  forall ops : list (op A U), Forall (covered s) ops ->
  map view (snd (run u0 (dt_new s) ops)) = prun u0 s [] ops.
Proof. exact (fun A U u0 uids annos nu incl excl recs s HN HD => plain_lemma (A := A) (U := U) u0 uids annos nu incl excl recs s HN HD). Qed.
Print Assumptions C08_plain_decoder_partial.
(** C08 (partial: likewise).  After every history a query is answered as by a new decoder. *)
Theorem C08_history_partial : forall A U (u0 : U) uids annos nu incl excl recs s,
  0 < nu < w32 -> make_decoder uids annos nu incl excl recs = Ok s ->
  forall (h : list (op A U)) o, Forall (covered s) h -> covered s o -> is_query o ->
  view (snd (step u0 (fst (run u0 (dt_new s) h)) o)) = view (snd (step u0 (dt_new s) o)).
Proof. exact (fun A U u0 uids annos nu incl excl recs s HN HD => history_lemma (A := A) (U := U) u0 uids annos nu incl excl recs s HN HD). Qed.
Print Assumptions C08_history_partial.
Example C08_ex : exists s, make_decoder [] [] 1 [] [] small = Ok s /\ 0 < 1 < w32 /\
  Forall (covered s) calls /\ covered s (OMake (U := N) 0x85 9) /\ is_query (A := N) (U := N) (OMake 0x85 9) /\
  List.length (snd (run 0 (dt_new s) calls)) = 8%nat.
Proof.
  destruct calls_case as (s & E & HN & _ & _ & F & C & R). exists s. split; [exact E|]. split; [exact HN|]. split; [exact F|].
  split; [exact C|]. split; [exact I|]. apply (f_equal (@List.length _)) in R. rewrite map_length in R. exact R.
Qed.
(** C08 does not extend to the constructor arguments: a second makeInst of an opcode ignores
    the ones it is given. *)
Theorem C08_args_refuted : exists recs (s : builder * tree) ic (a b : N) k o k' o',
  make_decoder [] [] 1 [] [] recs = Ok s /\ a <> b /\
  snd (run 0 (dt_new s) [OMake ic a; OMake ic b]) = [Ok (AObj k o); Ok (AObj k' o')] /\ ob_args o' = a.
Proof. exact args_lemma. Qed.
Print Assumptions C08_args_refuted.
(** C08 is false of opcodes that differ only above bit 31. *)
Theorem C08_wide_refuted : exists recs (s : builder * tree) ic ic' v w, make_decoder [] [] 1 [] [] recs = Ok s /\
  ic < 2 ^ 32 /\ ic' < 2 ^ 64 /\
  snd (run (A := N) 0 (dt_new s) [OGetInfo ic]) = [Ok (AInfo v)] /\ i_icode v = ic /\
  snd (run (A := N) 0 (dt_new s) [OGetInfo ic'; OGetInfo ic]) = [Ok (AInfo w); Ok (AInfo w)] /\ i_icode w = ic'.
Proof. exact wide_lemma. Qed.
Print Assumptions C08_wide_refuted.

(** C09 (partial: [covered] calls).  Dropping every flushCaches from a script changes no answer
    of the other calls. *)
Theorem C09_flush_partial : forall A U (u0 : U) uids annos nu incl excl recs s,
  0 < nu < w32 -> make_decoder uids annos nu incl excl recs = Ok s ->
  forall ops : list (op A U), Forall (covered s) ops ->
  map view (visible ops (snd (run u0 (dt_new s) ops))) =
  map view (snd (run u0 (dt_new s) (filter (fun o => negb (is_flush o)) ops))).
Proof. exact (fun A U u0 uids annos nu incl excl recs s HN HD => flush_lemma (A := A) (U := U) u0 uids annos nu incl excl recs s HN HD). Qed.
Print Assumptions C09_flush_partial.
(** C09.  flushCaches works on every decoder whose encodings can be told apart. *)
Theorem C09_flush_works : forall A U uids annos nu incl excl recs s,
  make_decoder uids annos nu incl excl recs = Ok s -> separated (encodings (kept incl excl recs)) ->
  can_flush (A := A) (U := U) s.
Proof. exact (fun A U => can_flush_lemma (A := A) (U := U)). Qed.
Print Assumptions C09_flush_works.
Example C09_ex : exists s, make_decoder [] [] 1 [] [] small = Ok s /\ 0 < 1 < w32 /\
  separated (encodings (kept [] [] small)) /\ Forall (covered s) calls /\ In OFlush calls /\
  snd (run 0 (dt_new s) calls) <> [].
Proof.
  destruct calls_case as (s & E & HN & SE & _ & F & _ & R). exists s. split; [exact E|]. split; [exact HN|]. split; [exact SE|].
  split; [exact F|]. split; [unfold calls; cbn [In]; auto 10|]. intros Z. apply (f_equal (@List.length _)) in R.
  rewrite map_length, Z in R. discriminate R.
Qed.
(** C09 is false of some accepted tables: flushCaches aborts. *)
Theorem C09_flush_refuted : exists recs (s : builder * tree), make_decoder [] [] 1 [] [] recs = Ok s /\
  snd (run (A := N) 0 (dt_new s) [OFlush]) = [AssertFail].
Proof. exact flush_refuted_lemma. Qed.
Print Assumptions C09_flush_refuted.

(** C10.  No object is handed out twice, whatever the calls. *)
Theorem C10_distinct : forall A U (u0 : U) s (ops : list (op A U)),
  NoDup (handed ops (snd (run u0 (dt_new s) ops))).
Proof. exact (fun A U => distinct_lemma (A := A) (U := U)). Qed.
Print Assumptions C10_distinct.
(** C10.  An object handed out stays as it is, whatever the calls, until one changes that very
    object. *)
Theorem C10_frame : forall A U (u0 : U) s (ops ops' : list (op A U)) k ob,
  Forall (fun o => ~ touches o k) ops' ->
  snd (step u0 (fst (run u0 (dt_new s) ops)) (ORead k)) = Ok ob -> ob <> AUnit ->
  snd (step u0 (fst (run u0 (fst (run u0 (dt_new s) ops)) ops')) (ORead k)) = Ok ob.
Proof. exact (fun A U => reads_lemma (A := A) (U := U)). Qed.
Print Assumptions C10_frame.
(** C10 (partial: histories without trace records, see C10_trace_refuted).  Changing an object
    handed out changes no later makeInst: the cached object is never handed out. *)
Theorem C10_private_partial : forall A U (u0 : U) s (ops : list (op A U)) o ic a, Forall no_trace ops ->
  (match o with OMutate _ _ | OMorph _ _ _ => True | _ => False end) ->
  let d := fst (run u0 (dt_new s) ops) in
  snd (step u0 (fst (step u0 d o)) (OMake ic a)) = snd (step u0 d (OMake ic a)).
Proof. exact (fun A U => private_lemma (A := A) (U := U)). Qed.
Print Assumptions C10_private_partial.
Example C10_ex : exists s a b, make_decoder [] [] 1 [] [] small = Ok s /\
  handed pair_calls (snd (run 0 (dt_new s) pair_calls)) = [a; b] /\ a <> b /\
  Forall no_trace pair_calls /\ Forall (fun o => ~ touches o 0) [OMutate (A := N) (U := N) 1 7] /\
  exists ob, snd (step 0 (fst (run 0 (dt_new s) pair_calls)) (ORead 0)) = Ok ob /\ ob <> AUnit.
Proof. exact pair_case. Qed.
(** C10 is false after a trace record: makeInst copies the object that the caller was given,
    with its mnemonic and the state the caller put in it. *)
Theorem C10_trace_refuted : exists recs (s : builder * tree) ic mn k o k' o' k2 o2,
  make_decoder [] [] 1 [] [] recs = Ok s /\ ic < 2 ^ 32 /\
  snd (run 0 (dt_new s) [OMake ic 1]) = [Ok (AObj k2 o2)] /\ ob_mnemonic o2 <> mn /\
  snd (run 0 (dt_new s) [OTrace ic mn tx 1; OMutate 0 7; OMake ic 2]) = [Ok (AObj k o); Ok AUnit; Ok (AObj k' o')] /\
  ob_mnemonic o' = mn /\ ob_user o' = 7.
Proof. exact trace_lemma. Qed.
Print Assumptions C10_trace_refuted.

(** C11 (partial: the names of disputed trace records are not those of instructions, see
    C11_poison_refuted).  Trace records change no answer of getInfo. *)
Theorem C11_info_partial : forall A U (u0 : U) uids annos nu incl excl recs s,
  make_decoder uids annos nu incl excl recs = Ok s -> separated (encodings (kept incl excl recs)) ->
  forall (h : list (op A U)) ic, Forall (foreign s h) h -> ic < cache_bound ->
  snd (step u0 (fst (run u0 (dt_new s) h)) (OGetInfo ic)) = snd (step u0 (dt_new s) (OGetInfo ic)).
Proof. exact (fun A U u0 uids annos nu incl excl recs s HD HS => info_lemma (A := A) (U := U) u0 uids annos nu incl excl recs s HD HS). Qed.
Print Assumptions C11_info_partial.
(** C11 (partial: likewise, and only for opcodes no trace record disputes, see C11_trace_refuted).
    Trace records change no answer of makeInst. *)
Theorem C11_make_partial : forall A U (u0 : U) uids annos nu incl excl recs s,
  make_decoder uids annos nu incl excl recs = Ok s -> separated (encodings (kept incl excl recs)) ->
  forall (h : list (op A U)) ic a, Forall (foreign s h) h -> ic < cache_bound -> ~ disputed s h ic ->
  view (snd (step u0 (fst (run u0 (dt_new s) h)) (OMake ic a))) = view (snd (step u0 (dt_new s) (OMake ic a))).
Proof. exact (fun A U u0 uids annos nu incl excl recs s HD HS => make_lemma (A := A) (U := U) u0 uids annos nu incl excl recs s HD HS). Qed.
Print Assumptions C11_make_partial.
Example C11_ex : exists s, make_decoder [] [] 1 [] [] small = Ok s /\ separated (encodings (kept [] [] small)) /\
  Forall (foreign s disputes) disputes /\ disputed s disputes 0x108093 /\ ~ disputed s disputes 0x85 /\
  map summary (snd (run 0 (dt_new s) disputes)) =
  [Ok (Some ("foo"%string, 0x108093, Some (1, 0))); Ok None; Ok (Some ("foo"%string, 0x108093, Some (1, 7)));
   Ok (Some ("addi"%string, 0x108093, None)); Ok (Some ("c.addi"%string, 0x85, Some (3, 0)))].
Proof. exact disputes_case. Qed.
(** C11 is false of makeInst: after a trace record that disputes the mnemonic, makeInst of that
    opcode reports the record's mnemonic. *)
Theorem C11_trace_refuted : exists recs (s : builder * tree) ic mn k o k' o' k2 o2,
  make_decoder [] [] 1 [] [] recs = Ok s /\ ic < 2 ^ 32 /\
  snd (run 0 (dt_new s) [OMake ic 1]) = [Ok (AObj k2 o2)] /\ ob_mnemonic o2 <> mn /\
  snd (run 0 (dt_new s) [OTrace ic mn tx 1; OMutate 0 7; OMake ic 2]) = [Ok (AObj k o); Ok AUnit; Ok (AObj k' o')] /\
  ob_mnemonic o' = mn /\ ob_user o' = 7.
Proof. exact trace_lemma. Qed.
Print Assumptions C11_trace_refuted.
(** C11: a trace record registers a mnemonic that was unknown before. *)
Theorem C11_register_refuted : exists recs (s : builder * tree) ic mn k o k' o', make_decoder [] [] 1 [] [] recs = Ok s /\
  snd (run 0 (dt_new s) [ODirect mn 0 tx 3]) = [Throw EUnknownMnemonic] /\
  snd (run 0 (dt_new s) [OTrace ic mn tx 1; ODirect mn 0 tx 3]) = [Ok (AObj k o); Ok (AObj k' o')].
Proof. exact register_lemma. Qed.
Print Assumptions C11_register_refuted.
(** C11 is false of getInfo: after a trace record that calls a compressed instruction by the name
    of its expansion, getInfo reports another mnemonic. *)
Theorem C11_poison_refuted : exists recs (s : builder * tree) ic v v', make_decoder [] [] 1 [] [] recs = Ok s /\ ic < 2 ^ 16 /\
  snd (run (A := N) 0 (dt_new s) [OGetInfo ic]) = [Ok (AInfo v)] /\ d_mnemonic (i_di v) = "c.addi"%string /\
  nth_error (snd (run 0 (dt_new s) (poison ic ++ [OGetInfo ic]))) 4 = Some (Ok (AInfo v')) /\ d_mnemonic (i_di v') = "mv"%string.
Proof. exact poison_lemma. Qed.
Print Assumptions C11_poison_refuted.

(** C12 (partial: not for compressed instructions and overlays, see C12_names_refuted; the table's
    meta-data for the name must be unambiguous; the built-in nop and cmov aside).  makeInstDirectly
    with a name makes the instruction with the name, UID and meta-data of the record, and the
    operands of the extractor given. *)
Theorem C12_by_name_partial : forall A U (u0 : U) uids annos nu incl excl recs s,
  0 < nu < w32 -> make_decoder uids annos nu incl excl recs = Ok s -> separated (encodings (kept incl excl recs)) ->
  forall (h : list (op A U)) r mn x a, Forall (covered s) h ->
  In r (kept incl excl recs) -> is_inst r mn -> r_expand r = ""%string -> uniform (kept incl excl recs) r mn ->
  exists m v, own_meta r = Ok m /\ answers (mkRd mn m x) (lookup_uid s mn) 0 v /\
    gives u0 v (snd (step u0 (fst (run u0 (dt_new s) h)) (ODirect mn INVALID_UID x a))).
Proof. exact (fun A U u0 uids annos nu incl excl recs s HN HD HS => by_name_lemma (A := A) (U := U) u0 uids annos nu incl excl recs s HN HD HS). Qed.
Print Assumptions C12_by_name_partial.
(** C12 (partial: likewise).  The UID of a name, whatever other name is given, does the same. *)
Theorem C12_by_uid_partial : forall A U (u0 : U) uids annos nu incl excl recs s,
  0 < nu < w32 -> make_decoder uids annos nu incl excl recs = Ok s -> separated (encodings (kept incl excl recs)) ->
  forall (h : list (op A U)) r mn mn' x a, Forall (covered s) h ->
  In r (kept incl excl recs) -> is_inst r mn -> r_expand r = ""%string -> lookup_uid s mn + DEFAULT_UP_SIZE < w32 ->
  view (snd (step u0 (fst (run u0 (dt_new s) h)) (ODirect mn' (lookup_uid s mn) x a))) =
  view (snd (step u0 (fst (run u0 (dt_new s) h)) (ODirect mn INVALID_UID x a))).
Proof. exact (fun A U u0 uids annos nu incl excl recs s HN HD HS => by_uid_lemma (A := A) (U := U) u0 uids annos nu incl excl recs s HN HD HS). Qed.
Print Assumptions C12_by_uid_partial.
(** C12.  A name that no instruction of the table has is unknown. *)
Theorem C12_unknown : forall A U (u0 : U) uids annos nu incl excl recs s,
  0 < nu < w32 -> make_decoder uids annos nu incl excl recs = Ok s -> separated (encodings (kept incl excl recs)) ->
  forall (h : list (op A U)) mn x a, Forall (covered s) h -> nameless (kept incl excl recs) mn ->
  snd (step u0 (fst (run u0 (dt_new s) h)) (ODirect mn INVALID_UID x a)) = Throw EUnknownMnemonic.
Proof. exact (fun A U u0 uids annos nu incl excl recs s HN HD HS => unknown_lemma (A := A) (U := U) u0 uids annos nu incl excl recs s HN HD HS). Qed.
Print Assumptions C12_unknown.
(** C12 (partial: as for makeInstDirectly).  morphInst gives the object the name, UID, meta-data
    and operands of the new instruction, and keeps its identity, arguments and user state; when it
    fails the object is as before. *)
Theorem C12_morph_partial : forall A U (u0 : U) uids annos nu incl excl recs s,
  0 < nu < w32 -> make_decoder uids annos nu incl excl recs = Ok s -> separated (encodings (kept incl excl recs)) ->
  forall (h : list (op A U)) k r mn x i o, Forall (covered s) h ->
  In r (kept incl excl recs) -> is_inst r mn -> r_expand r = ""%string -> uniform (kept incl excl recs) r mn ->
  let d := fst (run u0 (dt_new s) h) in snd (step u0 d (ORead k)) = Ok (AObj i o) ->
  exists m v, own_meta r = Ok m /\ answers (mkRd mn m x) (lookup_uid s mn) 0 v /\
    (snd (step u0 d (OMorph k mn x)), snd (step u0 (fst (step u0 d (OMorph k mn x))) (ORead k))) = morphed v i o.
Proof. exact (fun A U u0 uids annos nu incl excl recs s HN HD HS => morph_name_lemma (A := A) (U := U) u0 uids annos nu incl excl recs s HN HD HS). Qed.
Print Assumptions C12_morph_partial.
(** C12.  morphInst with an unknown name throws UnknownMnemonic and leaves the object as it was. *)
Theorem C12_morph_unknown : forall A U (u0 : U) uids annos nu incl excl recs s,
  0 < nu < w32 -> make_decoder uids annos nu incl excl recs = Ok s -> separated (encodings (kept incl excl recs)) ->
  forall (h : list (op A U)) k mn x i o, Forall (covered s) h -> nameless (kept incl excl recs) mn ->
  let d := fst (run u0 (dt_new s) h) in snd (step u0 d (ORead k)) = Ok (AObj i o) ->
  snd (step u0 d (OMorph k mn x)) = Throw EUnknownMnemonic /\
  snd (step u0 (fst (step u0 d (OMorph k mn x))) (ORead k)) = Ok (AObj i o).
Proof. exact (fun A U u0 uids annos nu incl excl recs s HN HD HS => morph_unknown_lemma (A := A) (U := U) u0 uids annos nu incl excl recs s HN HD HS). Qed.
Print Assumptions C12_morph_unknown.
Example C12_ex : exists s, make_decoder [] [] 1 [] [] small = Ok s /\ 0 < 1 < w32 /\ separated (encodings (kept [] [] small)) /\
  Forall (covered s) calls /\ lookup_uid s "addi" + DEFAULT_UP_SIZE < w32 /\
  nameless (kept [] [] small) "foo" /\ nameless (kept [] [] small) "UNSET-in-ExtractorDirectBase" /\
  (exists r, In r (kept [] [] small) /\ is_inst r "addi" /\ r_expand r = ""%string /\ uniform (kept [] [] small) r "addi") /\
  exists i o, snd (step 0 (fst (run 0 (dt_new s) calls)) (ORead 0)) = Ok (AObj i o).
Proof.
  destruct calls_case as (s & E & HN & SE & _ & F & _). destruct addi_uid_case as (s' & E' & L).
  replace s' with s in L by congruence. destruct nameless_case as (_ & N1 & N2).
  exists s. split; [exact E|]. split; [exact HN|]. split; [exact SE|]. split; [exact F|]. split; [exact L|]. split; [exact N1|].
  split; [exact N2|]. split; [exact addi_case|]. exact (calls_read s E).
Qed.
(** C12 is false of morphInst with a UID: the UID is ignored, the call throws UnknownMnemonic
    (unless the table has an instruction with the extractors' placeholder name). *)
Theorem C12_morph_uid_refuted : forall A U (u0 : U) uids annos nu incl excl recs s,
  0 < nu < w32 -> make_decoder uids annos nu incl excl recs = Ok s -> separated (encodings (kept incl excl recs)) ->
  forall (h : list (op A U)) k uid imm ops i o, Forall (covered s) h ->
  nameless (kept incl excl recs) "UNSET-in-ExtractorDirectBase" ->
  let d := fst (run u0 (dt_new s) h) in snd (step u0 d (ORead k)) = Ok (AObj i o) ->
  let dx := direct_numbered uid imm ops in
  snd (step u0 d (OMorph k (dx_mn dx) (direct_ext dx))) = Throw EUnknownMnemonic.
Proof. exact (fun A U u0 uids annos nu incl excl recs s HN HD HS => morph_uid_lemma (A := A) (U := U) u0 uids annos nu incl excl recs s HN HD HS). Qed.
Print Assumptions C12_morph_uid_refuted.
(** C12 is false of compressed instructions and overlays: decoding reports their names and they
    have UIDs, but makeInstDirectly does not know them. *)
Theorem C12_names_refuted : exists recs (s : builder * tree) ic ic' v v', make_decoder [] [] 1 [] [] recs = Ok s /\
  snd (run (A := N) (U := N) 0 (dt_new s) [OGetInfo ic; OGetInfo ic']) = [Ok (AInfo v); Ok (AInfo v')] /\
  d_mnemonic (i_di v) = "c.addi"%string /\ d_mnemonic (i_di v') = "mv"%string /\
  lookup_uid s "c.addi" <> 0 /\ lookup_uid s "mv" <> 0 /\
  snd (run (A := N) (U := N) 0 (dt_new s) [ODirect "c.addi" 0 tx 1; ODirect "mv" 0 tx 1]) =
    [Throw EUnknownMnemonic; Throw EUnknownMnemonic].
Proof. exact names_refuted_lemma. Qed.
Print Assumptions C12_names_refuted.
(** C12: a UID that was never assigned gives std::out_of_range, not UnknownMnemonic. *)
Theorem C12_uid_refuted : exists recs (s : builder * tree) uid, make_decoder [] [] 1 [] [] recs = Ok s /\ uid <> INVALID_UID /\
  snd (run (A := N) (U := N) 0 (dt_new s) [ODirect "" uid tx 1]) = [Throw EStdOutOfRange].
Proof. exact uid_refuted_lemma. Qed.
Print Assumptions C12_uid_refuted.
