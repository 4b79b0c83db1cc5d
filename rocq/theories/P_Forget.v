(** Claims: what flushCaches forgets (C75). *)
From Coq Require Import NArith List Bool String.
From Verif Require Import M_Base M_Extract M_Decoded M_Registry M_Trie M_Builder M_DTable M_Direct.
From Verif Require Import S_Maps S_Trie S_Table S_Shipped S_History S_Forget L_HistRefuted L_Forget L_ForgetCases.
Import ListNotations.
Local Open Scope N_scope.

(** C75 (partial: for getInfo and makeInst, see C75_records_refuted, and for trace records that
    do not use a name that is only a factory's, see C75_factory_name_refuted).  After any calls,
    among them trace records for any opcode under the names of other instructions or of none, a
    call of flushCaches makes getInfo and makeInst answer as a new decoder does, and so they do
    after any further calls whose trace records agree with the decoder. *)
Theorem C75_forgets_partial : forall A U (u0 : U) uids annos nu incl excl recs s,
  make_decoder uids annos nu incl excl recs = Ok s -> separated (encodings (kept incl excl recs)) ->
  forall (h h' : list (op A U)) ic a,
  names_instructions (kept incl excl recs) h -> Forall (agreeing s) h' -> ic < cache_bound ->
  let flushed := fst (step u0 (fst (run u0 (dt_new s) h)) OFlush) in
  let d := fst (run u0 flushed h') in
  snd (step u0 d (OGetInfo ic)) = snd (step u0 (dt_new s) (OGetInfo ic)) /\
  view (snd (step u0 d (OMake ic a))) = view (snd (step u0 (dt_new s) (OMake ic a))).
Proof. exact (fun A U u0 uids annos nu incl excl recs s HD HS => forget_lemma (A := A) (U := U) u0 uids annos nu incl excl recs s HD HS). Qed.
Print Assumptions C75_forgets_partial.
Example C75_ex : exists s, make_decoder [] [] 1 [] [] small = Ok s /\ separated (encodings (kept [] [] small)) /\
  names_instructions (kept [] [] small) before /\ Forall (agreeing s) after /\
  map summary (snd (run 0 (dt_new s) (before ++ OFlush :: after))) =
  [Ok (Some ("c.addi"%string, 0x85, Some (1, 0))); Ok (Some ("c.addi"%string, 273, None)); Ok (Some ("mv"%string, 0x85, Some (2, 0)));
   Ok (Some ("c.addi"%string, 4225, None)); Ok (Some ("mv"%string, 0x85, None)); Ok (Some ("nop"%string, 0x108093, Some (3, 0)));
   Ok (Some ("foo"%string, 0x108093, Some (4, 0))); Ok (Some ("foo"%string, 0x108093, Some (4, 0)));
   Ok None; Ok (Some ("c.addi"%string, 0x85, None)); Ok (Some ("c.addi"%string, 0x85, Some (6, 0))); Ok (Some ("addi"%string, 0x108093, Some (7, 0)))].
Proof. exact forget_case. Qed.
(** C75 is false of trace records themselves: a record seen before the flush answers a record
    for the same opcode and name after it, with the registers of the first. *)
Theorem C75_records_refuted : exists recs s ic mn, make_decoder [] [] 1 [] [] recs = Ok s /\ separated (encodings (kept [] [] recs)) /\
  map seen (snd (run 0 (dt_new s) [OTrace ic mn (trace_ext 8 16 0) 1])) = [Some (mn, None, 8)] /\
  map seen (snd (run 0 (dt_new s) [OTrace ic mn (trace_ext 2 4 0) 1; OFlush; OTrace ic mn (trace_ext 8 16 0) 1])) =
  [Some (mn, None, 2); None; Some (mn, None, 2)].
Proof. exact record_case. Qed.
Print Assumptions C75_records_refuted.
(** C75 is false where a trace record uses the name of a factory that is no instruction: from then
    on, flushed or not, a compressed instruction of that factory has another annotation. *)
Theorem C75_factory_name_refuted : exists annos recs s ic mn ic', make_decoder [] annos 1 [] [] recs = Ok s /\ separated (encodings (kept [] [] recs)) /\
  map seen (snd (run 0 (dt_new s) [OGetInfo ic])) = [Some ("c.addi"%string, None, 2)] /\
  map seen (snd (run 0 (dt_new s) [OTrace ic' mn tx 1; OFlush; OGetInfo ic])) =
  [Some ("addi"%string, Some [], 2); None; Some ("c.addi"%string, Some [], 2)].
Proof. exact factory_name_case. Qed.
Print Assumptions C75_factory_name_refuted.
