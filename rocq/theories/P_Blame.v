(** Claim C58: the exception that refuses an instruction table names a defect the table has. *)
From Coq Require Import NArith List Bool String.
From Verif Require Import M_Base M_Meta M_Builder M_DTable S_Table S_Accept S_Blame S_BlameTables L_BlameTables.
Import ListNotations.
Local Open Scope N_scope.

(** C58.  If building throws [x], then [x] is right about the user's list of UIDs, or about the
    first record [r] that cannot be added: the records [Q] before it make a decoder. *)
Theorem C58_reason : forall uids annos nu incl excl recs x,
  sizes32 recs -> room uids nu (List.length (read incl excl recs)) ->
  make_decoder uids annos nu incl excl recs = Throw x ->
  uid_fault uids x \/
  exists Q r R s, recs = (Q ++ r :: R)%list /\ make_decoder uids annos nu incl excl Q = Ok s /\
    (r_mn r = None \/ wantedb incl excl (r_tags r) = true) /\ fault annos (read incl excl Q) r x.
Proof. exact reason_lemma. Qed.
Print Assumptions C58_reason.
Example C58_reason_ex :
  Forall (fun p => sizes32 (fst p) /\ room [] 1 (List.length (read [] [] (fst p))) /\ make_decoder [] [] 1 [] [] (fst p) = Throw (snd p))
  [(t_incompatible, EBuildErrorFieldsIncompatible); (t_short_after, EBuildErrorOpcodeConflict); (t_same_name, EBuildErrorDuplicateMnemonic);
   (t_no_expansion, EBuildErrorUnknownExpansion); (t_no_form, EBuildErrorUnknownForm); (t_no_field, EBuildErrorUnknownFormField);
   (t_overlay_lost, EBuildErrorOverlayBaseNotFound); (t_overlay_compressed, EBuildErrorOverlayBaseNotFound)].
Proof. exact reason_cases. Qed.
(** C58.  An assertion fails only for a record without a form, one whose expansion has no UID, and
    an encoding that cannot stand beside an earlier one. *)
Theorem C58_abort : forall uids annos nu incl excl recs,
  sizes32 recs -> room uids nu (List.length (read incl excl recs)) ->
  make_decoder uids annos nu incl excl recs = AssertFail ->
  exists Q r R s, recs = (Q ++ r :: R)%list /\ make_decoder uids annos nu incl excl Q = Ok s /\
    (r_mn r = None \/ wantedb incl excl (r_tags r) = true) /\ abort uids (read incl excl Q) r.
Proof. exact abort_lemma. Qed.
Print Assumptions C58_abort.
Example C58_abort_ex :
  Forall (fun t => sizes32 t /\ room [] 1 (List.length (read [] [] t)) /\ make_decoder [] [] 1 [] [] t = AssertFail) [t_short_before; t_fixed_twice].
Proof. exact abort_cases. Qed.
(** C58, finding.  Not every clash of two encodings is reported by an exception: it depends on the
    order of the records. *)
Theorem C58_thrown_refuted : exists a b,
  make_decoder [] [] 1 [] [] [a; b] = Throw EBuildErrorOpcodeConflict /\ make_decoder [] [] 1 [] [] [b; a] = AssertFail.
Proof. exact thrown_refuted_lemma. Qed.
Print Assumptions C58_thrown_refuted.
(** C58, finding.  An overlay's base may be "not found" although an earlier record has that name. *)
Theorem C58_base_refuted : exists P r o base s,
  jo_base o = Some base /\ r_overlay r = Some o /\ (exists r', In r' P /\ is_inst r' base) /\
  make_decoder [] [] 1 [] [] P = Ok s /\ make_decoder [] [] 1 [] [] (P ++ [r]) = Throw EBuildErrorOverlayBaseNotFound.
Proof. exact base_refuted_lemma. Qed.
Print Assumptions C58_base_refuted.
