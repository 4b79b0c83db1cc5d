(** Claim C67: the message of an exception tells what is wrong.  M_What gives the texts, S_What
    what they have to tell: [mentions t w] (the text has w in quotes), [shows t n] (the number in
    hexadecimal). *)
From Coq Require Import NArith List Bool String.
From Verif Require Import M_Base M_Meta M_OperandInfo M_Extract M_Decoded M_Trie M_Builder M_DTable M_What.
From Verif Require Import S_Meta S_Trie S_Table S_Shipped S_BlameTables S_What L_Claims L_What L_WhatCases.
Import ListNotations.
Local Open Scope N_scope.

(** C67.  Whatever decoder refuses whatever opcode, the message shows the opcode. *)
Theorem C67_opcode : forall (s : builder * tree) A U ic x, decode (A := A) (U := U) s ic = Throw x -> shows (decode_what s ic) ic.
Proof. intros s A U ic x _. exact (what_shows s ic). Qed.
Print Assumptions C67_opcode.
(** C67.  An opcode that is unknown is not called illegal for some instruction. *)
Theorem C67_unknown : forall (s : builder * tree) A U ic, decode (A := A) (U := U) s ic = Throw EUnknownOpcode ->
  decode_what s ic = ("Cannot decode opcode 0x" ++ hex ic)%string.
Proof. exact unknown_lemma. Qed.
Print Assumptions C67_unknown.
(** C67.  The message for an illegal opcode mentions the instruction whose encoding is selected
    for the opcode, and it is the extractor of that instruction that calls the opcode reserved. *)
Theorem C67_illegal : forall uids annos nu incl excl recs s,
  make_decoder uids annos nu incl excl recs = Ok s -> separated (encodings (kept incl excl recs)) ->
  forall A U ic, decode (A := A) (U := U) s ic = Throw EIllegalOpcode ->
  exists r e x, listed (kept incl excl recs) r e /\ selected (encodings (kept incl excl recs)) e ic /\ extractor_of r e x /\ reserved x ic /\
    mentions (decode_what s ic) (en_mn e).
Proof. exact illegal_lemma. Qed.
Print Assumptions C67_illegal.
Example C67_illegal_ex : exists s, make_decoder [] [] 1 [] [] lwsp = Ok s /\ separated (encodings (kept [] [] lwsp)) /\
  decode (A := unit) (U := unit) s 0x4002 = Throw EIllegalOpcode /\ decode_what s 0x4002 = "Opcode 0x4002 is illegal for instruction 'c.lwsp'"%string /\
  decode (A := unit) (U := unit) s 0x13 = Throw EUnknownOpcode /\ decode_what s 0x13 = "Cannot decode opcode 0x13"%string.
Proof. exact illegal_case. Qed.

(** C67.  A special field that an instruction does not have: the message shows the opcode, and
    mentions the field and (unless the number is no special field at all) the instruction. *)
Theorem C67_special : forall v s x, info_special v s = Throw x ->
  shows (special_what v s) (i_icode v) /\ mentions (special_what v s) (special_name s) /\
  (s <> SF__N -> mentions (special_what v s) (d_mnemonic (i_di v))).
Proof. exact special_lemma. Qed.
Print Assumptions C67_special.
Example C67_special_ex : exists s v, make_decoder [] [] 1 [] [] lwsp = Ok s /\ decode (A := unit) (U := unit) s 0x4082 = Ok v /\
  info_special v SF_CSR = Throw EUnsupportedSpecialField /\
  special_what v SF_CSR = "Extractor special field id 'CSR' for instruction 'c.lwsp' (opcode 0x4082) is not supported"%string.
Proof. exact special_case. Qed.

(** C67.  An operand that an instruction does not have: the message mentions it.  Missing: rs4. *)
Theorem C67_field_partial : forall T (q : fidinfo -> T) o f n x, oi_query q o (Some f) = Throw x ->
  field_name f = Some n -> f <> RS4 -> mentions (field_what f) n.
Proof. intros T q o f n x _. exact (field_lemma f n). Qed.
Print Assumptions C67_field_partial.
Example C67_field_ex : oi_field_value oi_empty (Some RD2) = Throw EOperandInfoInvalidFieldID /\ field_name RD2 = Some "rd2"%string /\ RD2 <> RS4.
Proof. split; [reflexivity|]. split; [reflexivity|discriminate]. Qed.
(** C67, finding.  The message for rs4 calls it rd4. *)
Theorem C67_rs4_refuted : exists o f n, oi_field_value o (Some f) = Throw EOperandInfoInvalidFieldID /\ field_name f = Some n /\ ~ mentions (field_what f) n.
Proof. exact rs4_refuted_lemma. Qed.
Print Assumptions C67_rs4_refuted.

(** C67.  A refused table: the message is about an entry of the user's list of UIDs, or about the
    first record that cannot be added, and mentions the instruction and the name at fault.
    Missing: the instruction, if a form, an extractor or a field of a form is unknown. *)
Theorem C67_build_partial : forall file uids annos nu incl excl recs x, make_decoder uids annos nu incl excl recs = Throw x ->
  let t := make_what file uids annos nu incl excl recs in
  uids_told uids x t \/
  exists Q r R s, recs = (Q ++ r :: R)%list /\ make_decoder uids annos nu incl excl Q = Ok s /\
    (r_mn r = None \/ wantedb incl excl (r_tags r) = true) /\ told r x t.
Proof. exact build_lemma. Qed.
Print Assumptions C67_build_partial.
Local Open Scope string_scope.
Example C67_build_ex : Forall (fun p => make_decoder [] [] 1 [] [] (fst (fst p)) = Throw (snd (fst p)) /\ make_what "isa.json" [] [] 1 [] [] (fst (fst p)) = snd p)
  [(t_incompatible, EBuildErrorFieldsIncompatible,
      "Instruction 'b': field 'func5: pos: 27 len: 5 mask: 0x1f >> 27' is incompatible with field 'func7: pos: 25 len: 7 mask: 0x7f >> 25' from a prior instruction");
   (t_short_after, EBuildErrorOpcodeConflict, "Instruction 'b': opcode 0x33 is the same as another instruction, with incompatible form");
   (t_same_name, EBuildErrorDuplicateMnemonic, "Instruction 'add':  has duplicate registry entry. Check the ISA and annotation JSON files for correctness");
   (t_no_expansion, EBuildErrorUnknownExpansion, "Instruction 'c.lwsp':  Expansion factory 'lw' not yet declared. Move this instruction after the named factory in the JSON file");
   (t_no_form, EBuildErrorUnknownForm, "Form 'X' for mnemonic 'add' in JSON ISA file 'isa.json' is unknown");
   (t_no_field, EBuildErrorUnknownFormField, "Field 'imm':  in form 'R' is not known to the decoder (Form<> object)");
   (t_overlay_lost, EBuildErrorOverlayBaseNotFound, "Overlay instruction 'hint'  in JSON ISA file 'isa.json': The overlay's base instruction 'addi' is not found. Check the ISA and annotation JSON files for correctness")].
Proof. exact build_cases. Qed.
Example C67_uids_ex : builder_new [("add", 5); ("sub", 7); ("mul", 5)] [] 1 = Throw EInstIDListUIDNotUnique /\
  make_what "isa.json" [("add", 5); ("sub", 7); ("mul", 5)] [] 1 [] [] [] = "Instruction ID '5' for instruction 'mul' is already used in InstIDList provided to builder".
Proof. exact uids_case. Qed.
(** C67, finding.  If the "xform" of a record is unknown, the message does not say which
    instruction has it: *)
Theorem C67_form_refuted : exists r mn, r_mn r = Some mn /\ make_decoder [] [] 1 [] [] [r] = Throw EBuildErrorUnknownForm /\
  forall file, ~ mentions (make_what file [] [] 1 [] [] [r]) mn.
Proof. exact form_refuted_lemma. Qed.
Print Assumptions C67_form_refuted.
(** ... two tables at fault in different instructions get the same message. *)
Theorem C67_same_text_refuted : exists r r', r_mn r <> r_mn r' /\
  make_decoder [] [] 1 [] [] [r] = Throw EBuildErrorUnknownForm /\ make_decoder [] [] 1 [] [] [r'] = Throw EBuildErrorUnknownForm /\
  forall file, make_what file [] [] 1 [] [] [r] = make_what file [] [] 1 [] [] [r'].
Proof. exact same_text_lemma. Qed.
Print Assumptions C67_same_text_refuted.
(** C67, finding.  A handler for std::exception does not catch every refusal of a table. *)
Theorem C67_catch_refuted : exists recs x, make_decoder [] [] 1 [] [] recs = Throw x /\ caught_as_std x = false.
Proof. exact catch_refuted_lemma. Qed.
Print Assumptions C67_catch_refuted.
