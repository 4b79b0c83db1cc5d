(** Model of the texts of the exceptions: mavis/DecoderExceptions.h (BaseException::what), with
    the arguments that the throwing code passes.  [Throw e] of the other model files says which
    exception is thrown; the functions here give its text. *)
From Coq Require Import NArith ZArith List Bool String.
From Verif Require Import M_Base M_Field M_Forms M_Meta M_OperandInfo M_Extract M_Decoded M_Registry M_Trie M_Builder M_DTable.
Import ListNotations.
Local Open Scope string_scope.

Definition quoted (s : string) : string := "'" ++ s ++ "'".

(** ** Decoding *)
(** DecoderExceptions.h:699-710, UnknownOpcode. *)
Definition w_unknown_opcode (ic : N) : string := "Cannot decode opcode 0x" ++ hex ic.
(** DecoderExceptions.h:716-728, IllegalOpcode. *)
Definition w_illegal_opcode (mn : string) (ic : N) : string :=
  "Opcode 0x" ++ hex ic ++ " is illegal for instruction " ++ quoted mn.
(** mavis/IFactory.h:295-337 throws IllegalOpcode with the mnemonic of the slot it stops at;
    every UnknownOpcode (mavis/IFactory.h:325, 668, 978, 983, mavis/DTable.h:217, 246) has the
    opcode that was asked for. *)
Definition decode_what (s : builder * tree) (ic : N) : string :=
  match tree_sel (snd s) ic with
  | Ok (mn, _) => w_illegal_opcode mn ic
  | _ => w_unknown_opcode ic
  end.

(** ** Queries *)
(** The names in mavis/Extractor.h:253-284 and, for the classes with fields of their own,
    impl/forms/ExtractorForms.h:2966, 3119, 3125, 3656, impl/forms/ExtractorDerived.h:2560. *)
Definition sf_caption (s : sfid) : string :=
  match s with
  | SF_AQ => "AQ" | SF_AVL => "AVL" | SF_CSR => "CSR" | SF_FM => "FM" | SF_NF => "NF" | SF_PRED => "PRED"
  | SF_RL => "RL" | SF_RM => "RM" | SF_SUCC => "SUCC" | SF_VM => "VM" | SF_WD => "WD" | SF_HINT => "HINT"
  | SF__N => "__N"
  end.
(** mavis/OpcodeInfo.h:373-382: UnsupportedExtractorSpecialFieldID is thrown again with the
    mnemonic (DecoderExceptions.h:540-552); InvalidExtractorSpecialFieldID (505-513) is not caught. *)
Definition special_what (v : info) (s : sfid) : string :=
  match s with
  | SF__N => "Invalid extractor special field id " ++ quoted (sf_caption s) ++ " requested from opcode 0x" ++ hex (i_icode v)
  | _ => "Extractor special field id " ++ quoted (sf_caption s) ++ " for instruction " ++ quoted (d_mnemonic (i_di v)) ++
         " (opcode 0x" ++ hex (i_icode v) ++ ") is not supported"
  end.
(** mavis/InstMetaData.h:227-246, ofinames_, and 640-644, getFieldIDName. *)
Definition fid_caption (f : fid) : string :=
  match f with
  | RS1 => "rs1" | RS2 => "rs2" | RS3 => "rs3" | RS4 => "rd4" | RS_MAX => "rs_max"
  | FUSED_SD_0 => "fused_sd_0" | FUSED_SD_1 => "fused_sd_1"
  | TEMP_RS1 => "temp_rs1" | TEMP_RS2 => "temp_rs2" | TEMP_RS3 => "temp_rs3"
  | RD => "rd" | RD2 => "rd2" | RD_MAX => "rd_max"
  | FUSED_RD_0 => "fused_rd_0" | FUSED_RD_1 => "fused_rd_1" | TEMP_RD => "temp_rd" | TEMP_RD2 => "temp_rd2"
  end.
(** mavis/OperandInfo.hpp:129-163 with DecoderExceptions.h:763-774, OperandInfoInvalidFieldID. *)
Definition field_what (f : fid) : string := "OperandInfo field ID " ++ quoted (fid_caption f) ++ " is invalid".

(** ** Building *)
(** DecoderExceptions.h:84-104, the two constructors of BuildErrorUnknownForm. *)
Definition w_form_of (file mn fn : string) : string :=
  "Form " ++ quoted fn ++ " for mnemonic " ++ quoted mn ++ " in JSON ISA file " ++ quoted file ++ " is unknown".
Definition w_form (fn : string) : string := "Attempt to reference unknown form " ++ quoted fn.
(** DecoderExceptions.h:301-312, BuildErrorUnknownFormField. *)
Definition w_form_field (form fld : string) : string :=
  "Field " ++ quoted fld ++ ":  in form " ++ quoted form ++ " is not known to the decoder (Form<> object)".
(** mavis/Field.h:65-71, Field::print. *)
Definition field_text (f : field) : string :=
  f_name f ++ ": pos: " ++ dec (f_rpos f) ++ " len: " ++ dec (f_len f) ++ " mask: 0x" ++ hex (f_mask f) ++ " >> " ++ dec (f_rpos f).
(** DecoderExceptions.h:115-128, BuildErrorFieldsIncompatible. *)
Definition w_incompatible (mn : string) (existing building : field) : string :=
  "Instruction " ++ quoted mn ++ ": field " ++ quoted (field_text building) ++ " is incompatible with field " ++
  quoted (field_text existing) ++ " from a prior instruction".
(** DecoderExceptions.h:161-172, BuildErrorOpcodeConflict. *)
Definition w_conflict (mn : string) (st : N) : string :=
  "Instruction " ++ quoted mn ++ ": opcode 0x" ++ hex st ++ " is the same as another instruction, with incompatible form".
(** DecoderExceptions.h:180-192, BuildErrorUnknownExpansion. *)
Definition w_expansion (mn xpand : string) : string :=
  "Instruction " ++ quoted mn ++ ":  Expansion factory " ++ quoted xpand ++
  " not yet declared. Move this instruction after the named factory in the JSON file".
(** DecoderExceptions.h:335-346, BuildErrorDuplicateMnemonic. *)
Definition w_duplicate (mn : string) : string :=
  "Instruction " ++ quoted mn ++ ":  has duplicate registry entry. Check the ISA and annotation JSON files for correctness".

(** mavis/InstMetaData.h:267-377: the first name, number or entry that the constructor stumbles
    over.  DecoderExceptions.h:201-299.  The texts of "isa" entries are not part of a record;
    they are shown as the width, if any, and the letter. *)
Definition bad_type (ts : list string) : option string :=
  find (fun t => match itype_of t with None => true | Some _ => false end) ts.
Definition bad_field (c : option oper_clause) : option string :=
  match c with
  | Some (OperList l) => find (fun n => match get_fid n with None => true | Some _ => false end) l
  | _ => None
  end.
Fixpoint first_some {A} (l : list (option A)) : option A :=
  match l with [] => None | Some a :: _ => Some a | None :: r => first_some r end.
Definition bad_letter (e : option N * string) : bool :=
  match find (fun p : string * N => String.eqb (fst p) (snd e)) isamap with None => true | Some _ => false end.
Definition bad_width (e : option N * string) : bool :=
  match fst e with None => false | Some n => ((n =? 0) || negb (N.land n (n - 1) =? 0))%N end.
Definition entry_text (e : option N * string) : string :=
  (match fst e with None => "" | Some w => dec w end) ++ snd e.
Definition or_empty (o : option string) : string := match o with Some s => s | None => "" end.
Definition meta_what (mn : string) (j : jmeta) (e : exn) : string :=
  let head := "Instruction " ++ quoted mn ++ ": " in
  match e with
  | EBuildErrorUnknownType =>
      head ++ " type " ++ quoted (or_empty (bad_type (match jm_type j with Some ts => ts | None => [] end))) ++
      " is not known to the decoder (InstMetaData object)"
  | EBuildErrorInvalidDataSize =>
      let d := match jm_data j with Some d => d | None => 0%N end in
      head ++ " data size " ++ quoted (sdec (if (d <? 2147483648)%N then Z.of_N d else Z.of_N d - 4294967296)%Z) ++
      " must be a positive power-of-2 or zero (InstMetaData object)"
  | EBuildErrorUnknownFormField =>
      w_form_field "InstMetaData"
        (or_empty (first_some (map (fun k => bad_field (jm_oper j k)) [KWord; KLong; KSingle; KDouble; KQuad; KVector])))
  | EBuildErrorInvalidISAExtension =>
      match find (fun e => bad_letter e || bad_width e) (jm_isa j) with
      | Some e => head ++ "ISA extension " ++ quoted (entry_text e) ++ " uses an unknown letter " ++ quoted (snd e)
      | None => ""
      end
  | EBuildErrorInvalidISAWidth =>
      match find (fun e => bad_letter e || bad_width e) (jm_isa j) with
      | Some e => head ++ "Width " ++ dec (match fst e with Some w => w | None => 0%N end) ++ " for ISA extension " ++
                  quoted (entry_text e) ++ " must be a non-zero power of 2"
      | None => ""
      end
  | EBuildErrorDuplicateMnemonic => w_duplicate mn      (* mavis/InstMetaDataRegistry.hpp:24 *)
  | _ => ""
  end.

(** impl/DTable.tcc:284-313: the field of the node and the field of the form that do not agree. *)
Section Descend.
Context (ign : list string) (st : N).
Fixpoint clash (fs : list field) (cur : node) {struct fs} : option (field * field) :=
  match fs with
  | [] => None
  | f :: rest =>
      match cur with
      | Special _ _ => None
      | Dense g tab d =>
          if negb (f_equiv g f) then Some (g, f)
          else match (if is_ignored ign f then d else tab (f_extract g st)) with
               | None => None                  (* a new node, for the next field *)
               | Some c => clash rest c
               end
      end
  end.
End Descend.
Definition tree_clash (fm : form) (ign : list string) (st : N) (t : tree) : option (field * field) :=
  match root_class st with
  | None => None
  | Some c => match t c with None => None | Some n => clash ign st (fm_ocfields fm) n end
  end.
(** mavis/IFactory.h:169-177 with mavis/Form.h:68-75: the first fixed field that the form lacks. *)
Definition bad_fixed (fm : form) (fl : list string) : option string :=
  find (fun n => match get_field fm n with Throw _ => true | _ => false end) fl.
(** build_ (impl/DTable.tcc:259-333) and buildLeaf_ (182-249) for one stencil. *)
Definition place_what (r : irec) (mn : string) (fm : form) (st : N) (t : tree) (e : exn) : string :=
  match e with
  | EBuildErrorFieldsIncompatible =>
      match tree_clash fm (r_ignore r) st t with Some (g, f) => w_incompatible mn g f | None => "" end
  | EBuildErrorOpcodeConflict => w_conflict mn st
  | EBuildErrorUnknownForm => w_form (fm_name fm)
  | EBuildErrorUnknownFormField => w_form_field (fm_name fm) (or_empty (bad_fixed fm (r_fixed r)))
  | EBuildErrorUnknownExpansion => w_expansion mn (r_expand r)
  | _ => ""
  end.
(** impl/DTable.tcc:88-95, the "alias" stencils. *)
Fixpoint aliases_what (r : irec) (mn fname : string) (fm : form) (x : option xcls) (m : meta) (i : nat)
  (sts : list N) (s : builder * tree) : string :=
  match sts with
  | [] => ""
  | st :: rest =>
      match build_tree fm (r_ignore r) st
              (build_leaf (fst s) fm mn st (r_fixed r) fname (r_expand r) x m (Some i)) (snd s) with
      | Ok (t, (b, _, false)) => aliases_what r mn fname fm x m i rest (b, t)
      | Throw e => place_what r mn fm st (snd s) e
      | _ => ""
      end
  end.
(** The overlay branch, impl/DTable.tcc:65-75, mavis/Overlay.hpp:38-65 and
    mavis/IFactoryBuilder.h:170-194; DecoderExceptions.h:409-497. *)
Definition overlay_what (file mn : string) (o : jolay) (j : jmeta) (e : exn) : string :=
  let base := or_empty (jo_base o) in
  let head := "Overlay instruction " ++ quoted mn in
  let check := " Check the ISA and annotation JSON files for correctness" in
  match e with
  | EBuildErrorOverlayMissingBase => head ++ ":  is missing a base instruction specification." ++ check
  | EBuildErrorOverlayMissingMatch => head ++ ":  is missing a match specification." ++ check
  | EBuildErrorOverlayBadMatchSpec => head ++ ":  Match specification must have the form [mask_hex_string, val_hex_string]."
  | EBuildErrorOverlayBaseNotFound =>
      head ++ "  in JSON ISA file " ++ quoted file ++ ": The overlay's base instruction " ++ quoted base ++ " is not found." ++ check
  | EBuildErrorOverlayMissingAnnotation =>
      head ++ ":  Cannot find an annotation corresponding to either this mnemonic, or its base instruction " ++ quoted base ++ "." ++ check
  | _ => meta_what mn j e
  end.
(** impl/DTable.tcc:22-100, parseInstInfo_: the text of the exception [e] it throws. *)
Definition parse_what (file : string) (s : builder * tree) (r : irec) (mn : string) (e : exn) : string :=
  match (match r_xform r with None => Ok None | Some n => let* c := get_extractor n in Ok (Some c) end) with
  | Throw _ => w_form (or_empty (r_xform r))
  | Ok x =>
      match r_overlay r with
      | Some o => overlay_what file mn o (r_meta r) e
      | None =>
          let fn := or_empty (r_form r) in
          match get_form fn with
          | Throw _ => w_form_of file mn fn
          | Ok fm =>
              match make_inst_meta (fst s) mn (r_meta r) (negb (String.eqb (r_expand r) "")) (r_tags r) with
              | Throw e => meta_what mn (r_meta r) e
              | Ok (b, m) =>
                  let fname := match r_factory r with None => mn | Some f => f end in
                  match build_tree fm (r_ignore r) (r_stencil r)
                          (build_leaf b fm mn (r_stencil r) (r_fixed r) fname (r_expand r) x m None) (snd s) with
                  | Throw e => place_what r mn fm (r_stencil r) (snd s) e
                  | Ok (t, (b, i, false)) => aliases_what r mn fname fm x m i (r_alias r) (b, t)
                  | _ => ""
                  end
              | _ => ""
              end
          | _ => ""
          end
      end
  | _ => ""
  end.
(** impl/DTable.tcc:108-171, configure.  Simplification: one file, named [file]; the text of a
    stencil is not part of a record, so BuildErrorMissingMnemonic is shown as for a record
    without one (DecoderExceptions.h:61-69). *)
Fixpoint configure_what (file : string) (incl excl : list pattern) (recs : list irec) (s : builder * tree) : string :=
  match recs with
  | [] => ""
  | r :: rest =>
      match r_mn r with
      | Some mn =>
          if tag_filter incl excl (r_tags r)
          then match parse_inst s r mn with
               | Ok s => configure_what file incl excl rest s
               | Throw e => parse_what file s r mn e
               | _ => ""
               end
          else configure_what file incl excl rest s
      | None => match r_pseudo r with
                | Some _ => configure_what file incl excl rest s
                | None => "The JSON ISA file " ++ quoted file ++ " is missing a mnemonic in one of the clauses"
                end
      end
  end.
(** mavis/InstructionRegistry.hpp:49-71, the user's list; DecoderExceptions.h:577-625. *)
Fixpoint uids_what (l : list (string * N)) (used : list N) (names : list string) : string :=
  match l with
  | [] => ""
  | (mn, uid) :: rest =>
      if (uid =? INVALID_UID)%N
      then "Invalid instruction ID " ++ quoted (dec uid) ++ " for instruction " ++ quoted mn ++ " in InstIDList provided to builder"
      else if existsb (N.eqb uid) used
      then "Instruction ID " ++ quoted (dec uid) ++ " for instruction " ++ quoted mn ++ " is already used in InstIDList provided to builder"
      else if existsb (String.eqb mn) names
      then "Instruction " ++ quoted mn ++ " in InstIDList provided to builder has already been registered"
      else uids_what rest (uid :: used) (mn :: names)
  end.
(** mavis/ContextRegistry.hpp:91-93. *)
Definition make_what (file : string) (uids : list (string * N)) (annos : list (string * anno)) (nu : N)
  (incl excl : list pattern) (recs : list irec) : string :=
  match builder_new uids annos nu with
  | Ok b => configure_what file incl excl recs (b, tree_new)
  | _ => uids_what uids [] []
  end.

(** Which exceptions a handler for BaseException (or std::exception) catches: those derived
    publicly from it.  mavis/DecoderExceptions.h:486 derives BuildErrorOverlayBadMatchSpec
    privately ("class ... : BaseException"). *)
Definition caught_as_base (e : exn) : bool :=
  match e with
  | EBuildErrorOverlayBadMatchSpec => false
  | EDuplicateKey | EUnassignedKey | EUnassignedIndex | EStdOutOfRange => false   (* std::exception only *)
  | _ => true
  end.
Definition caught_as_std (e : exn) : bool :=
  match e with EBuildErrorOverlayBadMatchSpec => false | _ => true end.
