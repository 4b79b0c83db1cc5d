(** Specification: what the text of an exception has to tell (C67). *)
From Coq Require Import Ascii NArith List Bool String.
From Verif Require Import M_Base M_Field M_Forms M_Meta M_Extract M_Builder S_Dasm S_Trie S_Table S_Meta S_Accept.
Import ListNotations.
Local Open Scope string_scope.

(** The text [t] mentions [w], in quotes. *)
Definition mentions (t w : string) : Prop := exists a b, t = a ++ "'" ++ w ++ "'" ++ b.
(** The text [t] shows the number [n] in hexadecimal, with 0x in front and not run together with
    what follows. *)
Definition shows (t : string) (n : N) : Prop :=
  exists a h b, t = a ++ "0x" ++ h ++ b /\ numeral 16 h = Some n /\
    match b with "" => True | String c _ => numeral 16 (String c "") = None end.

(** The text [t] mentions [w] as a [k]. *)
Definition calls (t k w : string) : Prop := exists a b, t = a ++ k ++ " '" ++ w ++ "'" ++ b.
(** The text [t] tells the name, the position and the length of the field [f], after the word [k]. *)
Definition calls_field (t k : string) (f : field) : Prop :=
  exists w p l m, calls t k w /\ w = f_name f ++ ": pos: " ++ p ++ " len: " ++ l ++ " " ++ m /\
    numeral 10 p = Some (f_rpos f) /\ numeral 10 l = Some (f_len f).

(** The name of a special field, as in the manual. *)
Definition special_name (s : sfid) : string :=
  match s with
  | SF_AQ => "AQ" | SF_AVL => "AVL" | SF_CSR => "CSR" | SF_FM => "FM" | SF_NF => "NF" | SF_PRED => "PRED"
  | SF_RL => "RL" | SF_RM => "RM" | SF_SUCC => "SUCC" | SF_VM => "VM" | SF_WD => "WD" | SF_HINT => "HINT"
  | SF__N => "__N"
  end.

(** The user's list of UIDs: the text mentions the instruction at fault. *)
Definition uids_told (uids : list (string * N)) (x : exn) (t : string) : Prop :=
  exists A mn u B, uids = (A ++ (mn, u) :: B)%list /\ (calls t "instruction" mn \/ calls t "Instruction" mn) /\
  match x with
  | EInstIDListInvalidUID => u = 0%N
  | EInstIDListUIDNotUnique => In u (map snd A)
  | EInstIDListAlreadyRegistered => In mn (map fst A)
  | _ => False
  end.

(** The text [t] of the exception [x] for the record [r]: apart from two exceptions it mentions the
    instruction, and whatever name of the record is at fault. *)
Definition told (r : irec) (x : exn) (t : string) : Prop :=
  match r_mn r with
  | None => x = EBuildErrorMissingMnemonic
  | Some mn =>
      match x with
      | EBuildErrorUnknownForm => exists n, (calls t "Form" n \/ calls t "form" n) /\
          ((r_xform r = Some n /\ forall c, get_extractor n <> Ok c) \/
           (r_form r = Some n /\ ((forall fm, get_form n <> Ok fm) \/ forall c, get_extractor n <> Ok c)))
      | EBuildErrorUnknownFormField => exists n, calls t "Field" n /\
          ((exists k l, jm_oper (r_meta r) k = Some (OperList l) /\ In n l /\ forall f, field_name f <> Some n) \/
           (In n (r_fixed r) /\ exists fn fm, r_form r = Some fn /\ get_form fn = Ok fm /\ forall f, ~ named fm n f))
      | _ => (calls t "Instruction" mn \/ calls t "Overlay instruction" mn) /\
          match x with
          | EBuildErrorFieldsIncompatible => exists fn fm f g, r_form r = Some fn /\ get_form fn = Ok fm /\ In f (fm_ocfields fm) /\
              (f_rpos f, f_len f) <> (f_rpos g, f_len g) /\ calls_field t "field" f /\ calls_field t "incompatible with field" g
          | EBuildErrorUnknownType => exists ts n, jm_type (r_meta r) = Some ts /\ In n ts /\ (forall i, type_name i <> Some n) /\ calls t "type" n
          | EBuildErrorInvalidISAExtension => exists e, In e (jm_isa (r_meta r)) /\ isa_number (snd e) = None /\ calls t "letter" (snd e)
          | EBuildErrorUnknownExpansion => calls t "Expansion factory" (r_expand r)
          | EBuildErrorOverlayBaseNotFound | EBuildErrorOverlayMissingAnnotation =>
              exists o base, r_overlay r = Some o /\ jo_base o = Some base /\ calls t "base instruction" base
          | EBuildErrorOpcodeConflict => exists e, In e (rec_encs r) /\ shows t (en_stencil e)
          | _ => True
          end
      end
  end.
