(** Specification: what each exception of a refused instruction table says is wrong.  The tables that
    are accepted are described in S_Accept; this is its counterpart for those that are not. *)
From Coq Require Import NArith List Bool String.
From Verif Require Import M_Base M_Field M_Forms M_Meta M_Extract M_Builder S_Bits S_Trie S_Table S_Meta S_Accept.
Import ListNotations.
Local Open Scope N_scope.

(** The user's list of UIDs. *)
Definition uid_fault (uids : list (string * N)) (x : exn) : Prop :=
  match x with
  | EInstIDListInvalidUID => In 0 (map snd uids)
  | EInstIDListUIDNotUnique => ~ NoDup (map snd uids)
  | EInstIDListAlreadyRegistered => ~ NoDup (map fst uids)
  | _ => False
  end.
(** The clauses of a record that describe the instruction. *)
Definition clause_fault (j : jmeta) (x : exn) : Prop :=
  match x with
  | EBuildErrorUnknownType => exists ts n, jm_type j = Some ts /\ In n ts /\ forall i, type_name i <> Some n
  | EBuildErrorInvalidDataSize => exists d, jm_data j = Some d /\ ~ good_size d
  | EBuildErrorUnknownFormField => exists k l n, jm_oper j k = Some (OperList l) /\ In n l /\ forall f, field_name f <> Some n
  | EBuildErrorInvalidISAExtension => exists e, In e (jm_isa j) /\ isa_number (snd e) = None
  | EBuildErrorInvalidISAWidth => exists e w, In e (jm_isa j) /\ fst e = Some w /\ forall k, w <> 2 ^ k
  | _ => False
  end.

(** ** Encodings *)
(** Having had the same values, the two look at different bits. *)
Fixpoint part (p q : list ((N * N) * option N)) : Prop :=
  match p, q with
  | (a, v) :: p', (b, w) :: q' => a <> b \/ (v = w /\ part p' q')
  | _, _ => False
  end.
(** Having had the same values, [p] ends and [q] goes on. *)
Fixpoint ends_first (p q : list ((N * N) * option N)) : Prop :=
  match p, q with
  | [], _ :: _ => True
  | x :: p', y :: q' => x = y /\ ends_first p' q'
  | _, _ => False
  end.
Definition same_length (e e' : enc) : Prop := length_class (en_stencil e) = length_class (en_stencil e').
(** [e] cannot be placed after the encodings [E]. *)
Definition place_fault (E : list enc) (e : enc) (x : exn) : Prop :=
  match x with
  | EBuildErrorFieldsIncompatible => exists e', In e' E /\ same_length e' e /\ part (looks e') (looks e)
  | EBuildErrorOpcodeConflict => exists e', In e' E /\ same_length e' e /\ ends_first (looks e) (looks e')
  | EBuildErrorUnknownFormField => exists n, In n (en_fixed e) /\ forall f, ~ named (en_form e) n f
  | _ => False
  end.
Definition place_abort (E : list enc) (e : enc) : Prop :=
  exists e', In e' E /\
    ((same_length e' e /\ ends_first (looks e') (looks e)) \/ (repeats e' e /\ en_mn e' <> en_mn e)).

(** ** Records after the records [P] *)
Section Records.
Context {A : Type} (uids : list (string * N)) (annos : list (string * A)) (P : list irec) (r : irec).
(** Some encoding of [r], after those of [P] and the earlier ones of [r]. *)
Definition some_encoding (F : list enc -> enc -> Prop) : Prop :=
  exists D e G, rec_encs r = (D ++ e :: G)%list /\ F (encodings P ++ D)%list e.
Definition inst_fault (mn : string) (x : exn) : Prop :=
  match x with
  | EBuildErrorUnknownForm => (exists n, r_form r = Some n /\ forall fm, get_form n <> Ok fm) \/ forall c, rec_class r <> Ok c
  | EBuildErrorDuplicateMnemonic => exists r', In r' P /\ is_inst r' mn
  | EBuildErrorUnknownExpansion => r_expand r <> ""%string /\ ~ made P (r_expand r)
  | _ => clause_fault (r_meta r) x \/ some_encoding (fun E e => place_fault E e x)
  end.
Definition overlay_fault (mn : string) (o : jolay) (x : exn) : Prop :=
  match x with
  | EBuildErrorUnknownForm => exists n, r_xform r = Some n /\ forall c, get_extractor n <> Ok c
  | EBuildErrorOverlayMissingBase => jo_base o = None
  | EBuildErrorOverlayMissingMatch => jo_match o = None
  | EBuildErrorOverlayBadMatchSpec => exists l, jo_match o = Some l /\ List.length l <> 2%nat
  | EBuildErrorOverlayBaseNotFound => exists base, jo_base o = Some base /\
      ((forall r', In r' P -> ~ is_inst r' base) \/ ~ made P base)
  | EBuildErrorOverlayMissingAnnotation => exists base, jo_base o = Some base /\
      annos <> [] /\ ~ In mn (map fst annos) /\ ~ In base (map fst annos)
  | EBuildErrorUnknownType | EBuildErrorInvalidDataSize => clause_fault (r_meta r) x
  | _ => False
  end.
(** The exception is the right one for [r]. *)
Definition fault (x : exn) : Prop :=
  match r_mn r, r_overlay r with
  | None, _ => r_pseudo r = None /\ x = EBuildErrorMissingMnemonic
  | Some mn, None => inst_fault mn x
  | Some mn, Some o => overlay_fault mn o x
  end.
(** An assertion fails instead. *)
Definition abort : Prop :=
  exists mn, is_inst r mn /\
    (r_form r = None \/
     (r_expand r <> ""%string /\ made P (r_expand r) /\ ~ numbered uids P (r_expand r)) \/
     some_encoding place_abort).
End Records.
