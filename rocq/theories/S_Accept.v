(** Specification of the instruction tables that are accepted, in terms of the records alone.
    Nothing here mentions the decode tree or the builder. *)
From Coq Require Import NArith List Bool String.
From Verif Require Import M_Base M_Field M_Forms M_Meta M_Extract M_Builder S_Bits S_Trie S_Table S_Meta.
Import ListNotations.
Local Open Scope N_scope.

(** The records that are read: those with a mnemonic and wanted tags. *)
Definition has_name (r : irec) : bool := match r_mn r with Some _ => true | None => false end.
Definition read (incl excl : list (string -> bool)) (recs : list irec) : list irec :=
  filter has_name (kept incl excl recs).

(** ** Encodings side by side *)
(** The opcode fields of an encoding in order: position, length and value (none if ignored). *)
Definition look (e : enc) (f : field) : (N * N) * option N :=
  ((f_rpos f, f_len f),
   if existsb (String.eqb (f_name f)) (en_ign e) then None else Some (slice (f_rpos f) (f_len f) (en_stencil e))).
Definition looks (e : enc) : list ((N * N) * option N) := map (look e) (fm_ocfields (en_form e)).
(** As long as the two have had the same values they look at the same bits next, and neither
    ends before the other. *)
Fixpoint in_step (p q : list ((N * N) * option N)) : Prop :=
  match p, q with
  | [], [] => True
  | (a, v) :: p', (b, w) :: q' => a = b /\ (v = w -> in_step p' q')
  | _, _ => False
  end.
(** Bit [i] belongs to a fixed field of [e]. *)
Definition fixed_bit (e : enc) (i : N) : Prop :=
  exists n f, In n (en_fixed e) /\ named (en_form e) n f /\ f_rpos f <= i < f_rpos f + f_len f.
(** [e'] only repeats [e]: all bits given by one are given by the other, with the same value, at
    least one of them by a fixed field. *)
Definition repeats (e e' : enc) : Prop :=
  same_cell e e' /\ en_fixed e <> [] /\ en_fixed e' <> [] /\ (forall i, fixed_bit e i <-> fixed_bit e' i) /\
  fixed_agree e (en_stencil e').
(** [e'] can be placed beside the earlier [e]. *)
Definition beside (e e' : enc) : Prop :=
  (length_class (en_stencil e) = length_class (en_stencil e') -> in_step (looks e) (looks e')) /\
  (repeats e e' -> en_mn e = en_mn e').
(** The fixed fields are fields of the form. *)
Definition fixed_known (e : enc) : Prop := forall n, In n (en_fixed e) -> exists f, named (en_form e) n f.
Definition fitting (E : list enc) : Prop := Forall fixed_known E /\ ForallOrdPairs beside E.

(** ** Records one after the other *)
Section Records.
Context {A : Type} (uids : list (string * N)) (annos : list (string * A)).
(** After the records [P] an instruction (not a compressed one), or one of its factory's
    names, is called [x]. *)
Definition made (P : list irec) (x : string) : Prop :=
  custom x \/ exists r mn, In r P /\ is_inst r mn /\ r_expand r = ""%string /\ (x = mn \/ x = fname_of r mn).
(** [x] has a UID after the records [P]. *)
Definition numbered (P : list irec) (x : string) : Prop :=
  custom x \/ In x (map fst uids) \/ exists r, In r P /\ r_mn r = Some x.
Definition xform_known (r : irec) : Prop := forall n, r_xform r = Some n -> exists c, get_extractor n = Ok c.
(** An instruction [mn] is acceptable after [P]: its form, its extractor and its clauses are
    known, no earlier instruction has its name, and its expansion, if any, is an earlier one. *)
Definition inst_acceptable (P : list irec) (r : irec) (mn : string) : Prop :=
  (exists fn fm, r_form r = Some fn /\ get_form fn = Ok fm) /\ (exists c, rec_class r = Ok c) /\
  record_ok (r_meta r) /\ (forall r', In r' P -> ~ is_inst r' mn) /\
  (r_expand r = ""%string \/ (made P (r_expand r) /\ numbered P (r_expand r))).
(** An overlay [mn] is acceptable after [P]: its base is an earlier instruction, not a compressed
    one; its clauses are known; if there are annotations it or its base has one. *)
Definition overlay_acceptable (P : list irec) (r : irec) (mn : string) (o : jolay) : Prop :=
  xform_known r /\
  exists base mask value, jo_base o = Some base /\ jo_match o = Some [mask; value] /\
    (exists r', In r' P /\ is_inst r' base) /\ made P base /\
    known_types (jm_type (r_meta r)) /\ (forall d, jm_data (r_meta r) = Some d -> good_size d) /\
    (annos = [] \/ In mn (map fst annos) \/ In base (map fst annos)).
Definition acceptable (P : list irec) (r : irec) : Prop :=
  forall mn, r_mn r = Some mn ->
    match r_overlay r with None => inst_acceptable P r mn | Some o => overlay_acceptable P r mn o end.
Definition in_order (K : list irec) : Prop := forall P r Q, K = (P ++ r :: Q)%list -> acceptable P r.
End Records.

(** The user's list of UIDs. *)
Definition uids_ok (uids : list (string * N)) : Prop :=
  NoDup (map fst uids) /\ NoDup (map snd uids) /\ ~ In 0 (map snd uids).
(** [n] more UIDs can be given out. *)
Definition room (uids : list (string * N)) (nu : N) (n : nat) : Prop :=
  0 < nu /\ forall u, u = nu \/ In u (map snd uids) -> u + N.of_nat n + 200 < 2 ^ 32.
(** Every record says what it is; data sizes are 32-bit numbers. *)
Definition named_all (recs : list irec) : Prop := forall r, In r recs -> r_mn r = None -> r_pseudo r <> None.
Definition sizes32 (recs : list irec) : Prop := forall r d, In r recs -> jm_data (r_meta r) = Some d -> d < 2 ^ 32.
(** The stencils of the records, without the alias stencils. *)
Definition stencils (K : list irec) : list enc := flat_map (fun r => firstn 1 (rec_encs r)) K.
