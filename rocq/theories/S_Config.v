(** Specification: the configurations that are accepted (C63).  The instruction records are
    described in S_Accept; here are the records of pseudo-instructions and the configuration as a
    whole, in terms of what the user supplies. *)
From Coq Require Import NArith List Bool String.
From Verif Require Import M_Base M_Meta M_Extract M_Registry M_Builder M_DTable M_Direct M_Pseudo M_Context.
From Verif Require Import S_Bits S_Trie S_Table S_Meta S_Accept S_Blame S_Direct S_Pseudo.
From Verif Require S_Anno.
Import ListNotations.
Local Open Scope N_scope.

(** The names of the pseudo-instructions, in order. *)
Definition pseudo_names (recs : list prec) : list string :=
  flat_map (fun p => match r_pseudo (fst p) with Some mn => [mn] | None => [] end) recs.
(** Everything a record of a pseudo-instruction names is known, and its sizes are possible. *)
Definition pseudo_ok (p : prec) : Prop :=
  record_ok (r_meta (fst p)) /\
  (forall n, In n (pc_sources (snd p) ++ pc_dests (snd p)) -> exists f, field_name f = Some n) /\
  (forall n, In n (pc_specials (snd p)) -> exists s, special_named n s).
(** No two have the same name.  (One may have the name of an instruction.) *)
Definition pseudos_ok (recs : list prec) : Prop :=
  NoDup (pseudo_names recs) /\ forall p, In p recs -> r_pseudo (fst p) <> None -> pseudo_ok p.
(** What an exception says is wrong with the record [p], which comes after [P]. *)
Definition pseudo_fault (P : list prec) (p : prec) (x : exn) : Prop :=
  match x with
  | EBuildErrorDuplicateMnemonic => exists mn, r_pseudo (fst p) = Some mn /\ In mn (pseudo_names P)
  | EUnknownFieldID => exists n, In n (pc_sources (snd p) ++ pc_dests (snd p)) /\ forall f, field_name f <> Some n
  | EUnknownSpecialFieldID => exists n, In n (pc_specials (snd p)) /\ forall s, ~ special_named n s
  | _ => clause_fault (r_meta (fst p)) x
  end.
(** The first record that is not in order has the defect. *)
Definition first_fault (recs : list prec) (x : exn) : Prop :=
  exists P p R, recs = (P ++ p :: R)%list /\ pseudos_ok P /\ r_pseudo (fst p) <> None /\ pseudo_fault P p x.

(** The instruction records that are read. *)
Definition read_of (c : config) : list irec := read (c_incl c) (c_excl c) (map fst (c_recs c)).
(** There are UIDs for all. *)
Definition enough (c : config) (nu : N) : Prop :=
  room (c_uids c) nu (List.length (read_of c) + List.length (pseudo_names (c_recs c))).
(** There are no alias stencils, or the fixed fields tell all encodings apart. *)
Definition clear_cut (K : list irec) : Prop := unambiguous (encodings K) \/ Forall (fun r => r_alias r = []) K.
(** The user's UIDs are usable; no annotation file describes an instruction twice; the
    instruction records can be placed (C56); the pseudo-instructions are in order. *)
Definition config_ok (c : config) : Prop :=
  uids_ok (c_uids c) /\ ~ S_Anno.repeats (c_files c) /\
  named_all (map fst (c_recs c)) /\ in_order (c_uids c) (List.concat (c_files c)) (read_of c) /\ fitting (encodings (read_of c)) /\
  pseudos_ok (c_recs c).
