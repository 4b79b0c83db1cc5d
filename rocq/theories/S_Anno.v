(** Specification: what the annotation files and the overrides say about a mnemonic. *)
From Coq Require Import List Bool String.
From Verif Require Import M_Registry M_Builder M_DTable S_Table.
Import ListNotations.
Local Open Scope string_scope.

(** The last of the answers that says something. *)
Fixpoint last_said {T} (l : list (option T)) : option T :=
  match l with [] => None | x :: r => match last_said r with Some v => Some v | None => x end end.
(** The value of attribute [a] in one record (if an attribute is listed twice, the last counts). *)
Definition attr (a : string) (r : arec) : option string :=
  last_said (map (fun p => if String.eqb (fst p) a then Some (snd p) else None) r).
(** The value of attribute [a] in an annotation object: the last record it was allocated or
    updated with that has the attribute. *)
Definition anno_attr (a : string) (x : anno) : option string := last_said (map (attr a) x).
(** The last override of attribute [a] of [mn]. *)
Definition override (ovs : list (string * string * string)) (mn a : string) : option string :=
  last_said (map (fun t : string * string * string =>
    let '(m, b, v) := t in if (String.eqb m mn && String.eqb b a)%bool then Some v else None) ovs).
(** The last record about [mn] in the files that sets attribute [a]. *)
Definition filed (files : list (list (string * arec))) (mn a : string) : option string :=
  last_said (map (fun p => if String.eqb (fst p) mn then attr a (snd p) else None) (List.concat files)).
(** [mn] is in one of the files. *)
Definition in_files (files : list (list (string * arec))) (mn : string) : Prop := exists f, In f files /\ In mn (map fst f).
(** A mnemonic occurs twice in one of the files. *)
Definition repeats (files : list (list (string * arec))) : Prop := exists f, In f files /\ ~ NoDup (map fst f).

(** The first of the two names that has an annotation. *)
Definition either (annos : list (string * anno)) (x y : string) : option anno :=
  match mfind annos x with Some a => Some a | None => mfind annos y end.
(** The annotation that belongs to the instruction record [r], of mnemonic [mn]: that of the
    factory it names or its own; for a compressed instruction that of its expansion. *)
Definition base_anno (annos : list (string * anno)) (r : irec) (mn : string) : option anno :=
  if String.eqb (r_expand r) "" then either annos (fname_of r mn) mn else mfind annos (r_expand r).
