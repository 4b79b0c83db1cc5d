(** Specification: the text of annotation overrides, and annotation files by name. *)
From Coq Require Import Ascii List Bool String.
From Verif Require Import M_Builder M_Override S_Table S_Anno.
Import ListNotations.
Local Open Scope string_scope.

Definition space (c : ascii) : Prop := In c [" "; "009"; "010"; "011"; "012"; "013"]%char.
Fixpoint letters (s : string) : list ascii := match s with "" => [] | String c r => c :: letters r end.
(** Nothing but white space. *)
Definition blank (s : string) : Prop := forall c, In c (letters s) -> space c.
(** White space neither first nor last. *)
Definition trimmed (s : string) : Prop :=
  (forall c r, s = String c r -> ~ space c) /\ (forall c r, s = r ++ String c "" -> ~ space c).
(** [t] is the word [w], maybe with white space around it. *)
Definition word (t w : string) : Prop := trimmed w /\ exists x y, blank x /\ blank y /\ t = x ++ w ++ y.
(** The text [t] is of the form  name : value. *)
Definition binding (t a v : string) : Prop :=
  exists l r, t = l ++ ":" ++ r /\ ~ In ":"%char (letters l) /\ word l a /\ word r v /\ a <> "" /\ v <> "".
(** The override ([fst p], [snd p]) sets attribute [a] of [mn] to the value written [v]. *)
Definition says (p : string * string) (mn a v : string) : Prop := word (fst p) mn /\ binding (snd p) a v.
(** It is one that can be used. *)
Definition usable (json : string -> option string) (p : string * string) : Prop :=
  exists mn a v, says p mn a v /\ json v <> None.
(** The same with the value that the JSON library makes of the text. *)
Definition means (json : string -> option string) (p : string * string) (t : string * string * string) : Prop :=
  exists v, says p (fst (fst t)) (snd (fst t)) v /\ json v = Some (snd t).
(** The files that have a name, with their records; [None] if one of them cannot be read. *)
Fixpoint contents (fs : list (string * disk)) : option (list (list (string * arec))) :=
  match fs with
  | [] => Some []
  | (n, d) :: r =>
      if String.eqb n "" then contents r
      else match d, contents r with Holds recs, Some l => Some (recs :: l) | _, _ => None end
  end.
