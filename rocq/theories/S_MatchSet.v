(** Specification: sets of tags and patterns. *)
From Coq Require Import List Bool String Sorted.
From Verif Require Import M_Builder M_MatchSet S_Table.
Import ListNotations.

(** Ways to make one through the API. *)
Inductive mexp : Type :=
| Nothing
| Vector (v : list string)
| SetOf (v : list string)                  (* from a std::set of these strings *)
| WithSet (m : mexp) (v : list string)     (* merge *)
| WithVector (m : mexp) (v : list string)
| With (m other : mexp).
Fixpoint made_by (m : mexp) : mset :=
  match m with
  | Nothing => ms_new
  | Vector v => ms_of_vec v
  | SetOf v => ms_of_set (set_of v)
  | WithSet m v => ms_merge_set (made_by m) (set_of v)
  | WithVector m v => ms_merge_vec (made_by m) v
  | With m o => ms_merge (made_by m) (made_by o)
  end.
(** The strings put into it. *)
Fixpoint member (m : mexp) (s : string) : Prop :=
  match m with
  | Nothing => False
  | Vector v | SetOf v => In s v
  | WithSet m v | WithVector m v => member m s \/ In s v
  | With m o => member m s \/ member o s
  end.
(** The last step was a merge. *)
Definition merged (m : mexp) : Prop := match m with WithSet _ _ | WithVector _ _ | With _ _ => True | _ => False end.
Definition before (a b : string) : Prop := String.compare a b = Lt.

(** ** Tags of a decoded instruction *)
(** Record [r], which describes an instruction: its tags, or those of its expansion's record ([nop]
    and [cmov] exist without one and have no tags). *)
Definition base_tag (recs : list irec) (r : irec) (tag : string -> Prop) : Prop :=
  (r_expand r = ""%string /\ forall t, tag t <-> In t (r_tags r)) \/
  (r_expand r <> ""%string /\
     ((exists rx, In rx recs /\ is_inst rx (r_expand r) /\ forall t, tag t <-> In t (r_tags rx)) \/
      (untouched recs (r_expand r) /\ forall t, ~ tag t))).
