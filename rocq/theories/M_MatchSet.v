(** Model of mavis/MatchSet.hpp (with mavis/Tag.hpp and mavis/Pattern.hpp). *)
From Coq Require Import List Bool String.
Import ListNotations.
Local Open Scope string_scope.

(** std::set<std::string>: a list in the order of operator<, without repetitions. *)
Fixpoint set_insert (s : string) (l : list string) : list string :=
  match l with
  | [] => [s]
  | x :: r => match String.compare s x with Lt => s :: l | Eq => l | Gt => x :: set_insert s r end
  end.
Definition set_of (l : list string) : list string := fold_left (fun acc s => set_insert s acc) l [].
(** MatchSet.hpp:118-121: t_vect_ (an object of T is modelled by the string it was made from; the
    construction of a Pattern from a string that is no regular expression, which throws, is left
    out), is_empty_ and s_set_. *)
Record mset := mkMS { ms_v : list string; ms_e : bool; ms_s : list string }.
Definition is_empty_list (l : list string) : bool := match l with [] => true | _ => false end.
(** MatchSet.hpp:12-14; :16-18, from a vector; :19-21, from a set. *)
Definition ms_new : mset := mkMS [] true [].
Definition ms_of_vec (v : list string) : mset := mkMS v (is_empty_list v) (set_of v).
Definition ms_of_set (s : list string) : mset := mkMS s (is_empty_list s) s.
(** MatchSet.hpp:29-42: isEmpty, isMember, getV. *)
Definition ms_is_empty (m : mset) : bool := ms_e m.
Definition ms_is_member (m : mset) (s : string) : bool := existsb (String.eqb s) (ms_s m).
Definition ms_get (m : mset) : list string := ms_v m.
(** MatchSet.hpp:44-50, merge with a set; std::set_union with an inserter puts the elements of both
    sets into a set. *)
Definition ms_merge_set (m : mset) (s : list string) : mset :=
  ms_of_set (fold_left (fun acc x => set_insert x acc) s (ms_s m)).
(** MatchSet.hpp:52-55 and :57-60. *)
Definition ms_merge (m other : mset) : mset := ms_merge_set m (ms_s other).
Definition ms_merge_vec (m : mset) (v : list string) : mset := ms_merge_set m (set_of v).
Section Match.
(** [m.match(p)] of an element and a pattern. *)
Context {P : Type} (mat : string -> P -> bool).
(** MatchSet.hpp:62-74, matchAny and matchAll. *)
Definition match_any (m : mset) (p : P) : bool := existsb (fun s => mat s p) (ms_v m).
Definition match_all (m : mset) (p : P) : bool := forallb (fun s => mat s p) (ms_v m).
End Match.
Section Match2.
Context (mat : string -> string -> bool).
(** MatchSet.hpp:76-114. *)
Definition match_any_any (m mp : mset) : bool := existsb (fun s => existsb (mat s) (ms_get mp)) (ms_v m).
Definition match_any_all (m mp : mset) : bool := existsb (fun s => forallb (mat s) (ms_get mp)) (ms_v m).
Definition match_all_any (m mp : mset) : bool := forallb (fun s => existsb (mat s) (ms_get mp)) (ms_v m).
Definition match_all_all (m mp : mset) : bool := forallb (fun s => forallb (mat s) (ms_get mp)) (ms_v m).
End Match2.
