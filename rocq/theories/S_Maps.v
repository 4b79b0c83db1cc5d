(** Specification: what a sequence of stores leaves behind.  No reference to the
    model.  A history lists the stores, oldest first. *)
From Coq Require Import NArith List Bool String.
Import ListNotations.
Local Open Scope N_scope.

(** [last_under eqb k h v]: [v] is the value of the last store whose key is [k]. *)
Inductive last_under {K V : Type} (k : K) : list (K * V) -> V -> Prop :=
| last_here : forall h v, last_under k (h ++ [(k, v)]) v
| last_before : forall h k' v' v, last_under k h v -> k' <> k -> last_under k (h ++ [(k', v')]) v.

(** No store under [k]. *)
Definition never_under {K V} (k : K) (h : list (K * V)) : Prop := forall v, ~ In (k, v) h.

(** Opcodes below this bound are told apart by (opcode mod 1023, opcode mod 2^32). *)
Definition cache_bound : N := 1023 * 4294967296.

(** Two-key additions (string key, numeric key, object): those that take effect are the ones
    whose string was not used by an earlier one. *)
Fixpoint accepted {T} (seen : list string) (h : list (string * N * T)) : list (string * N * T) :=
  match h with
  | [] => []
  | (s, k, v) :: r => if existsb (String.eqb s) seen then accepted seen r
                      else (s, k, v) :: accepted (s :: seen) r
  end.
