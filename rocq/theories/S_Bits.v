(** Specification vocabulary: bit slices of words, by arithmetic only. *)
From Coq Require Import NArith ZArith List Bool.
Import ListNotations.
Local Open Scope N_scope.

(** The [len] bits of [w] starting at bit [lo], as a number. *)
Definition slice (lo len w : N) : N := (w / 2 ^ lo) mod 2 ^ len.
(** [w] with those bits replaced by the low [len] bits of [v]. *)
Definition put (lo len v w : N) : N :=
  w mod 2 ^ lo + 2 ^ lo * (v mod 2 ^ len) + 2 ^ (lo + len) * (w / 2 ^ (lo + len)).

(** The positions of the 1 bits of [w] among [from, from+n), increasing. *)
Fixpoint ones_from (n : nat) (from w : N) : list N :=
  match n with
  | O => []
  | S n' => (if N.testbit w from then [from] else []) ++ ones_from n' (from + 1) w
  end.
(** The positions of the 1 bits of a 64-bit word, and how many there are. *)
Definition ones_of (w : N) : list N := ones_from 64 0 w.
Definition popcount (w : N) : N := N.of_nat (length (ones_of w)).
(** The word whose 1 bits are at the listed positions. *)
Definition mask_of (l : list N) : N := fold_right (fun i a => N.lor (2 ^ i) a) 0 l.

(** [z] is the two's-complement value of the [bits]-bit number [v]. *)
Definition twos_complement (bits v : N) (z : Z) : Prop :=
  (- 2 ^ (Z.of_N bits - 1) <= z < 2 ^ (Z.of_N bits - 1))%Z /\
  (z mod 2 ^ Z.of_N bits = Z.of_N v mod 2 ^ Z.of_N bits)%Z.

(** The number made of consecutive parts of [ic], least significant part first;
    each part is (first bit, length). *)
Fixpoint concat_spec (parts : list (N * N)) (ic : N) : N :=
  match parts with
  | [] => 0
  | (lo, len) :: r => slice lo len ic + 2 ^ len * concat_spec r ic
  end.
