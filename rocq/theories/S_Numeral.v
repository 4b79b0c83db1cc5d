(** Specification: which number a text stands for, whatever the text (C55).  The rules are those
    of the C library for the functions the decoder uses. *)
From Coq Require Import Ascii NArith List Bool String.
From Verif Require Import S_Override S_Text.
Import ListNotations.
Local Open Scope N_scope.

(** The text [t] starts with the number [n] in base [b], and the digits end there. *)
Definition leads (b : N) (t : string) (n : N) : Prop :=
  exists s r, t = (s ++ r)%string /\ writes b s n /\ forall c r' d, r = String c r' -> In (c, d) digits -> b <= d.
(** The text starts with 0x and a hexadecimal number. *)
Definition leads_0x (t : string) (n : N) : Prop := exists p u, In p ["0x"; "0X"]%string /\ t = (p ++ u)%string /\ leads 16 u n.
(** The number in front of a text: hexadecimal... *)
Definition hexadecimal (t : string) (n : N) : Prop :=
  leads_0x t n \/ ((forall m, ~ leads_0x t m) /\ leads 16 t n).
(** ...or in the base that the first characters tell: 0x, 0 for octal, another digit for decimal. *)
Definition any_base (t : string) (n : N) : Prop :=
  leads_0x t n \/
  ((forall m, ~ leads_0x t m) /\ ((leading_zero t /\ leads 8 t n) \/ (~ leading_zero t /\ leads 10 t n))).
(** A text, its sign, and what is left without it and the blanks in front. *)
Definition parts (t : string) (minus : bool) (u : string) : Prop :=
  exists w, blank w /\
    ((t = (w ++ String "-" u)%string /\ minus = true) \/ (t = (w ++ String "+" u)%string /\ minus = false) \/
     (t = (w ++ u)%string /\ minus = false /\ forall c r, u = String c r -> ~ space c /\ c <> "-"%char /\ c <> "+"%char)).
