(** Specification: numerals. *)
From Coq Require Import Ascii NArith List Bool String.
From Verif Require Import S_Override.
Import ListNotations.
Local Open Scope N_scope.

Definition digits : list (ascii * N) :=
  [("0", 0); ("1", 1); ("2", 2); ("3", 3); ("4", 4); ("5", 5); ("6", 6); ("7", 7); ("8", 8); ("9", 9);
   ("a", 10); ("b", 11); ("c", 12); ("d", 13); ("e", 14); ("f", 15);
   ("A", 10); ("B", 11); ("C", 12); ("D", 13); ("E", 14); ("F", 15)]%char.
(** The text [s] is the number [n] written in base [b]. *)
Inductive writes (b : N) : string -> N -> Prop :=
| W_one c d : In (c, d) digits -> d < b -> writes b (String c "") d
| W_more s n c d : writes b s n -> In (c, d) digits -> d < b -> writes b (s ++ String c "")%string (n * b + d).
(** With or without 0x in front. *)
Definition hex_marks : list string := [""; "0x"; "0X"]%string.
(** The capital letters. *)
Definition capitals : list ascii :=
  ["A"; "B"; "C"; "D"; "E"; "F"; "G"; "H"; "I"; "J"; "K"; "L"; "M"; "N"; "O"; "P"; "Q"; "R"; "S"; "T"; "U"; "V"; "W"; "X"; "Y"; "Z"]%char.
Definition leading_zero (s : string) : Prop := exists r, s = String "0" r.
