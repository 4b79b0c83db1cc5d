(** Claim C55, for every text: the number that is read.  S_Numeral says which number a text stands
    for: [parts] takes off blanks and the sign, [any_base] and [hexadecimal] give the number in
    front of the rest. *)
From Coq Require Import Ascii NArith List Bool String.
From Verif Require Import M_Base M_Text S_Override S_Text S_Numeral L_Numeral.
Import ListNotations.
Local Open Scope N_scope.

(** C55.  Every text can be taken apart that way. *)
Theorem C55_parts : forall t, exists minus u, parts t minus u.
Proof. exact parts_exist. Qed.
Print Assumptions C55_parts.
(** C55.  A number of "match": the base follows from the text, a negative number is taken modulo
    2^64, and one that is too large gives the largest there is.  Without digits it is 0. *)
Theorem C55_number : forall t minus u, parts t minus u ->
  (forall n, any_base u n -> read_number t = if 2 ^ 64 <=? n then 2 ^ 64 - 1 else if minus then (2 ^ 64 - n) mod 2 ^ 64 else n) /\
  ((forall n, ~ any_base u n) -> read_number t = 0).
Proof. exact number_lemma. Qed.
Print Assumptions C55_number.
Example C55_number_ex : parts " -017 " true "017 " /\ any_base "017 " 15 /\ read_number " -017 " = 2 ^ 64 - 15 /\
  parts "+19z" false "19z" /\ any_base "19z" 19 /\ read_number "+19z" = 19 /\ any_base "0xg" 0 /\ (forall n, ~ any_base "z" n) /\ read_number "z" = 0 /\
  read_number "18446744073709551616" = 2 ^ 64 - 1 /\ read_number "08" = 0.
Proof. exact number_case. Qed.
(** C55.  A stencil: always hexadecimal; the text is refused exactly if it has no digits in front or
    if the number does not fit 64 bits with a sign. *)
Theorem C55_any_stencil : forall t minus u, parts t minus u ->
  (forall n, hexadecimal u n -> read_stencil t =
     if minus then if n <=? 2 ^ 63 then Num ((2 ^ 64 - n) mod 2 ^ 64) else Range else if n <? 2 ^ 63 then Num n else Range) /\
  ((forall n, ~ hexadecimal u n) -> read_stencil t = Invalid).
Proof. exact hexnum_lemma. Qed.
Print Assumptions C55_any_stencil.
Example C55_any_stencil_ex : parts "-33" true "33" /\ hexadecimal "33" 0x33 /\ read_stencil "-33" = Num (2 ^ 64 - 0x33) /\
  hexadecimal "0x7fz" 0x7f /\ read_stencil "0x7fz" = Num 0x7f /\ hexadecimal "0xz" 0 /\ (forall n, ~ hexadecimal "x7" n) /\ read_stencil "x7" = Invalid.
Proof. exact hexnum_case. Qed.
