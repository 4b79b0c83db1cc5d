(** Claim C55: numbers and "isa" entries in the texts of records.  [read_stencil] reads a
    "stencil" or "alias", [read_number] a number of "match", [read_isa] an entry of "isa"; the
    numerals are those of S_Text. *)
From Coq Require Import Ascii NArith List Bool String.
From Verif Require Import M_Base M_Raw M_Text S_Override S_Text G_Texts L_Text.
Import ListNotations.
Local Open Scope N_scope.

(** C55.  A stencil is the hexadecimal number written there, if it is below 2^63; otherwise it
    is refused. *)
Theorem C55_stencil : forall w p s n, blank w -> In p hex_marks -> writes 16 s n ->
  read_stencil (w ++ p ++ s) = if n <? 2 ^ 63 then Num n else Range.
Proof. exact stencil_lemma. Qed.
Print Assumptions C55_stencil.
Example C55_stencil_ex : writes 16 "fE" 254 /\ read_stencil " 0xfE" = Num 254.
Proof. exact stencil_case. Qed.
(** C55.  A number of "match" is the one written, in hexadecimal after 0x and otherwise in decimal. *)
Theorem C55_match_hex : forall w s n, blank w -> writes 16 s n -> n < 2 ^ 64 -> read_number (w ++ "0x" ++ s) = n.
Proof. exact match_hex_lemma. Qed.
Print Assumptions C55_match_hex.
Theorem C55_match_decimal : forall w s n, blank w -> writes 10 s n -> ~ leading_zero s -> n < 2 ^ 64 -> read_number (w ++ s) = n.
Proof. exact match_dec_lemma. Qed.
Print Assumptions C55_match_decimal.
Example C55_match_ex : writes 10 "254" 254 /\ ~ leading_zero "254" /\ read_number "254" = 254 /\ read_number " 0xfE" = 254.
Proof. exact match_case. Qed.
(** C55.  An isa entry is a width and a letter, or a letter. *)
Theorem C55_isa : forall s n c, writes 10 s n -> ~ leading_zero s -> n < 2 ^ 32 -> In c capitals ->
  read_isa (s ++ String c "") = Some (Some n, String c "").
Proof. exact isa_lemma. Qed.
Print Assumptions C55_isa.
Theorem C55_isa_bare : forall c, In c capitals -> read_isa (String c "") = Some (None, String c ""%string).
Proof. exact isa_bare_lemma. Qed.
Print Assumptions C55_isa_bare.
Example C55_isa_ex : read_isa "64I" = Some (Some 64, "I"%string) /\ read_isa "B" = Some (None, "B"%string).
Proof. exact isa_case. Qed.
(** C55.  An entry is refused exactly if it has no capital letter, and the letter is the first one. *)
Theorem C55_isa_malformed : forall s, read_isa s = None <-> (forall c, In c (letters s) -> ~ In c capitals).
Proof. exact malformed_isa_lemma. Qed.
Print Assumptions C55_isa_malformed.
Theorem C55_isa_letter : forall x c y, (forall a, In a (letters x) -> ~ In a capitals) -> In c capitals ->
  exists w, read_isa (x ++ String c y) = Some (w, String c ""%string).
Proof. exact letter_lemma. Qed.
Print Assumptions C55_isa_letter.
Example C55_isa_letter_ex : read_isa "rv64IM" = Some (Some 64, "I"%string) /\ read_isa "64i" = None.
Proof. exact letter_case. Qed.
(** C55.  The texts of the shipped files are read as the numbers and entries of the tables. *)
Theorem C55_shipped : forall tab txt, In (tab, txt) shipped_texts -> Forall2 (fun r t =>
  option_map read_stencil (t_stencil t) = option_map Num (w_stencil r) /\ map read_stencil (t_alias t) = map Num (w_alias r) /\
  option_map (map read_number) (t_match t) = match w_overlay r with Some (_, m) => m | None => None end /\ map read_isa (t_isa t) = map Some (w_isa r)) tab txt.
Proof. exact shipped_text_lemma. Qed.
Print Assumptions C55_shipped.

(** C55 fails otherwise.  A text that is not a numeral is used as a stencil... *)
Theorem C55_stencil_garbage_refuted : exists t, (forall w p s n, blank w -> In p hex_marks -> writes 16 s n -> t <> (w ++ p ++ s)%string) /\
  read_stencil t = Num 0x33.
Proof. exact garbage_lemma. Qed.
Print Assumptions C55_stencil_garbage_refuted.
(** ...and one without any digit as a mask, which is then 0. *)
Theorem C55_match_garbage_refuted : exists t, (forall c d, In c (letters t) -> ~ In (c, d) digits) /\ read_number t = 0.
Proof. exact empty_lemma. Qed.
Print Assumptions C55_match_garbage_refuted.
(** The same text is one number as a stencil and another one in "match". *)
Theorem C55_same_base_refuted : exists t n, writes 16 t n /\ read_stencil t = Num n /\ read_number t <> n.
Proof. exact octal_lemma. Qed.
Print Assumptions C55_same_base_refuted.
(** Parts of an isa entry are dropped. *)
Theorem C55_isa_dropped_refuted :
  read_isa "32 I" = Some (None, "I"%string) /\ read_isa "IM" = Some (None, "I"%string) /\ read_isa "4294967297I" = Some (Some 1, "I"%string).
Proof. exact isa_dropped_lemma. Qed.
Print Assumptions C55_isa_dropped_refuted.
