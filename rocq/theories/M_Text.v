(** Model of how numbers and "isa" entries are read from the text of a record: stoll and
    strtoull of the C library, and the regular expression of InstMetaData. *)
From Coq Require Import Ascii NArith List Bool String.
From Verif Require Import M_Base M_Override.
Import ListNotations.
Local Open Scope N_scope.

(** The digits, in any base up to 16. *)
Definition digit_val (c : ascii) : option N :=
  let n := N_of_ascii c in
  if (48 <=? n) && (n <=? 57) then Some (n - 48)
  else if (97 <=? n) && (n <=? 102) then Some (n - 87)
  else if (65 <=? n) && (n <=? 70) then Some (n - 55)
  else None.
Definition digit_in (base : N) (c : ascii) : option N :=
  match digit_val c with Some d => if d <? base then Some d else None | None => None end.
(** As many digits as there are; the rest of the text is ignored.  [None] if there is none. *)
Fixpoint digits_from (base : N) (s : string) (acc : N) : N :=
  match s with
  | String c r => match digit_in base c with Some d => digits_from base r (acc * base + d) | None => acc end
  | EmptyString => acc
  end.
Definition starts_digit (base : N) (s : string) : bool :=
  match s with String c _ => match digit_in base c with Some _ => true | None => false end | EmptyString => false end.
Definition magnitude (base : N) (s : string) : option N :=
  if starts_digit base s then Some (digits_from base s 0) else None.
(** A sign. *)
Definition signed (s : string) : bool * string :=
  match s with
  | String c r => if Ascii.eqb c "-" then (true, r) else if Ascii.eqb c "+" then (false, r) else (false, s)
  | EmptyString => (false, s)
  end.
(** "0x" in front of a hexadecimal digit. *)
Definition hex_prefix (s : string) : option string :=
  match s with
  | String z (String x r) =>
      if Ascii.eqb z "0" && (Ascii.eqb x "x" || Ascii.eqb x "X") && starts_digit 16 r then Some r else None
  | _ => None
  end.

(** impl/DTable.tcc:27,91: stoll(text, nullptr, 16), assigned to a uint64_t.  [Invalid] and [Range]
    are std::invalid_argument and std::out_of_range. *)
Inductive numeral : Type := Num (n : N) | Invalid | Range.
Definition read_stencil (s : string) : numeral :=
  let '(neg, s) := signed (ltrim s) in
  match magnitude 16 (match hex_prefix s with Some r => r | None => s end) with
  | None => Invalid
  | Some n =>
      if neg then if n <=? 2 ^ 63 then Num ((2 ^ 64 - n) mod 2 ^ 64) else Range
      else if n <? 2 ^ 63 then Num n else Range
  end.
(** mavis/Overlay.hpp:50-51 and mavis/InstMetaData.h:363: strtoull(text, nullptr, 0).  The base
    follows from the text; without digits the result is 0; too large a number gives ULLONG_MAX. *)
Definition read_number (s : string) : N :=
  let '(neg, s) := signed (ltrim s) in
  let m :=
    match hex_prefix s with
    | Some r => magnitude 16 r
    | None => match s with
              | String c _ => if Ascii.eqb c "0" then magnitude 8 s else magnitude 10 s
              | EmptyString => None
              end
    end in
  match m with
  | None => 0
  | Some n => if 2 ^ 64 <=? n then 2 ^ 64 - 1 else if neg then (2 ^ 64 - n) mod 2 ^ 64 else n
  end.

Definition capital (c : ascii) : bool := let n := N_of_ascii c in (65 <=? n) && (n <=? 90).
Definition decimal (c : ascii) : bool := let n := N_of_ascii c in (48 <=? n) && (n <=? 57).
(** "[0-9]*?([A-Z])" at the start of the text: the digits and the letter. *)
Fixpoint digits_capital (s : string) : option (string * ascii) :=
  match s with
  | String c r =>
      if capital c then Some (EmptyString, c)
      else if decimal c then match digits_capital r with Some (d, l) => Some (String c d, l) | None => None end
      else None
  | EmptyString => None
  end.
(** "([1-9][0-9]*?)?([A-Z])" (mavis/InstMetaData.h:206) at the start of the text; the first group is
    tried first, and a text that starts with a digit does not match without it. *)
Definition isa_at (s : string) : option (string * ascii) :=
  match s with
  | String c r =>
      if decimal c && negb (Ascii.eqb c "0")
      then match digits_capital r with Some (d, l) => Some (String c d, l) | None => None end
      else if capital c then Some (EmptyString, c) else None
  | EmptyString => None
  end.
(** std::regex_search: the first place where it matches. *)
Fixpoint isa_search (s : string) : option (string * ascii) :=
  match isa_at s with
  | Some m => Some m
  | None => match s with String _ r => isa_search r | EmptyString => None end
  end.
(** mavis/InstMetaData.h:350-373: the width as uint32_t, if the first group is not empty, and the
    letter; [None] is BuildErrorMalformedISAExtension. *)
Definition read_isa (s : string) : option (option N * string) :=
  match isa_search s with
  | None => None
  | Some (w, l) => Some (match w with EmptyString => None | _ => Some (u32 (read_number w)) end, String l EmptyString)
  end.

(** The texts of the numbers and isa entries of one record: "stencil", "alias", "match" of
    "overlay", and "isa" (impl/DTable.tcc:22-27,86-92, mavis/Overlay.hpp:40-55,
    mavis/InstMetaData.h:350-373). *)
Record texts := mkTexts { t_stencil : option string; t_alias : list string; t_match : option (list string); t_isa : list string }.
