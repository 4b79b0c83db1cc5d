(** What the printed form of a decoder tells about its table (C57). *)
From Coq Require Import NArith List Bool String Ascii.
From Verif Require Import M_Base M_Field M_Forms M_Extract M_Meta M_Builder M_DTable S_Trie S_Table.
Import ListNotations.
Local Open Scope string_scope.

(** The text after the first "]". *)
Fixpoint after_bracket (s : string) : option string :=
  match s with
  | EmptyString => None
  | String c r => if Ascii.eqb c "]" then Some r else after_bracket r
  end.
Fixpoint begins (p s : string) : bool :=
  match p, s with
  | EmptyString, _ => true
  | String a q, String b r => if Ascii.eqb a b then begins q r else false
  | _, _ => false
  end.
(** [p] occurs in the text. *)
Fixpoint mentions (p s : string) : bool :=
  if begins p s then true else match s with EmptyString => false | String _ r => mentions p r end.
(** Lines "... [label]: 'name' ..." are about an instruction; the others open a node. *)
Definition about_instruction (l : string) : bool :=
  match after_bracket l with Some r => begins ": '" r | None => false end.
Fixpoint unquoted (s : string) : bool :=
  match s with EmptyString => true | String c r => if Ascii.eqb c "'" then false else unquoted r end.

(** The text of encoding [e]: its mnemonic and, when it has fixed fields, their bits in an
    opcode, the bits its stencil has there and how many fields there are; then the extractor
    and the factory. *)
Definition text_of (e : enc) (x f t : string) : Prop :=
  match en_fixed e with
  | [] => t = "'" ++ en_mn e ++ "', extractor=Extractor '" ++ x ++ "', factory=" ++ f
  | _ => exists mask fset, fixed_bits e mask /\
         t = "'" ++ en_mn e ++ "', mask=0x" ++ hex mask ++ ", field_set=0x" ++ hex fset ++
             ", value=0x" ++ hex (N.land (en_stencil e) mask) ++
             ", nfixed=" ++ dec (N.of_nat (List.length (en_fixed e))) ++
             ", extractor=Extractor '" ++ x ++ "', factory=" ++ f
  end.
(** The extractor a record asks for, by name. *)
Definition asked (r : irec) : option string :=
  match r_xform r with Some n => Some n | None => r_form r end.
(** The extractors that are shown under the name of another one. *)
Definition misnamed : list string :=
  ["I_load_pair"; "S_pair"; "HV_load"; "HV_store"; "C2_sp_load_word_pair"; "C2_sp_store_word_pair"].
(** The line shows encoding [e] of record [r]. *)
Definition shows (recs : list irec) (r : irec) (e : enc) (l : string) : Prop :=
  exists lead x f t, unquoted lead = true /\ l = lead ++ t /\ text_of e x f t /\
  (forall n, asked r = Some n -> ~ In n misnamed -> x = n) /\
  (sole recs (en_mn e) -> r_expand r = "" ->
     f = "IFactory('" ++ en_mn e ++ "'), stencil = 0x" ++ hex (r_stencil r)).
