(** Specification of decoding as a search in a flat table of encodings; nothing here
    mentions the tree.  An encoding is what an instruction record of the JSON file says:
    mnemonic, form, stencil, names of ignored opcode fields, names of fixed fields. *)
From Coq Require Import NArith List Bool String.
From Verif Require Import M_Field M_Forms S_Bits.
Import ListNotations.
Local Open Scope N_scope.

(** The RISC-V instruction-length encoding (Unprivileged ISA, section 1.5):
    0 = 16-bit, 1 = 32-bit, 2 = 48-bit, 3 = 64-bit, 4 = 80 to 176 bits, 5 = 192 bits or more. *)
Definition length_class (ic : N) : N :=
  if negb (slice 0 2 ic =? 3) then 0
  else if negb (slice 2 3 ic =? 7) then 1
  else if slice 5 1 ic =? 0 then 2
  else if slice 6 1 ic =? 0 then 3
  else if negb (slice 12 3 ic =? 7) then 4
  else 5.

Record enc := mkEnc {
  en_mn : string;
  en_form : form;
  en_ign : list string;
  en_stencil : N;
  en_fixed : list string }.

(** Two opcodes have the same bits in field [f]. *)
Definition agree_on (f : field) (a b : N) : Prop :=
  slice (f_rpos f) (f_len f) a = slice (f_rpos f) (f_len f) b.
(** [f] is the field the form calls [n]. *)
Definition named (fm : form) (n : string) (f : field) : Prop :=
  exists i, In (n, i) (fm_names fm) /\ nth_error (fm_fields fm) i = Some f.
Definition ignores (e : enc) (f : field) : Prop := In (f_name f) (en_ign e).
(** Opcode [ic] has the fixed-field values of [e]'s stencil. *)
Definition fixed_agree (e : enc) (ic : N) : Prop :=
  forall n f, In n (en_fixed e) -> named (en_form e) n f -> agree_on f ic (en_stencil e).
(** Opcode [ic] is an instance of [e]. *)
Definition matches (e : enc) (ic : N) : Prop :=
  length_class ic = length_class (en_stencil e) /\
  (forall f, In f (fm_ocfields (en_form e)) -> ~ ignores e f -> agree_on f ic (en_stencil e)) /\
  fixed_agree e ic.

(** Which opcode fields are specified (true) or ignored (false), in the form's order. *)
Definition specified (e : enc) : list bool :=
  map (fun f => negb (existsb (String.eqb (f_name f)) (en_ign e))) (fm_ocfields (en_form e)).
Definition nfixed (e : enc) : nat := List.length (en_fixed e).
(** [e] specifies the first opcode field that only one of the two specifies ... *)
Definition earlier_specified (p q : list bool) : Prop :=
  exists c r r', p = (c ++ true :: r)%list /\ q = (c ++ false :: r')%list.
(** ... or specifies the same opcode fields and fixes more fields. *)
Definition more_specific (e e' : enc) : Prop :=
  earlier_specified (specified e) (specified e') \/
  (specified e = specified e' /\ (nfixed e' < nfixed e)%nat).

(** The two encodings use the same opcode fields, ignore the same ones and have the same
    values in the others: only fixed fields can tell them apart. *)
Definition same_cell (e e' : enc) : Prop :=
  length_class (en_stencil e) = length_class (en_stencil e') /\
  Forall2 (fun f f' => f_rpos f = f_rpos f' /\ f_len f = f_len f' /\
                       (ignores e f <-> ignores e' f') /\
                       (~ ignores e f -> agree_on f (en_stencil e) (en_stencil e')))
          (fm_ocfields (en_form e)) (fm_ocfields (en_form e')).
(** [e'], configured after [e], can be told from it. *)
Definition clear (e e' : enc) : Prop :=
  same_cell e e' ->
  ~ (en_fixed e = [] /\ en_fixed e' = []) /\
  (en_fixed e <> [] -> en_fixed e' <> [] -> (nfixed e' <= nfixed e)%nat ->
   ~ fixed_agree e (en_stencil e')).
(** Every encoding can be told from those configured before it ... *)
Definition separated (E : list enc) : Prop := ForallOrdPairs clear E.
(** ... in whatever order they are configured. *)
Definition unambiguous (E : list enc) : Prop := ForallOrdPairs (fun e e' => clear e e' /\ clear e' e) E.
(** No opcode is an instance of two encodings that are equally specific. *)
Definition tie (e e' : enc) : Prop :=
  exists ic, matches e ic /\ matches e' ic /\ ~ more_specific e e' /\ ~ more_specific e' e.
Definition no_ties (E : list enc) : Prop := ForallOrdPairs (fun e e' => ~ tie e e') E.
