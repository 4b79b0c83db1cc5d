(** Claims C23 (sign extension), C24 (field extraction), C31 (masks and lists). *)
From Coq Require Import NArith ZArith List Bool String Sorted.
From Verif Require Import M_Base M_Field M_Forms M_Decoded S_Bits S_Places L_Bits L_Field L_Count L_Places.
Import ListNotations.
Local Open Scope N_scope.

(** C23.  signExtend_(v, pos) is the (pos+1)-bit two's-complement value of v.
    v must fit in pos+1 bits; otherwise the C++ left shift is undefined
    (second theorem), which the immediates never reach (claims C21, C22). *)
Theorem C23_sign_extend_is_twos_complement : forall v pos,
  pos < 63 -> v < 2 ^ (pos + 1) ->
  exists z, sign_extend v pos = Ok z /\ twos_complement (pos + 1) v z /\
            (forall z', twos_complement (pos + 1) v z' -> z' = z).
Proof. exact C23_lemma. Qed.
Example C23_ex : sign_extend 0xFFE 11 = Ok (-2)%Z /\ twos_complement 12 0xFFE (-2)%Z.
Proof. repeat split; vm_compute; congruence. Qed.
Print Assumptions C23_sign_extend_is_twos_complement.

Theorem C23_sign_extend_outside_range : forall v pos,
  pos < 63 -> 2 ^ (pos + 1) <= v -> sign_extend v pos = UB.
Proof. exact C23_outside. Qed.
Example C23_outside_ex : 2 ^ 12 <= 0x1000 /\ sign_extend 0x1000 11 = UB.
Proof. split; [discriminate|reflexivity]. Qed.
Print Assumptions C23_sign_extend_outside_range.

(** C24.  Extraction is exactly the slice of the opcode. *)
Theorem C24_extract_is_slice : forall name rpos len f ic,
  field_ctor name rpos len = Ok f ->
  f_extract f ic = slice rpos len ic /\ f_extract f ic < 2 ^ len.
Proof. exact C24_slice. Qed.
Theorem C24_put_get : forall name rpos len f v ic,
  field_ctor name rpos len = Ok f -> v < 2 ^ len -> f_extract f (put rpos len v ic) = v.
Proof. exact field_put_get. Qed.
Theorem C24_disjoint_fields : forall name rpos len f lo n v ic,
  field_ctor name rpos len = Ok f -> (rpos + len <= lo \/ lo + n <= rpos) ->
  f_extract f (put lo n v ic) = f_extract f ic.
Proof. exact field_disjoint. Qed.
Theorem C24_depends_only_on_field_bits : forall name rpos len f a b,
  field_ctor name rpos len = Ok f ->
  (forall i, rpos <= i < rpos + len -> N.testbit a i = N.testbit b i) ->
  f_extract f a = f_extract f b.
Proof. exact field_depends. Qed.
Theorem C24_shifted_mask : forall name rpos len f i,
  field_ctor name rpos len = Ok f -> rpos + len <= 64 ->
  N.testbit (f_smask f) i = true <-> rpos <= i < rpos + len.
Proof. exact field_smask. Qed.
(** isEquivalent answers whether two fields extract the same value from every opcode. *)
Theorem C24_equivalent_iff_same_extraction : forall n1 r1 l1 f n2 r2 l2 g,
  field_ctor n1 r1 l1 = Ok f -> field_ctor n2 r2 l2 = Ok g ->
  f_equiv f g = true <-> (forall ic, f_extract f ic = f_extract g ic).
Proof. exact field_equiv. Qed.
(** Concatenated fields. *)
Theorem C24_concat_extract : forall fs ic,
  (forall f, In f fs -> field_ctor (f_name f) (f_rpos f) (f_len f) = Ok f) -> cf_len fs <= 64 ->
  cf_extract fs ic = Ok (concat_spec (map (fun f => (f_rpos f, f_len f)) fs) ic).
Proof. exact C24_concat. Qed.
(** The field a registered form calls [n] is its one field of that name. *)
Theorem C24_named : forall fn fm n, get_form fn = Ok fm ->
  (forall f, get_field fm n = Ok f <-> In f (fm_fields fm) /\ f_name f = n) /\
  ((forall f, In f (fm_fields fm) -> f_name f <> n) -> get_field fm n = Throw EBuildErrorUnknownFormField).
Proof. exact field_named_lemma. Qed.
Print Assumptions C24_named.
(** The fields of the 32-bit forms are where the manual has them. *)
Theorem C24_places : forall fn fm f lo len,
  get_form fn = Ok fm -> form_bits fm = 32 -> In f (fm_fields fm) -> In (f_name f, (lo, len)) manual_places ->
  f_rpos f = lo /\ f_len f = len.
Proof. exact places_lemma. Qed.
Print Assumptions C24_places.
(** The fields of a form cover the bits of the instruction and no others. *)
Theorem C24_cover : forall fn fm i, get_form fn = Ok fm ->
  (i < form_bits fm <-> exists f, In f (fm_fields fm) /\ f_rpos f <= i < f_rpos f + f_len f).
Proof. exact cover_lemma. Qed.
Print Assumptions C24_cover.
Example C24_form_ex : exists fm f, get_form "V_vsetvl" = Ok fm /\ form_bits fm = 32 /\ get_field fm "rs1" = Ok f /\ In (f_name f, (15, 5)) manual_places.
Proof. eexists. eexists. split; [reflexivity|]. split; [reflexivity|]. split; [reflexivity|]. cbn. auto 20. Qed.
Example C24_ex :
  let f := mkF "rd" 7 5 in
  field_ctor "rd" 7 5 = Ok f /\ f_extract f 0x00150513 = 10 /\ 29 < 2 ^ 5 /\
  f_extract f (put 7 5 29 0x00150513) = 29 /\ f_extract f (put 15 5 3 0x00150513) = 10 /\
  cf_extract [mkF "a" 7 5; mkF "b" 25 7] 0xFE000F80 = Ok 0xFFF /\
  f_equiv f (mkF "x" 7 5) = true /\ f_equiv f (mkF "rs1" 15 5) = false.
Proof. vm_compute. repeat split. Qed.
Print Assumptions C24_extract_is_slice.
Print Assumptions C24_put_get.
Print Assumptions C24_disjoint_fields.
Print Assumptions C24_depends_only_on_field_bits.
Print Assumptions C24_shifted_mask.
Print Assumptions C24_equivalent_iff_same_extraction.
Print Assumptions C24_concat_extract.

(** C31.  The bit trick counts the 1 bits of every 64-bit word. *)
Theorem C31_popcount : forall w, w < 2 ^ 64 -> count1bits w = popcount w.
Proof. exact count1bits_popcount. Qed.
(** The mask-to-list conversion lists exactly the set bits, in increasing order,
    and is inverted by or-ing the bits back. *)
Theorem C31_mask_to_list : forall w, w < 2 ^ 64 ->
  exists l, bit_indices w = Ok l /\
    (forall i, In i l <-> N.testbit w i = true) /\ StronglySorted N.lt l /\
    mask_of l = w /\ N.of_nat (List.length l) = popcount w.
Proof. exact C31_list. Qed.
Example C31_ex : bit_indices 0x8000000000000422 = Ok [1; 5; 10; 63] /\ count1bits 0x8000000000000422 = 4
  /\ 0x8000000000000422 < 2 ^ 64.
Proof. vm_compute. repeat split. Qed.
Print Assumptions C31_popcount.
Print Assumptions C31_mask_to_list.
