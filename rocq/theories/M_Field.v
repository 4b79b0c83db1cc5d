(** Model of mavis/Field.h and mavis/Swizzler.hpp. *)
From Coq Require Import NArith ZArith List Bool String.
From Verif Require Import M_Base.
Import ListNotations.
Open Scope N_scope.

(** mavis/Field.h:14-98, class Field.  Members rpos_/shift_ (always equal),
    len_; mask_ and size_ are derived in the constructor. *)
Record field := mkF { f_name : string; f_rpos : N; f_len : N }.

(** mavis/Field.h:20-26, the constructor.  [-1ull >> (64 - len)] is undefined for
    len = 0 (shift by 64) and for len > 64 (the unsigned difference is >= 64);
    [1 << len_] (an int shift) is undefined for len >= 32; [mask_ << shift_]
    (getShiftedMask) and [icode >> shift_] (extract) are undefined for rpos >= 64. *)
Definition field_ctor (name : string) (rpos len : N) : res field :=
  if (len =? 0) || (32 <=? len) || (64 <=? rpos) then UB else Ok (mkF name rpos len).

(** mavis/Field.h:23, mask_ = -1ull >> (64 - len). *)
Definition f_mask (f : field) : N := N.shiftr (N.ones 64) (64 - f_len f).
(** mavis/Field.h:25, size_ = 1 << len_. *)
Definition f_size (f : field) : N := N.shiftl 1 (f_len f).
(** mavis/Field.h:52-55, getShiftedMask. *)
Definition f_smask (f : field) : N := shl64 (f_mask f) (f_rpos f).
(** mavis/Field.h:57-61, isEquivalent. *)
Definition f_equiv (f g : field) : bool :=
  (f_rpos f =? f_rpos g) && (f_len f =? f_len g).
(** mavis/Field.h:63-66, extract. *)
Definition f_extract (f : field) (icode : N) : N :=
  N.land (N.shiftr icode (f_rpos f)) (f_mask f).

(** mavis/Field.h:104-180, ConcatField: the list of sub-fields.
    extract is lines 147-156; [value |= f.extract(icode) << offset] has
    [offset] = total length of the earlier sub-fields (shift < 64 required, else UB). *)
Fixpoint cf_extract_from (fs : list field) (icode offset : N) : res N :=
  match fs with
  | [] => Ok 0
  | f :: fs' =>
      if 64 <=? offset then UB else
      let* rest := cf_extract_from fs' icode (offset + f_len f) in
      Ok (N.lor (shl64 (f_extract f icode) offset) rest)
  end.
Definition cf_extract (fs : list field) (icode : N) : res N := cf_extract_from fs icode 0.
(** mavis/Field.h:109-117, length and mask. *)
Definition cf_len (fs : list field) : N := fold_right (fun f a => f_len f + a) 0 fs.
Definition cf_mask (fs : list field) : N := fold_right (fun f a => N.lor (f_smask f) a) 0 fs.

(** mavis/Swizzler.hpp:11-40, struct Range; two constructors.
    The asserts (x <= y, x < 64, y < 64) are checked in [rng]. *)
Record range := mkR { r_lo : N; r_span : N }.
Definition rng (x y : N) : res range :=
  if (x <=? y) && (x <? 64) && (y <? 64) then Ok (mkR x (y - x + 1)) else AssertFail.
Definition rng1 (x : N) : res range :=
  if x <? 64 then Ok (mkR x 1) else AssertFail.
(** mavis/Swizzler.hpp:18, mask = -1ull >> (64 - span). *)
Definition r_mask (r : range) : N := N.shiftr (N.ones 64) (64 - r_span r).
(** mavis/Swizzler.hpp:43-46. *)
Definition sw_extract1 (x : N) (r : range) : N := shl64 (N.land x (r_mask r)) (r_lo r).
(** mavis/Swizzler.hpp:48-51 (the variadic recursion over a list of ranges). *)
Fixpoint sw_extract (x : N) (rs : list range) : N :=
  match rs with
  | [] => 0
  | [r] => sw_extract1 x r
  | r :: rs' => N.lor (sw_extract1 x r) (sw_extract (N.shiftr x (r_span r)) rs')
  end.

(** mavis/Extractor.h:448-453, signExtend_.
    [static_cast<int64_t>(uval) << shift >> shift] under C++17 rules: the left
    shift is undefined when the value is negative or when value * 2^shift is
    not representable in uint64_t; otherwise the product is converted to int64_t
    (two's complement) and shifted back arithmetically. *)
Definition to_i64 (x : N) : Z :=
  if x <? 9223372036854775808 then Z.of_N x else (Z.of_N x - 18446744073709551616)%Z.
Definition sign_extend (uval pos : N) : res Z :=
  if negb (pos <? 64) then AssertFail else
  let shift := 64 - pos - 1 in
  if (9223372036854775808 <=? uval) || (w64 <=? N.shiftl uval shift) then UB
  else Ok (Z.shiftr (to_i64 (N.shiftl uval shift)) (Z.of_N shift)).
