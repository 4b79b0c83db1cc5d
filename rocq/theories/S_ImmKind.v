(** Specification: whether an instruction has an immediate, and whether it is signed. *)
From Coq Require Import NArith ZArith List Bool String.
From Verif Require Import M_Forms M_Extract S_Imm S_Manual.
Import ListNotations.
Local Open Scope string_scope.

(** What the description of an immediate makes of it.  A constant that the instruction implies
    (c.not is xori with -1) is signed if it is negative. *)
Definition kind_of_imm (d : imm_desc) : imm_type :=
  match d with
  | NoImm => ImmNone
  | ConstImm _ z => if (z <? 0)%Z then ImmSigned else ImmUnsigned
  | ImmSegs _ _ Unsigned => ImmUnsigned
  | ImmSegs _ _ (SignBit _) => ImmSigned
  end.
(** The register pairs of Zilsd and Zclsd, whose rows in [S_Manual32] have no operands: the
    uncompressed offsets are signed, the compressed ones are not. *)
Definition kind_of_pair (n : string) : imm_type :=
  if existsb (String.eqb n) ["ld"; "sd"] then ImmSigned else ImmUnsigned.
(** Unsigned shift amounts and the unsigned offset of c.addi4spn that are reported as signed. *)
Definition odd_signed : list string :=
  ["slli"; "srli"; "srai"; "slliw"; "srliw"; "sraiw"; "slli.uw"; "rori"; "roriw"; "bclri"; "bexti"; "binvi"; "bseti"; "c.addi4spn"].
(** Instructions without an immediate that are reported to have one. *)
Definition odd_extra : list string :=
  ["nop"; "clz"; "clzw"; "ctz"; "ctzw"; "cpop"; "cpopw"; "sext.b"; "sext.h"; "c.zext.h"; "c.zext.w"].
(** The instruction with an immediate that is reported to have none. *)
Definition odd_lost : list string := ["c.slli"].
Definition odd_kinds : list string := odd_signed ++ odd_extra ++ odd_lost.
