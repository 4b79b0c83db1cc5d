(** Specification of the opcode bits beyond the end of an instruction (C70).  Nothing here
    mentions the decode tree, the builder or the caches. *)
From Coq Require Import NArith List Bool String.
From Verif Require Import M_Base M_Field M_Forms M_OperandInfo M_Extract M_Decoded M_Builder M_DTable S_Bits S_Trie S_Table.
Local Open Scope N_scope.

(** The length in bits of the instruction that starts with these bits, and its bits. *)
Definition ilen (ic : N) : N := if slice 0 2 ic =? 3 then 32 else 16.
Definition own_bits (ic : N) : N := ic mod 2 ^ ilen ic.

(** The same answer for two opcodes: the same exception, or the same facts, annotation, special
    fields and text; the reports differ in the opcode they quote only. *)
Definition same_report (r r' : res info) : Prop :=
  match r, r' with
  | Ok v, Ok v' => i_di v = i_di v' /\ i_meta v = i_meta v' /\ i_anno v = i_anno v' /\
      (forall f, info_special v f = info_special v' f) /\ info_dasm v = info_dasm v'
  | Throw e, Throw e' => e = e'
  | AssertFail, AssertFail | UB, UB => True
  | _, _ => False
  end.

(** ** Tables that keep to the length of their instructions *)
(** The extractor classes for 16-bit instructions. *)
Definition compact (c : xcls) : bool :=
  match c with
  | X_C0 | X_C2 | X_C2_sp_store | X_CA | X_CB | X_CI | X_CI_rD_only | X_CIW | X_CIX | X_CJ | X_CJR
  | X_C0_load | X_C0_load_byte | X_C0_load_half | X_C0_load_word | X_C0_load_double | X_C0_load_word_pair
  | X_C0_store | X_C0_store_byte | X_C0_store_half | X_C0_store_word | X_C0_store_double | X_C0_store_word_pair
  | X_C1_rsd | X_C1_rsd_I0 | X_C1_rsd_zext_I0 | X_C1_rsd_Ineg1 | X_C1_rsd_I0xFF
  | X_CI_addi | X_CI_addiw | X_CI_sp | X_CIW_sp | X_CIX_andi | X_CJAL | X_CJALR
  | X_C2_add | X_C2_mv | X_C2_slli | X_C2_sp | X_C2_sp_load | X_C2_sp_load_word | X_C2_sp_load_double
  | X_C2_sp_load_word_pair | X_C2_sp_load_float_single | X_C2_sp_load_float_double
  | X_C2_sp_store_word | X_C2_sp_store_double | X_C2_sp_store_word_pair | X_CI_rD_shifted | X_NTL_hint => true
  | _ => false
  end.
Record tidy (recs : list irec) : Prop := mkTidy {
  (* the specified opcode fields and the fixed fields lie within the instruction *)
  td_opcode : forall r e f, listed recs r e -> In f (fm_ocfields (en_form e)) -> ~ ignores e f ->
    f_rpos f + f_len f <= ilen (en_stencil e);
  td_fixed : forall r e n f, listed recs r e -> In n (en_fixed e) -> named (en_form e) n f ->
    f_rpos f + f_len f <= ilen (en_stencil e);
  (* 16-bit instructions use the classes for them *)
  td_class : forall r e c, listed recs r e -> ilen (en_stencil e) = 16 -> rec_class r = Ok c -> compact c = true;
  (* overlays look at bits of their instructions only, and those of 16-bit instructions use the
     classes for them *)
  td_overlay : forall ro mn mask value r e, In ro recs -> listed recs r e -> overlays ro mn (en_mn e) mask value ->
    mask < 2 ^ ilen (en_stencil e);
  td_overlay_class : forall ro mn mask value r e n c, In ro recs -> listed recs r e -> overlays ro mn (en_mn e) mask value ->
    ilen (en_stencil e) = 16 -> r_xform ro = Some n -> get_extractor n = Ok c -> compact c = true;
  (* the opcode 0 is reserved *)
  td_zero : forall r e x, listed recs r e -> matches e 0 -> extractor_of r e x -> reserved x 0 }.
