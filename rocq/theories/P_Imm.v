(** Claims C21 and C22: immediates and offsets. *)
From Coq Require Import NArith ZArith List Bool String.
From Verif Require Import M_Base M_Meta M_OperandInfo M_Extract M_Decoded S_Bits S_Imm L_Imm L_Decoded.
Import ListNotations.
Local Open Scope N_scope.

(** C21.  Extractors of 32-bit formats: the immediate is the one of the table of
    [S_Imm] (the manual's), whose segments do not overlap, and the signed offset is
    its value.  [ffm] are the bits of the fields the instruction fixes. *)
Theorem C21_immediates : forall c ffm ic,
  is_compressed_format c = false -> ic < 2 ^ 64 ->
  x_imm (ext c ffm) ic = Ok (imm_of (imm_table c) ffm ic) /\
  segs_disjoint (imm_segs (imm_table c)) = true.
Proof. exact (fun c ffm ic _ B => conj (imm_lemma c ffm ic B) (segs_ok c)). Qed.
Theorem C21_offsets_partial : forall c ffm ic,
  is_compressed_format c = false -> c <> X_PF_hint -> ic < 2 ^ 64 ->
  exists z, x_soff (ext c ffm) ic = Ok z /\ offset_of (imm_table c) (imm_of (imm_table c) ffm ic) z.
Proof. exact (fun c ffm ic _ P B => offset_lemma c ffm ic P B). Qed.
(** The excluded format: the offset of a prefetch hint is never negative, although the
    field is a signed 7-bit number (so the unrestricted statement is false). *)
Theorem C21_prefetch_offset_never_negative : forall ffm ic, ic < 2 ^ 64 ->
  exists v, x_imm (ext X_PF_hint ffm) ic = Ok v /\ v < 128 /\ x_soff (ext X_PF_hint ffm) ic = Ok (Z.of_N v).
Proof. exact PF_soff. Qed.
Theorem C21_prefetch_offset_refuted : exists ffm ic z,
  ic < 2 ^ 64 /\ x_soff (ext X_PF_hint ffm) ic = Ok z /\
  ~ offset_of (imm_table X_PF_hint) (imm_of (imm_table X_PF_hint) ffm ic) z.
Proof. exact pf_refuted. Qed.
(** The same for the decoded information. *)
Theorem C21_decoded : forall c ffm m ic n u d,
  is_compressed_format c = false -> ic < 2 ^ 64 -> decode_info n u (ext c ffm) m ic = Ok d ->
  d_imm d = imm_of (imm_table c) ffm ic /\
  (c <> X_PF_hint -> offset_of (imm_table c) (d_imm d) (d_soff d)).
Proof.
  exact (fun c ffm m ic n u d _ B H =>
    conj (decoded_imm c ffm m ic n u d B H) (fun P => decoded_offset c ffm m ic n u d P B H)).
Qed.
(** beq x10, x11, -4 and lui x5, 0xFFFFF. *)
Example C21_ex :
  x_imm (ext X_B 0) 0xFEB50EE3 = Ok 0x1FFC /\ x_soff (ext X_B 0) 0xFEB50EE3 = Ok (-4)%Z /\
  x_imm (ext X_U 0) 0xFFFFF2B7 = Ok 0xFFFFF000 /\ x_soff (ext X_U 0) 0xFFFFF2B7 = Ok (-4096)%Z /\
  exists d, decode_info "beq" 7 (ext X_B 0) meta_rv64i 0xFEB50EE3 = Ok d /\ d_soff d = (-4)%Z.
Proof. repeat split; try (vm_compute; reflexivity). eexists. split; vm_compute; reflexivity. Qed.
Print Assumptions C21_immediates.
Print Assumptions C21_offsets_partial.
Print Assumptions C21_prefetch_offset_never_negative.
Print Assumptions C21_prefetch_offset_refuted.
Print Assumptions C21_decoded.

(** C22.  Compressed formats. *)
Theorem C22_immediates : forall c ffm ic,
  is_compressed_format c = true -> ic < 2 ^ 64 ->
  x_imm (ext c ffm) ic = Ok (imm_of (imm_table c) ffm ic) /\
  segs_disjoint (imm_segs (imm_table c)) = true.
Proof. exact (fun c ffm ic _ B => conj (imm_lemma c ffm ic B) (segs_ok c)). Qed.
Theorem C22_offsets : forall c ffm ic,
  is_compressed_format c = true -> ic < 2 ^ 64 ->
  exists z, x_soff (ext c ffm) ic = Ok z /\ offset_of (imm_table c) (imm_of (imm_table c) ffm ic) z.
Proof. exact compressed_offset. Qed.
Theorem C22_decoded : forall c ffm m ic n u d,
  is_compressed_format c = true -> ic < 2 ^ 64 -> decode_info n u (ext c ffm) m ic = Ok d ->
  d_imm d = imm_of (imm_table c) ffm ic /\ offset_of (imm_table c) (d_imm d) (d_soff d).
Proof. exact compressed_decoded. Qed.
(** c.j -2 and c.addi16sp -512; c.sdsp with offset 504. *)
Example C22_ex :
  x_imm (ext X_CJ 0) 0xBFFD = Ok 0xFFE /\ x_soff (ext X_CJ 0) 0xBFFD = Ok (-2)%Z /\
  x_imm (ext X_CI_sp 0) 0x7101 = Ok 0x200 /\ x_soff (ext X_CI_sp 0) 0x7101 = Ok (-512)%Z /\
  x_soff (ext X_C2_sp_store_double 0) 0xFFAA = Ok 504%Z.
Proof. repeat split; vm_compute; reflexivity. Qed.
Print Assumptions C22_immediates.
Print Assumptions C22_offsets.
Print Assumptions C22_decoded.

(** c.slli has an immediate (its shift amount) but reports that it has none. *)
Theorem C22_slli_reports_no_immediate_refuted : exists d,
  decode_info "c.slli" 1 (ext X_C2_slli 0) meta_rv64i 0x0286 = Ok d /\ d_imm d = 1 /\ d_has_imm d = false.
Proof. exact slli_no_imm. Qed.
Print Assumptions C22_slli_reports_no_immediate_refuted.
