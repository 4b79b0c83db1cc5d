(** What a successful construction of the decoded information says. *)
From Coq Require Import NArith ZArith List Bool Lia String.
From Verif Require Import M_Base M_Field M_Forms M_Meta M_OperandInfo M_Extract M_Decoded.
From Verif Require Import S_Bits S_Imm L_Imm.
Import ListNotations.
Local Open Scope N_scope.

Lemma six_inv f h : six f = Ok h -> forall k, f k = Ok (h k).
Proof.
  unfold six. intros H.
  destruct (f KWord) eqn:E1; try discriminate H. destruct (f KLong) eqn:E2; try discriminate H.
  destruct (f KSingle) eqn:E3; try discriminate H. destruct (f KDouble) eqn:E4; try discriminate H.
  destruct (f KQuad) eqn:E5; try discriminate H. destruct (f KVector) eqn:E6; try discriminate H.
  cbn in H. injection H as <-. intros []; assumption.
Qed.
(** Every member is the corresponding extractor method's value. *)
Lemma decode_inv n u x m ic d : decode_info n u x m ic = Ok d ->
  d_mnemonic d = n /\ d_uid d = u /\
  x_srcI x ic m false = Ok (d_src_oi d) /\ x_dstI x ic m false = Ok (d_dst_oi d) /\
  x_src x ic = Ok (d_sources d) /\ x_dst x ic = Ok (d_dests d) /\
  (forall k, x_srcT x ic m k = Ok (d_srcT d k)) /\ (forall k, x_dstT x ic m k = Ok (d_dstT d k)) /\
  x_addr x ic = Ok (d_addr d) /\ x_data x ic = Ok (d_data d) /\ x_hint x ic = Ok (d_hint d) /\
  d_immT d = x_immT x /\ x_imm x ic = Ok (d_imm d) /\ x_soff x ic = Ok (d_soff d) /\
  d_dsize d = mt_data m /\ d_ext d = ext_itype_of m (d_sources d) (d_dests d).
Proof.
  unfold decode_info. intros H.
  repeat match type of H with
  | (let* _ := ?e in _) = Ok _ => let E := fresh "E" in destruct e eqn:E; cbn [rbind] in H; try discriminate H
  end.
  injection H as <-. cbn. pose proof (six_inv _ _ E3). pose proof (six_inv _ _ E4). auto 30.
Qed.

Lemma decoded_imm c ffm m ic n u d : ic < 2 ^ 64 -> decode_info n u (ext c ffm) m ic = Ok d ->
  d_imm d = imm_of (imm_table c) ffm ic.
Proof.
  intros B H. apply decode_inv in H as (_ & _ & _ & _ & _ & _ & _ & _ & _ & _ & _ & _ & H & _).
  rewrite imm_lemma in H by auto. congruence.
Qed.
Lemma decoded_offset c ffm m ic n u d : c <> X_PF_hint -> ic < 2 ^ 64 -> decode_info n u (ext c ffm) m ic = Ok d ->
  offset_of (imm_table c) (d_imm d) (d_soff d).
Proof.
  intros P B H. rewrite (decoded_imm _ _ _ _ _ _ _ B H).
  apply decode_inv in H as (_ & _ & _ & _ & _ & _ & _ & _ & _ & _ & _ & _ & _ & H & _).
  destruct (offset_lemma c ffm ic P B) as (z & E & O). rewrite E in H. now injection H as <-.
Qed.
Lemma segs_ok c : segs_disjoint (imm_segs (imm_table c)) = true.
Proof. destruct c; reflexivity. Qed.
Lemma not_pf c : is_compressed_format c = true -> c <> X_PF_hint.
Proof. intros H ->. discriminate H. Qed.
Lemma compressed_offset c ffm ic : is_compressed_format c = true -> ic < 2 ^ 64 ->
  exists z, x_soff (ext c ffm) ic = Ok z /\ offset_of (imm_table c) (imm_of (imm_table c) ffm ic) z.
Proof. intros H B. apply offset_lemma; auto. now apply not_pf. Qed.
Lemma compressed_decoded c ffm m ic n u d :
  is_compressed_format c = true -> ic < 2 ^ 64 -> decode_info n u (ext c ffm) m ic = Ok d ->
  d_imm d = imm_of (imm_table c) ffm ic /\ offset_of (imm_table c) (d_imm d) (d_soff d).
Proof.
  intros H B D. split; [eapply decoded_imm; eauto|eapply decoded_offset; eauto]. now apply not_pf.
Qed.
Lemma slli_no_imm : exists d,
  decode_info "c.slli" 1 (ext X_C2_slli 0) meta_rv64i 0x0286 = Ok d /\ d_imm d = 1 /\ d_has_imm d = false.
Proof. eexists. split; [vm_compute; reflexivity|]. split; reflexivity. Qed.
Lemma pf_refuted : exists ffm ic z,
  ic < 2 ^ 64 /\ x_soff (ext X_PF_hint ffm) ic = Ok z /\
  ~ offset_of (imm_table X_PF_hint) (imm_of (imm_table X_PF_hint) ffm ic) z.
Proof.
  exists 0, 0xFE006013, 127%Z. split; [reflexivity|]. split; [vm_compute; reflexivity|].
  intros [[_ H] _]. vm_compute in H. discriminate H.
Qed.
