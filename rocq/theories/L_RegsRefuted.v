(** Witnesses for C28, C36, C39, C41. *)
From Coq Require Import NArith ZArith List Bool Lia String.
From Verif Require Import M_Base M_Field M_Forms M_Meta M_OperandInfo M_Extract M_Decoded.
From Verif Require Import S_Agree S_Regs L_AgreeRefuted.
Import ListNotations.
Local Open Scope N_scope.
Local Open Scope string_scope.

Lemma load_sub_refuted : forall c,
  In c [X_C2_sp_load; X_C2_sp_load_word; X_C2_sp_load_double; X_C2_sp_load_float_single; X_C2_sp_load_float_double] ->
  exists j m d, make_meta j false [] = Ok m /\ decode_info "x" 1 (ext c 0) m 0x4512 = Ok d /\
    x_illop (ext c 0) 0x4512 = Ok false /\ in_mask 4 (d_srcT d KLong) /\ ~ in_mask 4 (d_sources d).
Proof.
  intros c I. exists (j_list KLong ["rs1"; "rs2"; "rd"]). cbn [In] in I.
  repeat (destruct I as [<-|I]; [do 2 eexists; vm_compute; do 2 (split; [reflexivity|]); repeat split; discriminate|]); contradiction I.
Qed.
Lemma cjalr_sub_refuted : exists j m d,
  make_meta j false [] = Ok m /\ decode_info "c.jalr" 1 (ext X_CJALR 0) m 0x9502 = Ok d /\
  in_mask 0 (d_dstT d KLong) /\ ~ in_mask 0 (d_dests d).
Proof. exists (j_list KLong ["rd"]). do 2 eexists. vm_compute. do 2 (split; [reflexivity|]). repeat split; discriminate. Qed.

Lemma s_pair_split_refuted : exists m d,
  make_meta j_all_l false [] = Ok m /\ x_illop (ext X_S_pair 0) 0xA53023 = Ok false /\
  decode_info "sd" 1 (ext X_S_pair 0) m 0xA53023 = Ok d /\
  in_mask 10 (d_data d) /\ forall e, In e (oi_elems (d_src_oi d)) -> e_sdata e = false.
Proof.
  do 2 eexists. split; [reflexivity|]. split; [vm_compute; reflexivity|]. split; [vm_compute; reflexivity|].
  split; [vm_compute; reflexivity|]. cbn. intros e [<-|[<-|[<-|[]]]]; reflexivity.
Qed.
Lemma s_pair_x0_refuted : exists m d,
  make_meta j_all_l false [] = Ok m /\ x_illop (ext X_S_pair 0) 0x53023 = Ok false /\
  decode_info "sd" 1 (ext X_S_pair 0) m 0x53023 = Ok d /\
  in_mask 0 (d_sources d) /\ ~ in_mask 0 (d_addr d) /\ ~ in_mask 0 (d_data d).
Proof.
  do 2 eexists. split; [reflexivity|]. split; [vm_compute; reflexivity|]. split; [vm_compute; reflexivity|].
  repeat split; vm_compute; discriminate.
Qed.
Definition x0_witness (c : xcls) : N := match c with X_CB => 0xC101 | X_C1_rsd_zext_I0 => 0x9C61 | X_C2_mv => 0x852E | _ => 0x902E end.
Lemma keeps_x0_refuted c : keeps_x0 c = true -> exists m ic o e,
  make_meta j_all_l false [] = Ok m /\ x_illop (ext c 0) ic = Ok false /\
  x_srcI (ext c 0) ic m true = Ok o /\ In e (oi_elems o) /\ e_val e = 0.
Proof.
  intros K. destruct c; try discriminate K.
  all: match goal with |- context [ext ?c _] => do 1 eexists; exists (x0_witness c) end.
  all: do 2 eexists; split; [reflexivity|]; split; [vm_compute; reflexivity|]; split; [vm_compute; reflexivity|].
  1-2: split; [right; left; reflexivity|reflexivity].
  all: split; [left; reflexivity|reflexivity].
Qed.
Lemma s_pair_suppress_refuted : exists m,
  make_meta j_all_l false [] = Ok m /\ x_illop (ext X_S_pair 0) 0xA03023 = Ok false /\
  x_srcI (ext X_S_pair 0) 0xA03023 m true = Throw EStdOutOfRange.
Proof. eexists. split; [reflexivity|]. split; vm_compute; reflexivity. Qed.
Lemma v_load_addr_refuted : exists m d,
  make_meta j_all_l false [] = Ok m /\ decode_info "vle8.v" 1 (ext X_V_load 0) m 0x02050007 = Ok d /\
  in_mask 10 (d_sources d) /\ d_addr d = 0.
Proof. do 2 eexists. split; [reflexivity|]. split; [vm_compute; reflexivity|]. split; vm_compute; reflexivity. Qed.
Definition j_jalr : jmeta :=
  mkJ (Some ["jalr"]) None (fun k => match k with KLong => Some OperAll | _ => None end) [].
