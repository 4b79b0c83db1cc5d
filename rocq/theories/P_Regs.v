(** Claims C26, C27, C28, C40 (decoded counts): registers of decoded instructions. *)
From Coq Require Import NArith List Bool String.
From Verif Require Import M_Base M_Meta M_OperandInfo M_Extract M_Decoded.
From Verif Require Import S_Bits S_Operands S_Slots S_Agree S_Pairs S_Regs.
From Verif Require Import L_Meta L_Regs L_Typed L_Stores L_RegsRefuted.
Import ListNotations.
Local Open Scope N_scope.

(** C26.  The operand list is exactly the register slots of the format (table
    [src_slots]/[dst_slots]) whose fields the instruction does not fix, in order;
    the mask holds exactly their registers; no listed operand has a fixed slot's
    field.  Pair formats are described by C37.  ([X_C2_sp] is a base format no
    instruction names: its mask omits x0.) *)
Theorem C26_sources_unfixed : forall c ffm m ic n u d,
  is_pair_store c = false -> decode_info n u (ext c ffm) m ic = Ok d ->
  oi_elems (d_src_oi d) = slot_elems m (src_slots c) ffm ic /\
  (c <> X_C2_sp -> forall r, in_mask r (d_sources d) <->
     exists s, In s (src_slots c) /\ loc_fixed (sl_loc s) ffm = false /\ loc_val (sl_loc s) ic = r) /\
  (forall s e, In s (src_slots c) -> loc_fixed (sl_loc s) ffm = true ->
     In e (oi_elems (d_src_oi d)) -> e_fid e <> Some (sl_fid s)).
Proof. exact C26_src. Qed.
(** An instruction of format U with a fixed destination still reports x0 in its mask: excluded. *)
Theorem C26_dests_unfixed : forall c ffm m ic n u d,
  is_pair_load c = false -> decode_info n u (ext c ffm) m ic = Ok d ->
  oi_elems (d_dst_oi d) = slot_elems m (dst_slots c) ffm ic /\
  ((c = X_U -> slice 7 5 ffm = 0) -> forall r, in_mask r (d_dests d) <->
     exists s, In s (dst_slots c) /\ loc_fixed (sl_loc s) ffm = false /\ loc_val (sl_loc s) ic = r) /\
  (forall s e, In s (dst_slots c) -> loc_fixed (sl_loc s) ffm = true ->
     In e (oi_elems (d_dst_oi d)) -> e_fid e <> Some (sl_fid s)).
Proof. exact C26_dst. Qed.
(** fsqrt.d (RS2 fixed, here to 0x1f): one source. *)
Example C26_ex :
  match decode_info "fsqrt.d" 7 (ext X_Rfloat 0x1f00000) meta_rv64i 0x5bf57553 with
  | Ok d => map e_val (oi_elems (d_src_oi d)) = [10] /\ d_sources d = 0x400 /\
            loc_fixed (LReg 20) 0x1f00000 = true /\ In (s_reg RS2 20) (src_slots X_Rfloat)
  | _ => False
  end.
Proof. vm_compute. intuition. Qed.

(** C27.  No register number above 31 is ever reported. *)
Theorem C27_registers_in_range : forall c ffm m ic n u d,
  pair_ok c ffm -> x_illop (ext c ffm) ic = Ok false -> decode_info n u (ext c ffm) m ic = Ok d ->
  ((forall r, in_mask r (d_sources d) -> r <= 31) /\ (forall r, in_mask r (d_dests d) -> r <= 31) /\
   (forall r, in_mask r (d_addr d) -> r <= 31) /\ (forall r, in_mask r (d_data d) -> r <= 31)) /\
  (forall k, (forall r, in_mask r (d_srcT d k) -> r <= 31) /\ (forall r, in_mask r (d_dstT d k) -> r <= 31)) /\
  (forall e, In e (oi_elems (d_src_oi d)) \/ In e (oi_elems (d_dst_oi d)) -> e_val e <= 31).
Proof. exact C27_lemma. Qed.
Example C27_ex : pair_ok X_I_load_pair 0 /\ x_illop (ext X_I_load_pair 0) 0x53f03 = Ok false /\
  match decode_info "ld" 7 (ext X_I_load_pair 0) meta_rv64i 0x53f03 with
  | Ok d => map e_val (oi_elems (d_dst_oi d)) = [30; 31] | _ => False end.
Proof. vm_compute. repeat split. Qed.

(** C28, first half: typed masks are sub-masks of the overall masks.  [sub_cond]
    is [true] except for the 19 formats of [sub_exceptions], where it restricts
    the typing; what is missing is those formats without the restriction, and for
    the two families below the unrestricted statement is false. *)
Theorem C28_typed_submask_partial : forall c ffm m ic n u d,
  sub_cond c ffm m ic = true -> decode_info n u (ext c ffm) m ic = Ok d ->
  forall k, sub_mask (d_srcT d k) (d_sources d) /\ sub_mask (d_dstT d k) (d_dests d).
Proof. exact C28_sub_lemma. Qed.
(** Second half: when every field has a type, every register has a type. *)
Theorem C28_types_cover_partial : forall c ffm m ic n u,
  ic < 2 ^ 64 -> typing_ok m -> all_typed m -> agree_cond c ffm m ic = true ->
  (c = X_S_pair -> slice 20 5 ic <> 0) ->
  exists d, decode_info n u (ext c ffm) m ic = Ok d /\
  (forall r, in_mask r (d_sources d) -> exists k, in_mask r (d_srcT d k)) /\
  (forall r, in_mask r (d_dests d) -> exists k, in_mask r (d_dstT d k)).
Proof. exact C28_cover_lemma. Qed.
(** Stack-pointer loads whose record types "rs2" report immediate bits as a typed register. *)
Theorem C28_sp_loads_refuted : forall c,
  In c [X_C2_sp_load; X_C2_sp_load_word; X_C2_sp_load_double; X_C2_sp_load_float_single; X_C2_sp_load_float_double] ->
  exists j m d, make_meta j false [] = Ok m /\ decode_info "x" 1 (ext c 0) m 0x4512 = Ok d /\
    x_illop (ext c 0) 0x4512 = Ok false /\ in_mask 4 (d_srcT d KLong) /\ ~ in_mask 4 (d_sources d).
Proof. exact load_sub_refuted. Qed.
(** c.jalr with only "rd" typed reports x0 as a typed destination. *)
Theorem C28_cjalr_refuted : exists j m d,
  make_meta j false [] = Ok m /\ decode_info "c.jalr" 1 (ext X_CJALR 0) m 0x9502 = Ok d /\
  in_mask 0 (d_dstT d KLong) /\ ~ in_mask 0 (d_dests d).
Proof. exact cjalr_sub_refuted. Qed.
Example C28_ex : typing_ok meta_rv64i /\ all_typed meta_rv64i /\
  sub_cond X_C2_sp_load_double 0 meta_rv64i 0x6502 = true /\ agree_cond X_C2_sp_load_double 0 meta_rv64i 0x6502 = true /\
  ~ In X_R4 sub_exceptions.
Proof. split; [apply rv_typing|]. split; [intros []; discriminate|]. repeat split. cbn. intuition discriminate. Qed.

(** C40 for decoded instructions: the counts are the lengths of the lists. *)
Theorem C40_decoded_counts : forall c ffm m ic n u d,
  pair_ok c ffm -> decode_info n u (ext c ffm) m ic = Ok d ->
  (oi_n (d_src_oi d) = N.of_nat (List.length (oi_elems (d_src_oi d))) /\ (List.length (oi_elems (d_src_oi d)) <= 3)%nat) /\
  (oi_n (d_dst_oi d) = N.of_nat (List.length (oi_elems (d_dst_oi d))) /\ (List.length (oi_elems (d_dst_oi d)) <= 2)%nat) /\
  forall k, oi_ntypes (d_src_oi d) k = n_typed (oi_elems (d_src_oi d)) k /\
            oi_ntypes (d_dst_oi d) k = n_typed (oi_elems (d_dst_oi d)) k.
Proof. exact C40_decoded_lemma. Qed.
Example C40_decoded_ex : pair_ok X_R4 0 /\
  match decode_info "fmadd.d" 7 (ext X_R4 0) meta_rv64i 0x7a5f0543 with Ok d => oi_n (d_src_oi d) = 3 | _ => False end.
Proof. split; [discriminate|vm_compute; reflexivity]. Qed.
Print Assumptions C26_sources_unfixed.
Print Assumptions C26_dests_unfixed.
Print Assumptions C27_registers_in_range.
Print Assumptions C28_typed_submask_partial.
Print Assumptions C28_types_cover_partial.
Print Assumptions C28_sp_loads_refuted.
Print Assumptions C28_cjalr_refuted.
Print Assumptions C40_decoded_counts.
