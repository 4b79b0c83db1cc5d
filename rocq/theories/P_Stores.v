(** Claims C36 (stores), C37 (register pairs), C39 (suppressed x0), C41 (load addresses). *)
From Coq Require Import NArith List Bool String.
From Verif Require Import M_Base M_Meta M_OperandInfo M_Extract M_Decoded.
From Verif Require Import S_Bits S_Slots S_Agree S_Pairs S_Regs.
From Verif Require Import L_Typed L_Stores L_RegsRefuted L_AgreeRefuted.
Import ListNotations.
Local Open Scope N_scope.

(** C36.  Address and data registers together are the sources, and an operand is
    flagged as store data exactly if it is a data register. *)
Theorem C36_stores_split : forall c ffm m ic n u d,
  is_store c = true -> is_pair_store c = false -> decode_info n u (ext c ffm) m ic = Ok d ->
  store_split (oi_elems (d_src_oi d)) (d_sources d) (d_addr d) (d_data d).
Proof. exact C36_plain. Qed.
Theorem C36_pair_stores_split_partial : forall c ffm m ic n u d,
  is_pair_store c = true -> c <> X_S_pair -> pair_free c ffm = true -> pair_first c ic <> 0 ->
  decode_info n u (ext c ffm) m ic = Ok d ->
  store_split (oi_elems (d_src_oi d)) (d_sources d) (d_addr d) (d_data d).
Proof. exact C36_pairs. Qed.
(** The 32-bit register-pair store flags no operand as data, and with x0 as data
    its sources include x0, which is neither address nor data. *)
Theorem C36_sd_pair_refuted : exists m d,
  make_meta j_all_l false [] = Ok m /\ x_illop (ext X_S_pair 0) 0xA53023 = Ok false /\
  decode_info "sd" 1 (ext X_S_pair 0) m 0xA53023 = Ok d /\
  in_mask 10 (d_data d) /\ forall e, In e (oi_elems (d_src_oi d)) -> e_sdata e = false.
Proof. exact s_pair_split_refuted. Qed.
Theorem C36_sd_pair_x0_refuted : exists m d,
  make_meta j_all_l false [] = Ok m /\ x_illop (ext X_S_pair 0) 0x53023 = Ok false /\
  decode_info "sd" 1 (ext X_S_pair 0) m 0x53023 = Ok d /\
  in_mask 0 (d_sources d) /\ ~ in_mask 0 (d_addr d) /\ ~ in_mask 0 (d_data d).
Proof. exact s_pair_x0_refuted. Qed.
Example C36_ex : match make_meta j_all_l false [] with
  | Ok m => match decode_info "sw" 1 (ext X_S 0) m 0x00A5A023 with
            | Ok d => d_addr d = 0x800 /\ d_data d = 0x400 /\ map e_sdata (oi_elems (d_src_oi d)) = [false; true]
            | _ => False end
  | _ => False end /\
  match make_meta j_all_l false [] with
  | Ok m => match decode_info "c.sd" 1 (ext X_C0_store_word_pair 0) m 0xE108 with
            | Ok d => d_data d = 0xC00 | _ => False end
  | _ => False end.
Proof. vm_compute. repeat split. Qed.

(** C37.  The registers of a pair instruction are an even register and its
    successor, or none for x0; odd registers are illegal. *)
Theorem C37_pairs : forall c ffm m ic n u d,
  is_pair c = true -> pair_free c ffm = true -> x_illop (ext c ffm) ic = Ok false ->
  decode_info n u (ext c ffm) m ic = Ok d ->
  N.even (pair_first c ic) = true /\ pair_first c ic <= 30 /\
  (is_pair_load c = true -> (forall r, in_mask r (d_dests d) <-> In r (pair_regs (pair_first c ic))) /\
     map e_val (oi_elems (d_dst_oi d)) = pair_regs (pair_first c ic)) /\
  (is_pair_store c = true -> (forall r, in_mask r (d_data d) <-> In r (pair_regs (pair_first c ic))) /\
     exists l, map e_val (oi_elems (d_src_oi d)) = (l ++ pair_regs (pair_first c ic))%list /\ (List.length l <= 1)%nat).
Proof. exact C37_lemma. Qed.
Theorem C37_odd_illegal : forall c ffm ic, is_pair c = true ->
  x_illop (ext c ffm) ic = Ok (N.odd (pair_first c ic)).
Proof. exact C37_illegal. Qed.
Example C37_ex : is_pair X_I_load_pair = true /\ pair_free X_I_load_pair 0 = true /\
  x_illop (ext X_I_load_pair 0) 0x53503 = Ok false /\ pair_regs (pair_first X_I_load_pair 0x53503) = [10; 11] /\
  x_illop (ext X_I_load_pair 0) 0x53583 = Ok true.
Proof. vm_compute. repeat split. Qed.

(** C39.  With x0 suppressed the lists are the full lists without the x0 operands. *)
Theorem C39_sources_without_x0_partial : forall c ffm ic m,
  keeps_x0 c = false -> pair_ok c ffm -> (is_pair_store c = true -> pair_base c ic <> 0) ->
  exists o o', x_srcI (ext c ffm) ic m false = Ok o /\ x_srcI (ext c ffm) ic m true = Ok o' /\
    oi_elems o' = without_x0 (oi_elems o).
Proof. exact C39_src. Qed.
Theorem C39_dests_without_x0 : forall c ffm ic m, pair_ok c ffm ->
  exists o o', x_dstI (ext c ffm) ic m false = Ok o /\ x_dstI (ext c ffm) ic m true = Ok o' /\
    oi_elems o' = without_x0 (oi_elems o).
Proof. exact C39_dst. Qed.
(** The four formats left out report an x0 source even when asked not to. *)
Theorem C39_x0_kept_refuted : forall c, keeps_x0 c = true -> exists m ic o e,
  make_meta j_all_l false [] = Ok m /\ x_illop (ext c 0) ic = Ok false /\
  x_srcI (ext c 0) ic m true = Ok o /\ In e (oi_elems o) /\ e_val e = 0.
Proof. exact keeps_x0_refuted. Qed.
(** sd x10, 0(x0) of RV32 throws std::out_of_range when x0 is suppressed. *)
Theorem C39_sd_pair_refuted : exists m,
  make_meta j_all_l false [] = Ok m /\ x_illop (ext X_S_pair 0) 0xA03023 = Ok false /\
  x_srcI (ext X_S_pair 0) 0xA03023 m true = Throw EStdOutOfRange.
Proof. exact s_pair_suppress_refuted. Qed.
Example C39_ex : match make_meta j_all_l false [] with
  | Ok m => match x_srcI (ext X_R 0) 0x00A00533 m true, x_srcI (ext X_R 0) 0x00A00533 m false with
            | Ok o', Ok o => map e_val (oi_elems o') = [10] /\ map e_val (oi_elems o) = [0; 10] | _, _ => False end
  | _ => False end.
Proof. vm_compute. repeat split. Qed.

(** C41.  The address registers of a scalar load are its sources, and an
    instruction that is no memory access has neither address nor data registers. *)
Theorem C41_load_address : forall c ffm m ic n u d,
  decode_info n u (ext c ffm) m ic = Ok d -> is_store c = false ->
  (is_load c = true -> d_addr d = d_sources d /\ d_data d = 0) /\
  (is_load c = false -> d_addr d = 0 /\ d_data d = 0).
Proof. exact C41_lemma. Qed.
(** Vector loads, unlike vector stores, report no address registers. *)
Theorem C41_vector_load_refuted : exists m d,
  make_meta j_all_l false [] = Ok m /\ decode_info "vle8.v" 1 (ext X_V_load 0) m 0x02050007 = Ok d /\
  in_mask 10 (d_sources d) /\ d_addr d = 0.
Proof. exact v_load_addr_refuted. Qed.
Example C41_ex : match make_meta j_all_l false [] with
  | Ok m => match decode_info "lw" 1 (ext X_I_load 0) m 0x0005A503 with Ok d => d_addr d = 0x800 | _ => False end
  | _ => False end.
Proof. vm_compute. reflexivity. Qed.
Print Assumptions C36_stores_split.
Print Assumptions C36_pair_stores_split_partial.
Print Assumptions C36_sd_pair_refuted.
Print Assumptions C36_sd_pair_x0_refuted.
Print Assumptions C37_pairs.
Print Assumptions C37_odd_illegal.
Print Assumptions C39_sources_without_x0_partial.
Print Assumptions C39_dests_without_x0.
Print Assumptions C39_x0_kept_refuted.
Print Assumptions C39_sd_pair_refuted.
Print Assumptions C41_load_address.
Print Assumptions C41_vector_load_refuted.
