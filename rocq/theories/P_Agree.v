(** Claim C25: operand lists agree with register masks. *)
From Coq Require Import NArith List Bool String.
From Verif Require Import M_Base M_Meta M_OperandInfo M_Extract M_Decoded S_Agree L_Meta L_Agree L_AgreeRefuted.
Import ListNotations.
Local Open Scope N_scope.

(** Constructing the decoded information never fails an assertion (nor throws),
    and its lists agree with its masks, for every extractor, opcode, set of fixed
    fields and consistent typing.  [agree_cond] is [true] except for the 18 formats
    of [agree_exceptions], where it restricts the typing (or, for two stack-pointer
    formats, the register); for these the unrestricted statement is false. *)
Theorem C25_lists_agree_partial : forall c ffm m ic n u,
  ic < 2 ^ 64 -> typing_ok m -> agree_cond c ffm m ic = true ->
  exists d, decode_info n u (ext c ffm) m ic = Ok d /\
    lists_agree (oi_elems (d_src_oi d)) (d_sources d) (d_srcT d) /\
    lists_agree (oi_elems (d_dst_oi d)) (d_dests d) (d_dstT d).
Proof. exact (fun c ffm m ic n u B T A => decode_total c ffm m ic n u B T A). Qed.
Theorem C25_regular_formats : forall c ffm m ic n u,
  ~ In c agree_exceptions -> ic < 2 ^ 64 -> typing_ok m ->
  exists d, decode_info n u (ext c ffm) m ic = Ok d /\
    lists_agree (oi_elems (d_src_oi d)) (d_sources d) (d_srcT d) /\
    lists_agree (oi_elems (d_dst_oi d)) (d_dests d) (d_dstT d).
Proof. exact regular_total. Qed.
(** Each excluded format has a legal opcode and a record whose decoding fails. *)
Theorem C25_exceptions_refuted : forall c, In c agree_exceptions ->
  exists ffm j m ic, make_meta j false [] = Ok m /\ ic < 2 ^ 64 /\ x_illop (ext c ffm) ic = Ok false /\
    (decode_info "x" 1 (ext c ffm) m ic = AssertFail \/ decode_info "x" 1 (ext c ffm) m ic = UB).
Proof. exact agree_refuted. Qed.
(** In particular c.sdsp x0 of RV32 (legal, and typed as shipped). *)
Theorem C25_sdsp_x0_refuted : x_illop (ext X_C2_sp_store_word_pair 0) 0xE002 = Ok false /\
  decode_info "c.sdsp" 1 (ext X_C2_sp_store_word_pair 0) meta_rv64i 0xE002 = AssertFail.
Proof. exact sdsp_x0. Qed.
Example C25_ex :
  typing_ok meta_rv64i /\ agree_cond X_R4 0 meta_rv64i 0x7a5f0543 = true /\
  agree_cond X_C2_sp_store_word_pair 0 meta_rv64i 0xE00A = true /\
  match decode_info "fmadd" 9 (ext X_R4 0) meta_rv64i 0x7a5f0543 with
  | Ok d => map e_val (oi_elems (d_src_oi d)) = [30; 5; 15] /\ map e_val (oi_elems (d_dst_oi d)) = [10] /\
            d_sources d = 0x40008020 /\ d_srcT d KLong = 0x40008020
  | _ => False
  end.
Proof. split; [apply rv_typing|]. vm_compute. repeat split. Qed.
Print Assumptions C25_lists_agree_partial.
Print Assumptions C25_regular_formats.
Print Assumptions C25_exceptions_refuted.
Print Assumptions C25_sdsp_x0_refuted.
