(** Specification: what an instruction made from a trace record reports. *)
From Coq Require Import NArith ZArith List Bool String.
From Verif Require Import M_Base M_Meta M_OperandInfo M_Extract M_Decoded M_Builder M_DTable S_Bits.
Import ListNotations.
Local Open Scope N_scope.

(** The record [mn], [ic], source registers, destination registers, immediate is what [v] says:
    the registers of each mask in ascending order, x0 included, with no field and no type; the
    immediate, as given and as a signed number; no other property of an instruction. *)
Record traced (mn : string) (ic srcs dsts imm : N) (v : info) : Prop := mkTraced {
  tr_mnemonic : d_mnemonic (i_di v) = mn;
  tr_icode : i_icode v = ic;
  tr_sources : d_sources (i_di v) = srcs;
  tr_dests : d_dests (i_di v) = dsts;
  tr_src : oi_elems (d_src_oi (i_di v)) = map (fun r => mkE None None r false false) (ones_of srcs);
  tr_dst : oi_elems (d_dst_oi (i_di v)) = map (fun r => mkE None None r false false) (ones_of dsts);
  tr_imm : d_imm (i_di v) = imm;
  tr_soff : imm < 2 ^ 64 -> twos_complement 64 imm (d_soff (i_di v));
  tr_immT : d_has_imm (i_di v) = false;
  tr_types : forall k, d_srcT (i_di v) k = 0 /\ d_dstT (i_di v) k = 0 /\ d_n_srcT (i_di v) k = 0 /\ d_n_dstT (i_di v) k = 0;
  tr_store : d_addr (i_di v) = 0 /\ d_data (i_di v) = 0;
  tr_hint : d_hint (i_di v) = false;
  tr_ext : d_ext (i_di v) = 0;
  tr_dsize : d_dsize (i_di v) = 0;
  tr_dasm : info_dasm v = Ok (mn ++ " (from ExtractorTraceInfo)")%string }.

(** [v] says what the record says; what an instruction has besides (types, data size, annotation,
    number) is left open. *)
Record repeats (mn : string) (ic srcs dsts imm : N) (v : info) : Prop := mkRepeats {
  rp_mnemonic : d_mnemonic (i_di v) = mn;
  rp_icode : i_icode v = ic;
  rp_sources : d_sources (i_di v) = srcs;
  rp_dests : d_dests (i_di v) = dsts;
  rp_src : oi_elems (d_src_oi (i_di v)) = map (fun r => mkE None None r false false) (ones_of srcs);
  rp_dst : oi_elems (d_dst_oi (i_di v)) = map (fun r => mkE None None r false false) (ones_of dsts);
  rp_imm : d_imm (i_di v) = imm;
  rp_dasm : info_dasm v = Ok (mn ++ " (from ExtractorTraceInfo)")%string }.
(** Some record of the calls [h] is for opcode [ic]. *)
Definition recorded {A U} (h : list (op A U)) (ic : N) : Prop := exists mn x a, In (OTrace ic mn x a) h.

(** The numbers of the next instructions are not within 100 of 2^32. *)
Definition numbers_left {A U} (d : dt A U) : Prop := b_nu (dt_b d) + 100 < 2 ^ 32.
(** Mavis::getOpcode and lookupInstructionUniqueID in a state. *)
Definition opcode_now {A U} (d : dt A U) (mn : string) : res N := get_opcode (dt_b d, dt_tree d) mn.
Definition uid_now {A U} (d : dt A U) (mn : string) : N := lookup_uid (dt_b d, dt_tree d) mn.
