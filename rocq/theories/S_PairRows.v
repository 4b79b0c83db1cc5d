(** Specification: the operands of the RV32 loads and stores of register pairs (C49), as the
    chapters Zilsd and Zclsd of the manual give them.  S_Manual32 has their bit patterns. *)
From Coq Require Import NArith List Bool String.
From Verif Require Import M_OperandInfo M_Decoded S_Bits S_Imm S_Manual.
Import ListNotations.
Local Open Scope N_scope.

(** Name, load or store, address register, first register of the pair, immediate. *)
Record pair_inst := pins { pi_name : string; pi_load : bool; pi_base : place; pi_first : place; pi_imm : imm_desc }.
Definition pair_manual : list pair_inst := [
  pins "ld" true (At5 15) (At5 7) imm_i;
  pins "sd" false (At5 15) (At5 20) imm_s;
  pins "c.ld" true (At3 7) (At3 2) imm_cl8;
  pins "c.sd" false (At3 7) (At3 2) imm_cl8;
  pins "c.ldsp" true (Reg 2) (At5 7) imm_clsp8;
  pins "c.sdsp" false (Reg 2) (At5 2) imm_cssp8].
(** Register r and the next one; x0 stands for a pair of zeros and is not reported. *)
Definition pair_shown (stored : bool) (r : N) : list (option bank * N * bool * bool) :=
  if r =? 0 then [] else [(Some BX, r, stored, false); (Some BX, r + 1, stored, false)].
(** Destinations, sources and immediate of the decoded instruction are those of [p]; [marked]: the
    registers that are stored are marked as such. *)
Definition pair_reports (marked : bool) (p : pair_inst) (ic : N) (d : dinfo) : Prop :=
  let r := place_val (pi_first p) ic in
  map shown (oi_elems (d_dst_oi d)) = (if pi_load p then pair_shown false r else []) /\
  map shown (oi_elems (d_src_oi d)) = (Some BX, place_val (pi_base p) ic, false, false) :: (if pi_load p then [] else pair_shown marked r) /\
  d_imm d = imm_of (pi_imm p) 0 ic /\ offset_of (pi_imm p) (d_imm d) (d_soff d).
