(** Specification: the operands of instructions made without an opcode (C32, C33). *)
From Coq Require Import NArith ZArith List Bool String.
From Verif Require Import M_Base M_Meta M_OperandInfo M_Decoded M_Builder M_Direct S_Bits S_Meta S_Regs.
Import ListNotations.
Local Open Scope N_scope.

(** The record fixes field [f]: its "fixed" clause names it. *)
Definition fixes (r : irec) (f : fid) : bool :=
  existsb (fun n => match get_fid n with Some g => fid_eqb g f | None => false end) (r_fixed r).
(** The source fields of a record that can take an operand, in order. *)
Definition free_sources (r : irec) : list fid := filter (fun f => negb (fixes r f)) [RS1; RS2; RS3; RS4].
(** Register [regs_i] under field [fs_i], with the type that [ty] gives to the field. *)
Definition operands (fs : list fid) (ty : fid -> option kind) (sdata : fid -> bool) (regs : list N) : list elem :=
  map (fun p => mkE (Some (fst p)) (ty (fst p)) (snd p) (sdata (fst p)) false) (combine fs regs).
(** The field of store data. *)
Definition store_field (f : fid) : bool := fid_eqb f RS3.
(** Mask [v] has exactly the registers of the list. *)
Definition exactly (v : N) (regs : list N) : Prop := forall r, in_mask r v <-> In r regs.

(** The register numbers given to a direct extractor, in order; those of a mask are ascending. *)
Definition given_addrs (o : dops) : list N :=
  match o with DStores a _ _ => a | DMaskStores a _ | DMaskDestStores a _ _ => ones_of a | _ => [] end.
Definition given_datas (o : dops) : list N :=
  match o with DStores _ d _ => d | DMaskStores _ d | DMaskDestStores _ d _ => ones_of d | _ => [] end.
Definition given_sources (o : dops) : list N :=
  match o with
  | DInfo s _ _ => s
  | DList s _ _ | DPseudo s _ => map e_val (oi_elems s)
  | DMask s _ => ones_of s
  | _ => (given_addrs o ++ given_datas o)%list
  end.
Definition given_dests (o : dops) : list N :=
  match o with
  | DInfo _ d _ => d
  | DList _ d _ | DPseudo _ d => map e_val (oi_elems d)
  | DMask _ d | DMaskDestStores _ _ d => ones_of d
  | _ => []
  end.
(** The class is for stores. *)
Definition is_store (o : dops) : bool :=
  match o with DStores _ _ _ | DMaskStores _ _ | DMaskDestStores _ _ _ => true | _ => false end.
(** Masks have 64 bits. *)
Definition masks_fit (o : dops) : Prop :=
  match o with
  | DMask s d | DMaskStores s d => s < 2 ^ 64 /\ d < 2 ^ 64
  | DMaskDestStores a d r => a < 2 ^ 64 /\ d < 2 ^ 64 /\ r < 2 ^ 64
  | _ => True
  end.
(** Operand lists within the limits of a record: no more sources than free source fields, no
    more than two destinations. *)
Definition fits (r : irec) (srcs dsts : list N) : Prop :=
  (List.length srcs <= List.length (free_sources r) /\ List.length dsts <= 2)%nat.
(** The kinds listed for a destination are those listed for rd. *)
Definition rd_rules (j : kind -> option oper_clause) : Prop :=
  forall k f, In f [FUSED_RD_0; FUSED_RD_1] -> clause_lists (j k) f -> clause_lists (j k) RD.
(** The extractor reports the operands it was given: register numbers in order, each mask the
    set of the registers given for it, the data of a store marked as such, and the immediate,
    as given and as a signed number. *)
Record reported (d : direct) (v : dinfo) : Prop := mkRep {
  rp_src : map e_val (oi_elems (d_src_oi v)) = given_sources (dx_ops d);
  rp_dst : map e_val (oi_elems (d_dst_oi v)) = given_dests (dx_ops d);
  rp_sources : exactly (d_sources v) (given_sources (dx_ops d));
  rp_dests : exactly (d_dests v) (given_dests (dx_ops d));
  rp_addr : exactly (d_addr v) (given_addrs (dx_ops d));
  rp_data : exactly (d_data v) (given_datas (dx_ops d));
  rp_store : is_store (dx_ops d) = true ->
    map e_sdata (oi_elems (d_src_oi v)) = (map (fun _ => false) (given_addrs (dx_ops d)) ++ map (fun _ => true) (given_datas (dx_ops d)))%list;
  rp_imm : d_immT v = dx_immT d /\ d_imm v = dx_imm d;
  rp_soff : dx_imm d < 2 ^ 64 -> twos_complement 64 (dx_imm d) (d_soff v) }.
