(** Claims about instructions made from operands that the user gives (C32).  [DInfo srcs dsts sp]
    is an ExtractorDirectInfo with lists of register numbers, the other classes take masks,
    lists of operands, or address and data registers; the specification is S_Direct. *)
From Coq Require Import NArith ZArith List Bool String.
From Verif Require Import M_Base M_Forms M_Meta M_OperandInfo M_Decoded M_Registry M_Trie M_Builder M_DTable M_Direct.
From Verif Require Import S_Bits S_Meta S_Trie S_Table S_Regs S_History S_Direct L_Claims L_Direct L_DirectCases.
Import ListNotations.
Local Open Scope N_scope.

(** C32.  Whatever was called before and however the instruction is named: the operands of the
    instruction made are the register numbers given, in order; each register mask is the set of
    the registers given for it; the data operands of a store are marked; the immediate and
    its type are those given. *)
Theorem C32_in_order : forall A U (u0 : U) (st : dt A U) mn uid d a k o, masks_fit (dx_ops d) ->
  snd (step u0 st (ODirect mn uid (direct_ext d) a)) = Ok (AObj k o) -> reported d (i_di (ob_info o)).
Proof. exact (fun A U u0 => in_order_lemma (A := A) (U := U) u0). Qed.
Print Assumptions C32_in_order.
Example C32_in_order_ex : exists s k o, make_decoder [] [] 1 [] [] mixed = Ok s /\
  masks_fit (DMaskStores 0x402 0x80000000) /\
  snd (step (A := N) 0 (dt_new s) (ODirect "fsd" INVALID_UID (direct_ext (direct_named "" (Some 16) (DMaskStores 0x402 0x80000000))) 0)) = Ok (AObj k o) /\
  map e_val (oi_elems (d_src_oi (i_di (ob_info o)))) = [1; 10; 31].
Proof.
  destruct (made_ok mixed "fsd" (direct_named "" (Some 16) (DMaskStores 0x402 0x80000000)) (fun v => map e_val (oi_elems (d_src_oi v))) [1; 10; 31])
    as (s & k & o & E & C & R); [vm_compute; reflexivity|].
  exists s, k, o. split; [exact E|]. split; [split; reflexivity|]. split; [exact C|exact R].
Qed.

(** C32.  An immediate given without a type is unsigned, and no immediate is no immediate. *)
Theorem C32_immediate : forall A U (u0 : U) (st : dt A U) mn uid d a k o name num imm ops, masks_fit ops ->
  d = direct_named name imm ops \/ d = direct_numbered num imm ops ->
  snd (step u0 st (ODirect mn uid (direct_ext d) a)) = Ok (AObj k o) ->
  let v := i_di (ob_info o) in
  match imm with
  | None => d_has_imm v = false /\ d_imm v = 0
  | Some i => d_has_imm v = true /\ d_immT v = ImmUnsigned /\ d_imm v = i /\ (i < 2 ^ 64 -> twos_complement 64 i (d_soff v))
  end.
Proof. exact (fun A U u0 => immediate_lemma (A := A) (U := U) u0). Qed.
Print Assumptions C32_immediate.
Example C32_immediate_ex : exists s k o, make_decoder [] [] 1 [] [] mixed = Ok s /\ masks_fit (DMaskStores 0x402 0x80000000) /\
  snd (step (A := N) 0 (dt_new s) (ODirect "fsd" INVALID_UID (direct_ext (direct_named "" (Some 0xFFFFFFFFFFFFFFF0) (DMaskStores 0x402 0x80000000))) 0)) = Ok (AObj k o) /\
  (d_imm (i_di (ob_info o)), d_soff (i_di (ob_info o))) = (0xFFFFFFFFFFFFFFF0, (-16)%Z).
Proof.
  destruct (made_ok mixed "fsd" (direct_named "" (Some 0xFFFFFFFFFFFFFFF0) (DMaskStores 0x402 0x80000000)) (fun v => (d_imm v, d_soff v)) (0xFFFFFFFFFFFFFFF0, (-16)%Z))
    as (s & k & o & E & C & R); [vm_compute; reflexivity|].
  exists s, k, o. split; [exact E|]. split; [split; reflexivity|]. split; [exact C|exact R].
Qed.

(** C32 (partial: the destinations take rd and rd2 whether or not the instruction fixes them, see
    C32_fixed_dest_refuted, and both have the type of rd, see C32_dest_type_refuted; compressed
    instructions and overlays have no name here, see C12_names_refuted).  The i-th source is
    reported under the i-th source field that the record does not fix, with the type the record
    gives to the field.  More sources than such fields, or more than two destinations, fail an
    assertion; otherwise a register number above 31 is rejected; otherwise the call succeeds. *)
Theorem C32_fields_partial : forall A U (u0 : U) uids annos nu incl excl recs s,
  0 < nu < w32 -> make_decoder uids annos nu incl excl recs = Ok s -> separated (encodings (kept incl excl recs)) ->
  forall (h : list (op A U)) r mn d srcs dsts sp a, Forall (covered s) h ->
  In r (kept incl excl recs) -> is_inst r mn -> r_expand r = ""%string -> uniform (kept incl excl recs) r mn ->
  dx_ops d = DInfo srcs dsts sp ->
  let ans := snd (step u0 (fst (run u0 (dt_new s) h)) (ODirect mn INVALID_UID (direct_ext d) a)) in
  exists ty td,
    (one_type (jm_oper (r_meta r)) -> forall k f, ty f = Some k <-> clause_lists (jm_oper (r_meta r) k) f) /\
    (one_type (jm_oper (r_meta r)) -> rd_rules (jm_oper (r_meta r)) -> td = ty RD) /\
    (~ fits r srcs dsts -> ans = AssertFail) /\
    (fits r srcs dsts -> (exists q, In q (srcs ++ dsts)%list /\ 31 < q) -> ans = Throw EInvalidRegisterNumber) /\
    (fits r srcs dsts -> (forall q, In q (srcs ++ dsts)%list -> q <= 31) -> exists k v args, ans = Ok (AObj k (mkObj v args u0)) /\
       d_mnemonic (i_di v) = mn /\
       oi_elems (d_src_oi (i_di v)) = operands (free_sources r) ty store_field srcs /\
       oi_elems (d_dst_oi (i_di v)) = operands [RD; RD2] (fun _ => td) (fun _ => false) dsts).
Proof. exact (fun A U u0 uids annos nu incl excl recs s HN HD HS => fields_lemma (A := A) (U := U) u0 uids annos nu incl excl recs s HN HD HS). Qed.
Print Assumptions C32_fields_partial.
(** lr.w, which fixes rs2, with one source and with one too many. *)
Example C32_fields_ex : exists s r, make_decoder [] [] 1 [] [] mixed = Ok s /\ 0 < 1 < w32 /\ separated (encodings (kept [] [] mixed)) /\
  In r (kept [] [] mixed) /\ is_inst r "lr.w" /\ r_expand r = ""%string /\ uniform (kept [] [] mixed) r "lr.w" /\
  fixes r RS2 = true /\ free_sources r = [RS1; RS3; RS4] /\ fits r [7; 8] [9] /\ ~ fits r [7; 8; 9; 10] [] /\
  jm_oper (r_meta r) KLong = Some OperAll /\ one_type (jm_oper (r_meta r)) /\
  map (fun e => (e_fid e, e_val e)) (operands (free_sources r) (fun _ => None) store_field [7; 8]) = [(Some RS1, 7); (Some RS3, 8)].
Proof.
  destruct mixed_decoder as (s & E & N1 & S).
  assert (X : exists r, the mixed "lr.w" = Some r /\ is_plain r = true) by (eexists; split; vm_compute; reflexivity).
  destruct X as (r & X1 & X2). destruct (the_inst _ _ _ mixed_wf X1 X2) as (I1 & I2 & I3 & I5).
  exists s, r. repeat (split; [assumption|]). clear - X1.
  assert (Y : r = match the mixed "lr.w" with Some r => r | None => r end) by now rewrite X1.
  vm_compute in Y. rewrite Y. split; [reflexivity|]. split; [reflexivity|].
  split; [split; cbn; repeat constructor|]. split; [intros [H _]; cbn in H; repeat apply le_S_n in H; inversion H|].
  split; [reflexivity|]. split; [|reflexivity].
  intros f [] []; cbn; tauto.
Qed.
(** C32 is false for fixed destinations: a destination that the instruction fixes takes the first
    register given. *)
Theorem C32_fixed_dest_refuted : exists recs s r mn d k o e, make_decoder [] [] 1 [] [] recs = Ok s /\
  In r recs /\ is_inst r mn /\ fixes r RD = true /\
  snd (step (A := N) 0 (dt_new s) (ODirect mn INVALID_UID (direct_ext d) 0)) = Ok (AObj k o) /\
  In e (oi_elems (d_dst_oi (i_di (ob_info o)))) /\ e_fid e = Some RD /\ e_val e = 5.
Proof. exact fixed_dest_lemma. Qed.
Print Assumptions C32_fixed_dest_refuted.
(** C32 is false for the type of a second destination. *)
Theorem C32_dest_type_refuted : exists recs s r mn d k o e, make_decoder [] [] 1 [] [] recs = Ok s /\
  In r recs /\ is_inst r mn /\ one_type (jm_oper (r_meta r)) /\
  clause_lists (jm_oper (r_meta r) KLong) RD2 /\
  snd (step (A := N) 0 (dt_new s) (ODirect mn INVALID_UID (direct_ext d) 0)) = Ok (AObj k o) /\
  In e (oi_elems (d_dst_oi (i_di (ob_info o)))) /\ e_fid e = Some RD2 /\ e_type e = Some KWord.
Proof. exact dest_type_lemma. Qed.
Print Assumptions C32_dest_type_refuted.
(** C32 does not extend to the register masks by type: a register of one type is in the mask of
    another. *)
Theorem C32_typed_refuted : exists recs s mn d k o e, make_decoder [] [] 1 [] [] recs = Ok s /\
  snd (step (A := N) 0 (dt_new s) (ODirect mn INVALID_UID (direct_ext d) 0)) = Ok (AObj k o) /\
  let v := i_di (ob_info o) in
  oi_elems (d_src_oi v) = [e; mkE (Some RS2) (Some KDouble) 2 false false] /\
  e = mkE (Some RS1) (Some KLong) 1 false false /\ in_mask 1 (M_Decoded.d_srcT v KDouble) /\ in_mask 2 (M_Decoded.d_srcT v KLong).
Proof. exact typed_lemma. Qed.
Print Assumptions C32_typed_refuted.
