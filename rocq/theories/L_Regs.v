(** Registers of decoded instructions. *)
From Coq Require Import NArith ZArith List Bool Lia ZifyBool ZifyN String.
From Verif Require Import M_Base M_Field M_Forms M_Meta M_OperandInfo M_Extract M_Decoded.
From Verif Require Import S_Bits S_Operands S_Slots S_Imm S_Agree S_Pairs S_Regs.
From Verif Require Import L_Bits L_Count L_OperandInfo L_Slots L_Imm L_Pairs L_Agree L_Decoded.
Import ListNotations.
Local Open Scope N_scope.

Lemma pl_eq c : pair_load c = is_pair_load c. Proof. now destruct c. Qed.
Lemma ps_eq c : pair_store c = is_pair_store c. Proof. now destruct c. Qed.
Lemma slot_mask_bit ss ffm ic r : N.testbit (slot_mask ss ffm ic) r = true <->
  exists s, In s ss /\ loc_fixed (sl_loc s) ffm = false /\ loc_val (sl_loc s) ic = r.
Proof.
  unfold slot_mask. rewrite mask_of_map, existsb_exists. split.
  - intros (s & I & E). apply live_in in I as [I F]. apply N.eqb_eq in E. eauto.
  - intros (s & I & F & E). exists s. rewrite live_in, N.eqb_eq. auto.
Qed.
Lemma slot_typed_bit m k ss ffm ic r : N.testbit (slot_typed m k ss ffm ic) r = true <->
  exists s, In s ss /\ loc_fixed (sl_loc s) ffm = false /\ slot_is m k s = true /\ loc_val (sl_loc s) ic = r.
Proof.
  unfold slot_typed. rewrite mask_of_map, existsb_exists. split.
  - intros (s & I & E). apply filter_In in I as [I T]. apply live_in in I as [I F]. apply N.eqb_eq in E. eauto 8.
  - intros (s & I & F & T & E). exists s. rewrite filter_In, live_in, N.eqb_eq. auto.
Qed.

(** ** C26 *)
Lemma slot_elems_fixed m ss ffm ic s : NoDup (map sl_fid ss) -> In s ss -> loc_fixed (sl_loc s) ffm = true ->
  forall e, In e (slot_elems m ss ffm ic) -> e_fid e <> Some (sl_fid s).
Proof.
  intros ND I F e J E. unfold slot_elems in J. apply in_map_iff in J as (s' & <- & J). cbn in E. injection E as E.
  apply live_in in J as [J G].
  assert (s = s').
  { clear - ND I J E. induction ss as [|x ss IH]; [destruct I|]. cbn in ND. apply NoDup_cons_iff in ND as [N ND].
    destruct I as [->|I], J as [->|J]; auto.
    - exfalso. apply N. rewrite <- E. now apply in_map.
    - exfalso. apply N. rewrite E. now apply in_map. }
  subst. congruence.
Qed.
Lemma C26_src c ffm m ic n u d : is_pair_store c = false -> decode_info n u (ext c ffm) m ic = Ok d ->
  oi_elems (d_src_oi d) = slot_elems m (src_slots c) ffm ic /\
  (c <> X_C2_sp -> forall r, in_mask r (d_sources d) <->
     exists s, In s (src_slots c) /\ loc_fixed (sl_loc s) ffm = false /\ loc_val (sl_loc s) ic = r) /\
  (forall s e, In s (src_slots c) -> loc_fixed (sl_loc s) ffm = true ->
     In e (oi_elems (d_src_oi d)) -> e_fid e <> Some (sl_fid s)).
Proof.
  intros P D. apply decode_inv in D as (_ & _ & SI & _ & S & _). rewrite <- ps_eq in P.
  rewrite srcI_conforms in SI by auto.
  destruct (slots_built m (src_slots c) ffm ic (src_fids c)) as (o & Eo & El & _).
  rewrite Eo in SI. injection SI as <-. split; [exact El|]. split.
  - intros Q r. rewrite src_conforms in S by auto. injection S as <-. unfold in_mask. apply slot_mask_bit.
  - intros s e I F J. rewrite El in J. eapply slot_elems_fixed; eauto using src_fids.
Qed.
Lemma C26_dst c ffm m ic n u d : is_pair_load c = false -> decode_info n u (ext c ffm) m ic = Ok d ->
  oi_elems (d_dst_oi d) = slot_elems m (dst_slots c) ffm ic /\
  ((c = X_U -> slice 7 5 ffm = 0) -> forall r, in_mask r (d_dests d) <->
     exists s, In s (dst_slots c) /\ loc_fixed (sl_loc s) ffm = false /\ loc_val (sl_loc s) ic = r) /\
  (forall s e, In s (dst_slots c) -> loc_fixed (sl_loc s) ffm = true ->
     In e (oi_elems (d_dst_oi d)) -> e_fid e <> Some (sl_fid s)).
Proof.
  intros P D. apply decode_inv in D as (_ & _ & _ & DI & _ & S & _). rewrite <- pl_eq in P.
  rewrite dstI_conforms in DI by auto.
  destruct (slots_built m (dst_slots c) ffm ic (dst_fids c)) as (o & Eo & El & _).
  rewrite Eo in DI. injection DI as <-. split; [exact El|]. split.
  - intros Q r. rewrite dst_conforms in S by auto. injection S as <-. unfold in_mask. apply slot_mask_bit.
  - intros s e I F J. rewrite El in J. eapply slot_elems_fixed; eauto using dst_fids.
Qed.

(** ** C27 *)
Definition b32 (v : N) : Prop := v < 2 ^ 32.
Lemma b32_bit v r : b32 v -> N.testbit v r = true -> r <= 31.
Proof.
  intros B H. destruct (N.le_gt_cases r 31) as [L|L]; auto. exfalso.
  rewrite (high_testbit v 32) in H; [discriminate|exact B|lia].
Qed.
Lemma b32_0 : b32 0. Proof. reflexivity. Qed.
Lemma b32_lor a b : b32 a -> b32 b -> b32 (N.lor a b). Proof. apply lor_lt. Qed.
Lemma b32_pow i : i < 32 -> b32 (2 ^ i). Proof. intros H. apply N.pow_lt_mono_r; auto. reflexivity. Qed.
Lemma b32_mask l : Forall (fun i => i < 32) l -> b32 (mask_of l).
Proof. induction 1; cbn [mask_of fold_right]; [apply b32_0|]. apply b32_lor; auto. now apply b32_pow. Qed.
Lemma b32_clear a : b32 a -> b32 (clear_x0 a).
Proof.
  intros H. apply lt_pow2_bits. intros i L. unfold clear_x0. rewrite andnot64_testbit', (high_testbit a 32 i H L). reflexivity.
Qed.
Lemma b32_if (b : bool) x y : b32 x -> b32 y -> b32 (if b then x else y). Proof. now destruct b. Qed.
Lemma b32_slots ss ffm ic : locs_ok ss = true -> b32 (slot_mask ss ffm ic).
Proof.
  intros L. apply b32_mask, Forall_forall. intros i I. apply in_map_iff in I as (s & <- & I).
  apply live_in in I as [I _]. eapply loc_val_lt; eauto.
Qed.
Lemma b32_typed m k ss ffm ic : locs_ok ss = true -> b32 (slot_typed m k ss ffm ic).
Proof.
  intros L. apply b32_mask, Forall_forall. intros i I. apply in_map_iff in I as (s & <- & I).
  apply filter_In in I as [I _]. apply live_in in I as [I _]. eapply loc_val_lt; eauto.
Qed.
Ltac b32s := repeat first [apply b32_0 | apply b32_lor | apply b32_if | apply b32_clear
  | (apply b32_pow; first [apply slice5 | match goal with |- slice ?a 3 ?i + 8 < 32 => pose proof (slice3 a i); lia end])
  | reflexivity ].
Ltac okinj H := match type of H with Ok ?x = Ok ?v => assert (v = x) as -> by congruence end.
Definition pb32 (r : res N) : Prop := forall v, r = Ok v -> b32 v.
Lemma src_b32 c ffm ic : is_pair_store c = false -> pb32 (x_src (ext c ffm) ic).
Proof.
  intros P v H. rewrite <- ps_eq in P. destruct (xcls_dec c X_C2_sp) as [->|Q].
  - revert H. xunf; fslice. intros [= <-]. dcase; consts; b32s.
  - rewrite src_conforms in H by auto. injection H as <-. apply b32_slots, src_locs.
Qed.
Lemma dst_b32 c ffm ic : is_pair_load c = false -> pb32 (x_dst (ext c ffm) ic).
Proof.
  intros P v H. rewrite <- pl_eq in P. destruct (xcls_dec c X_U) as [->|Q].
  - revert H. xunf; fslice. intros [= <-]. b32s.
  - rewrite dst_conforms in H by (auto; congruence). injection H as <-. apply b32_slots, dst_locs.
Qed.

Lemma pairs_b32 r : r < 32 -> N.odd r = false -> b32 (mask_of (pair_regs r)).
Proof.
  intros L O. unfold pair_regs. destruct (r =? 0); [apply b32_mask; constructor|]. apply b32_mask.
  assert (r <> 31) by (intros ->; discriminate). repeat constructor; lia.
Qed.
Lemma pair_first_lt c ic : pair_first c ic < 32.
Proof. pfacts ic. destruct c; cbn [pair_first]; lia. Qed.
Lemma pair_base_lt c ic : pair_base c ic < 32.
Proof. pfacts ic. pose proof (slice5 15 ic). pose proof (slice3 7 ic). destruct c; cbn [pair_base]; lia. Qed.
(** The typed masks of the irregular formats, without the pairs. *)
Ltac uall := repeat match goal with
  | |- context [if ?b then _ else _] => match b with context [if _ then _ else _] => fail 1 | _ => destruct b end
  end.
Lemma srcT_b32 c ffm ic m k : pair_store c = false -> pb32 (x_srcT (ext c ffm) ic m k).
Proof.
  intros P v H. destruct (irr_srcT c) eqn:I.
  - revert H. destruct c; try discriminate I; try discriminate P; destruct k; xunf; fslice; unfold typed; 
    intros H; repeat match type of H with context [if ?b then _ else _] => destruct b end; okinj H; consts; b32s.
  - rewrite srcT_conforms in H by auto. injection H as <-. apply b32_typed, src_locs.
Qed.
Lemma dstT_b32 c ffm ic m k : pair_load c = false -> pb32 (x_dstT (ext c ffm) ic m k).
Proof.
  intros P v H. destruct (irr_dstT c) eqn:I.
  - revert H. destruct c; try discriminate I; try discriminate P; destruct k; xunf; fslice; unfold typed; 
    intros H; repeat match type of H with context [if ?b then _ else _] => destruct b end; okinj H; consts; b32s.
  - rewrite dstT_conforms in H by auto. injection H as <-. apply b32_typed, dst_locs.
Qed.
Lemma pair_dstT_b32 c ffm ic m k : is_pair_load c = true -> pair_free c ffm = true -> N.odd (pair_first c ic) = false ->
  pb32 (x_dstT (ext c ffm) ic m k).
Proof.
  intros P F O. pose proof (pair_dst c ffm ic P F) as D.
  pose proof (pairs_b32 _ (pair_first_lt c ic) O) as B. revert D B.
  generalize (mask_of (pair_regs (pair_first c ic))). intros M.
  destruct c; try discriminate P; clear P F O; irr2 m k; intros D B v H.
  all: try (rewrite H in D; injection D as <-; exact B).
  all: repeat match type of H with context [if ?b then _ else _] => destruct b end; okinj H; consts; b32s.
Qed.
Lemma pair_srcT_b32 c ffm ic m k : is_pair_store c = true -> pair_free c ffm = true -> N.odd (pair_first c ic) = false ->
  pb32 (x_srcT (ext c ffm) ic m k).
Proof.
  intros P F O. pose proof (pair_data_addr c ffm ic P F) as (_ & _ & D).
  assert (B : b32 (N.lor (N.lor (2 ^ pair_base c ic) (2 ^ pair_first c ic)) (mask_of (pair_regs (pair_first c ic))))).
  { apply b32_lor; [apply b32_lor; apply b32_pow|]; auto using pair_base_lt, pair_first_lt, pairs_b32. }
  revert D B. generalize (N.lor (N.lor (2 ^ pair_base c ic) (2 ^ pair_first c ic)) (mask_of (pair_regs (pair_first c ic)))).
  intros M. destruct c; try discriminate P; clear P F O; irr2 m k; intros D B v H.
  all: try (rewrite H in D; injection D as <-; exact B).
  all: repeat match type of H with context [if ?b then _ else _] => destruct b end; okinj H; consts; b32s.
Qed.
Lemma addr_b32 c ffm ic : pb32 (x_addr (ext c ffm) ic).
Proof.
  intros v. destruct c; xunf; fslice; intros H; 
   repeat match type of H with context [if ?b then _ else _] => destruct b end; okinj H; consts; b32s.
Qed.
Lemma data_b32 c ffm ic : is_pair_store c = false -> pb32 (x_data (ext c ffm) ic).
Proof.
  intros P v. destruct c; try discriminate P; xunf; fslice; intros H;
   repeat match type of H with context [if ?b then _ else _] => destruct b end; okinj H; consts; b32s.
Qed.
Definition le31 (v : N) : Prop := forall r, in_mask r v -> r <= 31.
Lemma b32_le31 v : b32 v -> le31 v. Proof. intros B r. now apply b32_bit. Qed.
Lemma slot_elems_le m ss ffm ic e : locs_ok ss = true -> In e (slot_elems m ss ffm ic) -> e_val e <= 31.
Proof.
  intros L I. apply in_map_iff in I as (s & <- & I). apply live_in in I as [I _]. cbn.
  pose proof (loc_val_lt _ _ ic L I). lia.
Qed.
Lemma C27_lemma c ffm m ic n u d : pair_ok c ffm -> x_illop (ext c ffm) ic = Ok false ->
  decode_info n u (ext c ffm) m ic = Ok d ->
  (le31 (d_sources d) /\ le31 (d_dests d) /\ le31 (d_addr d) /\ le31 (d_data d)) /\
  (forall k, le31 (d_srcT d k) /\ le31 (d_dstT d k)) /\
  (forall e, In e (oi_elems (d_src_oi d)) \/ In e (oi_elems (d_dst_oi d)) -> e_val e <= 31).
Proof.
  intros PO IL D. apply decode_inv in D as X. destruct X as (_ & _ & SI & DI & S & T & ST & DT & A & B & _).
  assert (O : is_pair c = true -> N.odd (pair_first c ic) = false).
  { intros P. rewrite pair_illop in IL by exact P. congruence. }
  unfold pair_ok, is_pair in *.
  destruct (is_pair_store c) eqn:PS.
  - assert (PL : is_pair_load c = false) by (destruct c; discriminate || reflexivity).
    rewrite PL in *. specialize (PO eq_refl). specialize (O eq_refl).
    pose proof (pair_data_addr c ffm ic PS PO) as (E1 & E2 & E3).
    pose proof (pairs_b32 _ (pair_first_lt c ic) O) as PB.
    destruct (pair_srcI c ffm ic m PS PO) as (o & E4 & E5 & _).
    split; [|split].
    + rewrite S in E3. injection E3 as ->. rewrite B in E1. injection E1 as ->.
      repeat split; apply b32_le31; auto.
      * apply b32_lor; [apply b32_lor; apply b32_pow|]; auto using pair_base_lt, pair_first_lt.
      * eapply dst_b32; eauto.
      * eapply addr_b32; eauto.
    + intros k. split; apply b32_le31; [eapply pair_srcT_b32|eapply dstT_b32]; eauto.
    + intros e [I|I].
      * rewrite E4 in SI. injection SI as SI; rewrite <- SI in I. rewrite E5 in I.
        pose proof (pair_base_lt c ic). pose proof (pair_first_lt c ic).
        assert (pair_first c ic <> 31) by (intros E; rewrite E in O; discriminate).
        unfold pair_srcs, pair_data in I.
        destruct c; try discriminate PS; destruct (_ =? 0) in I; cbn [In] in I;
          repeat (destruct I as [<-|I]; [cbn [e_val]; lia|]); contradiction I.
      * rewrite dstI_conforms in DI by (now rewrite pl_eq).
        destruct (slots_built m (dst_slots c) ffm ic (dst_fids c)) as (o' & Eo & El & _).
        rewrite Eo in DI. injection DI as DI; rewrite <- DI in I. rewrite El in I. eapply slot_elems_le; eauto using dst_locs.
  - assert (NS : pair_store c = false) by (now rewrite ps_eq).
    assert (SL : forall e, In e (oi_elems (d_src_oi d)) -> e_val e <= 31).
    { intros e I. rewrite srcI_conforms in SI by auto.
      destruct (slots_built m (src_slots c) ffm ic (src_fids c)) as (o' & Eo & El & _).
      rewrite Eo in SI. injection SI as SI; rewrite <- SI in I. rewrite El in I. eapply slot_elems_le; eauto using src_locs. }
    assert (ML : le31 (d_sources d) /\ le31 (d_addr d) /\ le31 (d_data d)).
    { repeat split; apply b32_le31; [eapply src_b32|eapply addr_b32|eapply data_b32]; eauto. }
    destruct ML as (M1 & M2 & M3).
    destruct (is_pair_load c) eqn:PL.
    + specialize (PO eq_refl). specialize (O eq_refl).
      pose proof (pairs_b32 _ (pair_first_lt c ic) O) as PB.
      split; [|split].
      * rewrite pair_dst in T by auto. injection T as <-. repeat split; auto. now apply b32_le31.
      * intros k. split; apply b32_le31; [eapply srcT_b32|eapply pair_dstT_b32]; eauto.
      * intros e [I|I]; auto. destruct (pair_dstI c ffm ic m PL PO) as (o & E4 & E5 & _).
        rewrite E4 in DI. injection DI as DI; rewrite <- DI in I. rewrite E5 in I. unfold pair_dests in I.
        pose proof (pair_first_lt c ic).
        assert (pair_first c ic <> 31) by (intros E; rewrite E in O; discriminate).
        destruct (_ =? 0) in I; cbn [In] in I;
          repeat (destruct I as [<-|I]; [cbn [e_val]; lia|]); contradiction I.
    + split; [|split].
      * repeat split; auto. apply b32_le31. eapply dst_b32; eauto.
      * intros k. split; apply b32_le31; [eapply srcT_b32|eapply dstT_b32]; eauto.
      * intros e [I|I]; auto. rewrite dstI_conforms in DI by (now rewrite pl_eq).
        destruct (slots_built m (dst_slots c) ffm ic (dst_fids c)) as (o' & Eo & El & _).
        rewrite Eo in DI. injection DI as DI; rewrite <- DI in I. rewrite El in I. eapply slot_elems_le; eauto using dst_locs.
Qed.
