(** Claim C65: typed register masks hold the registers of that type. *)
From Coq Require Import NArith List Bool String Lia ZifyBool ZifyN.
From Verif Require Import M_Base M_Field M_Forms M_Meta M_OperandInfo M_Extract M_Decoded.
From Verif Require Import S_Bits S_Operands S_Slots S_Imm S_Agree S_Pairs S_Regs S_Manual S_Classes S_Widths.
From Verif Require Import L_Bits L_Count L_OperandInfo L_Slots L_Imm L_Pairs L_Agree L_Decoded L_Regs L_Typed L_Dasm L_Widths.
Import ListNotations.
Local Open Scope N_scope.

Lemma none_srcT c ffm ic m k T : irr_srcT c = true -> mt_fset m k = 0 -> x_srcT (ext c ffm) ic m k = Ok T -> T = 0.
Proof.
  intros IR Z. destruct c; try discriminate IR; clear IR; irr2 m k; intros H; try (rewrite Z in *; discriminate); ifs H; okinj H; auto.
Qed.
Lemma none_dstT c ffm ic m k T : irr_dstT c = true -> mt_fset m k = 0 -> x_dstT (ext c ffm) ic m k = Ok T -> T = 0.
Proof.
  intros IR Z. destruct c; try discriminate IR; clear IR; irr2 m k; intros H; try (rewrite Z in *; discriminate); ifs H; okinj H; auto.
Qed.
Definition sp_float (c : xcls) : bool := match c with X_C2_sp_load_float_single | X_C2_sp_load_float_double => true | _ => false end.
Lemma sp_float_srcT c ffm ic m k : sp_float c = true -> N.testbit (mt_fset m k) (fid_idx RS2) = false ->
  x_srcT (ext c ffm) ic m k = Ok (slot_typed m k (src_slots c) ffm ic).
Proof. intros P. destruct c; try discriminate P; clear P; cbn [fid_idx]; intros F; xtyped m k; try discriminate F; lors. Qed.

(** The two accounts of the types agree on the operands. *)
Definition slots (p : port) (c : xcls) : list slot := match p with Dest => dst_slots c | Source => src_slots c end.
Definition strict (m : meta) (ffm : N) (ss : list slot) : bool :=
  forallb (fun s => forallb (fun k => Bool.eqb (slot_is m k s) (match slot_otype m s with Some k' => kind_eqb k k' | None => false end)) all_kinds) (live ffm ss).
Lemma in_all_kinds k : In k all_kinds. Proof. destruct k; cbn; tauto. Qed.
Lemma strict_ok m ffm p c : strict m ffm (slots p c) = true -> typed_once p c ffm m.
Proof.
  unfold strict. intros H s k I. rewrite forallb_forall in H. specialize (H _ I). rewrite forallb_forall in H. specialize (H k (in_all_kinds k)).
  apply eqb_prop in H. rewrite H. destruct (slot_otype m s) as [k'|]; [|split; discriminate]. destruct k, k'; cbn; split; congruence.
Qed.
Lemma once_exact m ffm ic p c : typed_once p c ffm m ->
  forall k r, N.testbit (slot_typed m k (slots p c) ffm ic) r = true <-> exists e, In e (slot_elems m (slots p c) ffm ic) /\ e_type e = Some k /\ e_val e = r.
Proof.
  intros ST k r. rewrite slot_typed_bit. split.
  - intros (s & I & F & T & E). assert (IL : In s (live ffm (slots p c))) by now apply live_in. apply (ST _ _ IL) in T.
    exists (slot_elem m ic s). split; [now apply in_map|]. cbn. auto.
  - intros (e & I & T & E). apply in_map_iff in I as (s & <- & I). cbn in T, E. apply (ST _ _ I) in T.
    apply live_in in I as [I F]. eauto.
Qed.
Definition irr (p : port) (c : xcls) : bool := match p with Dest => irr_dstT c | Source => irr_srcT c end.
Lemma irr_pair_src c : is_pair_store c = true -> irr_srcT c = true. Proof. destruct c; easy. Qed.
Lemma irr_pair_dst c : is_pair_load c = true -> irr_dstT c = true. Proof. destruct c; easy. Qed.
Lemma regular_exact c ffm m ic n u d p : irr p c = false -> typed_once p c ffm m -> decode_info n u (ext c ffm) m ic = Ok d -> masks_exact p d.
Proof.
  intros IR ST D. apply decode_inv in D as X. destruct X as (_ & _ & _ & _ & _ & _ & ST' & DT' & _).
  intros k r. unfold operands_at, typed_at. destruct p; cbn [irr] in *.
  - assert (P : is_pair_load c = false) by (destruct (is_pair_load c) eqn:E; [apply irr_pair_dst in E; congruence|auto]).
    rewrite (proj1 (C26_dst _ _ _ _ _ _ _ P D)). specialize (DT' k). rewrite dstT_conforms in DT' by auto.
    assert (E : d_dstT d k = slot_typed m k (dst_slots c) ffm ic) by congruence. rewrite E. exact (once_exact m ffm ic Dest c ST k r).
  - assert (P : is_pair_store c = false) by (destruct (is_pair_store c) eqn:E; [apply irr_pair_src in E; congruence|auto]).
    rewrite (proj1 (C26_src _ _ _ _ _ _ _ P D)). specialize (ST' k). rewrite srcT_conforms in ST' by auto.
    assert (E : d_srcT d k = slot_typed m k (src_slots c) ffm ic) by congruence. rewrite E. exact (once_exact m ffm ic Source c ST k r).
Qed.
Lemma C65_regular_lemma c ffm m ic n u d p : ~ In c (coarse p) -> typed_once p c ffm m -> decode_info n u (ext c ffm) m ic = Ok d -> masks_exact p d.
Proof. intros NI. apply regular_exact. destruct p, c; try reflexivity; exfalso; apply NI; cbn; tauto. Qed.
Lemma sp_float_exact c ffm m ic n u d : sp_float c = true -> forallb (fun k => negb (N.testbit (mt_fset m k) (fid_idx RS2))) all_kinds = true ->
  typed_once Source c ffm m -> decode_info n u (ext c ffm) m ic = Ok d -> masks_exact Source d.
Proof.
  intros SP R2 ST D. apply decode_inv in D as X. destruct X as (_ & _ & _ & _ & _ & _ & ST' & _).
  intros k r. unfold operands_at, typed_at.
  assert (P : is_pair_store c = false) by (destruct c; easy).
  rewrite (proj1 (C26_src _ _ _ _ _ _ _ P D)). specialize (ST' k). rewrite forallb_forall in R2. specialize (R2 k (in_all_kinds k)).
  apply negb_true_iff in R2. rewrite sp_float_srcT in ST' by auto.
  assert (E : d_srcT d k = slot_typed m k (src_slots c) ffm ic) by congruence. rewrite E. exact (once_exact m ffm ic Source c ST k r).
Qed.
(** The other formats, where all operands have one type and no other type is in use. *)
Definition conds (c : xcls) (ffm : N) (m : meta) (ic : N) : bool := agree_cond c ffm m ic && sub_cond c ffm m ic && list_cond c ffm ic.
Definition typing_okb (m : meta) : bool :=
  forallb (fun f => match mt_otype m f with Some k => N.testbit (mt_fset m k) (fid_idx f) | None => true end) all_fids.
Lemma typing_okb_ok m : typing_okb m = true -> typing_ok m.
Proof. intros H f k E. unfold typing_okb in H. rewrite forallb_forall in H. specialize (H f (in_all_fids f)). now rewrite E in H. Qed.
Definition uniform (p : port) (c : xcls) (ffm : N) (m : meta) : bool :=
  match types p c ffm m with
  | [] => true
  | Some k0 :: r => forallb (fun t => okind_eqb t (Some k0)) r && forallb (fun k => kind_eqb k k0 || (mt_fset m k =? 0)) all_kinds
  | None :: _ => false
  end.
Lemma agree_pair_ok c ffm m ic : agree_cond c ffm m ic = true -> pair_ok c ffm.
Proof.
  unfold pair_ok, is_pair. intros A P. destruct c; try discriminate P; cbn [agree_cond pair_free] in *;
    repeat match type of A with (_ && _) = true => apply andb_true_iff in A as [A ?] end; auto; try (apply andb_true_iff; auto).
Qed.
Lemma uniform_exact p c ffm m ic n u d : irr p c = true -> uniform p c ffm m = true -> typing_okb m = true -> conds c ffm m ic = true -> ic < 2 ^ 64 ->
  decode_info n u (ext c ffm) m ic = Ok d -> masks_exact p d.
Proof.
  intros IR UN TY CO B D. unfold conds in CO. apply andb_true_iff in CO as [CO LC]. apply andb_true_iff in CO as [AC SC].
  pose proof (agree_pair_ok _ _ _ _ AC) as PO.
  destruct (decode_total c ffm m ic n u B (typing_okb_ok _ TY) AC) as (d' & D' & LS & LD). assert (d' = d) by congruence. subst d'. clear D'.
  pose proof (C28_sub_lemma c ffm m ic n u d SC D) as SU. destruct (masks_listed c ffm m ic n u d LC D) as [MS MD].
  apply decode_inv in D as X. destruct X as (_ & _ & _ & _ & _ & _ & ST' & DT' & _).
  assert (TP : forall e, In e (operands_at p d) -> In (e_type e) (types p c ffm m)) by (intros e; eapply types_ok; eauto).
  assert (Z : forall k, mt_fset m k = 0 -> typed_at p d k = 0).
  { intros k Z. destruct p; cbn [typed_at irr] in *; [eapply none_dstT|eapply none_srcT]; eauto. }
  assert (SUB : forall k r, N.testbit (typed_at p d k) r = true -> exists e, In e (operands_at p d) /\ e_val e = r).
  { intros k r H. destruct (SU k) as [S1 S2]. destruct p; cbn [typed_at] in H; [apply MD, S2, H|apply MS, S1, H]. }
  assert (AG : forall e k, In e (operands_at p d) -> e_type e = Some k -> N.testbit (typed_at p d k) (e_val e) = true).
  { destruct p; [apply LD|apply LS]. }
  intros k r. split.
  - intros H. destruct (SUB _ _ H) as (e & E1 & E2). exists e. split; [auto|]. split; [|auto]. specialize (TP _ E1). unfold uniform in UN.
    destruct (types p c ffm m) as [|[k0|] l]; [destruct TP| |discriminate]. apply andb_true_iff in UN as [U1 U2].
    assert (ET : e_type e = Some k0).
    { destruct TP as [TP|TP]; [auto|]. rewrite forallb_forall in U1. specialize (U1 _ TP). now apply okind_eqb_eq. }
    rewrite forallb_forall in U2. specialize (U2 k (in_all_kinds k)). apply orb_true_iff in U2 as [U2|U2].
    + assert (k = k0) by (destruct k, k0; easy). congruence.
    + apply N.eqb_eq in U2. rewrite (Z _ U2), N.bits_0 in H. discriminate.
  - intros (e & E1 & E2 & <-). auto.
Qed.
