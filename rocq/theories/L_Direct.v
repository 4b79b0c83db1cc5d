(** Instructions made from operands that the user gives. *)
From Coq Require Import NArith ZArith List Bool String Lia.
From Verif Require Import M_Base M_Field M_Forms M_Meta M_OperandInfo M_Extract M_Decoded M_Registry M_Trie M_Builder M_DTable M_Direct.
From Verif Require Import S_Bits S_Meta S_Operands S_Trie S_Table S_Regs S_History S_Direct L_Bits L_Meta L_Count L_OperandInfo L_Names.
Import ListNotations.
Local Open Scope N_scope.

(** ** Lists of registers and masks *)
Lemma regs_or_spec regs : forall acc, regs_or acc regs =
  if existsb (fun r => MAX_REG_NUM <? r) regs then Throw EInvalidRegisterNumber
  else Ok (N.lor acc (mask_of regs)).
Proof.
  induction regs as [|r regs IH]; intros acc; cbn [regs_or existsb mask_of fold_right].
  - now rewrite N.lor_0_r.
  - destruct (MAX_REG_NUM <? r) eqn:E; cbn [orb]; [reflexivity|]. rewrite IH. destruct (existsb _ _); [reflexivity|].
    fold (mask_of regs). rewrite bit1_pow, N.lor_assoc by (unfold MAX_REG_NUM in E; lia). reflexivity.
Qed.
Lemma regs_mask_spec regs : regs_mask regs =
  if existsb (fun r => MAX_REG_NUM <? r) regs then Throw EInvalidRegisterNumber else Ok (mask_of regs).
Proof. unfold regs_mask. rewrite regs_or_spec. reflexivity. Qed.
Lemma exactly_mask_of regs : exactly (mask_of regs) regs.
Proof.
  intros r. unfold in_mask. rewrite mask_of_testbit, existsb_exists. split.
  - intros (x & H & E). apply N.eqb_eq in E. now subst.
  - intros H. exists r. split; [exact H|apply N.eqb_refl].
Qed.
Lemma exactly_ones w : w < 2 ^ 64 -> exactly w (ones_of w).
Proof. intros H. pose proof (exactly_mask_of (ones_of w)) as Q. now rewrite mask_of_ones in Q. Qed.
Lemma exactly_app a b l l' : exactly a l -> exactly b l' -> exactly (N.lor a b) (l ++ l').
Proof.
  intros H H' r. specialize (H r). specialize (H' r). unfold in_mask in *. rewrite N.lor_spec, orb_true_iff, in_app_iff. tauto.
Qed.
Lemma exactly_nil : exactly 0 [].
Proof. intros r. unfold in_mask. rewrite N.bits_0. split; [discriminate|intros []]. Qed.
Lemma regs_mask_ok regs v : regs_mask regs = Ok v -> exactly v regs.
Proof. rewrite regs_mask_spec. destruct (existsb _ _); [discriminate|]. intros [= <-]. apply exactly_mask_of. Qed.

(** ** Fields *)
Lemma add_elem_calm o e : (exists o', add_elem o e = Ok o') \/ add_elem o e = AssertFail.
Proof.
  unfold add_elem. destruct (e_fid e) as [f|]; [|eauto]. destruct (oi_fids o f); [|eauto].
  unfold rassert. destruct (fi_matches _ _); cbn; eauto.
Qed.
Definition free (m : meta) (fs : list fid) : list fid := filter (fun f => negb (is_operand_fixed m (Some f))) fs.
Lemma drop_fixed_free lim m fs : Forall (fun f => fid_idx f < lim) fs ->
  match drop_fixed lim m fs with [] => free m fs = [] | f :: r => free m fs = f :: free m r /\ Forall (fun f => fid_idx f < lim) r end.
Proof.
  induction 1 as [|f fs H F IH]; cbn [drop_fixed]; [reflexivity|]. unfold free in *. cbn [filter].
  replace (fid_idx f <? lim) with true by lia. cbn [andb]. destruct (is_operand_fixed m (Some f)); cbn [negb]; [exact IH|]. split; [reflexivity|exact F].
Qed.
Lemma drop_fixed_none lim m fs : Forall (fun f => lim <= fid_idx f) fs -> drop_fixed lim m fs = fs.
Proof. destruct 1 as [|f fs H F]; cbn [drop_fixed]; [reflexivity|]. now replace (fid_idx f <? lim) with false by lia. Qed.
Lemma field_loop_free lim m ty sd regs : forall fs o, Forall (fun f => fid_idx f < lim) fs ->
  field_loop lim m ty sd regs fs o =
  if (List.length regs <=? List.length (free m fs))%nat then add_elems o (operands (free m fs) ty sd regs)
  else field_loop lim m ty sd regs fs o.
Proof.
  induction regs as [|r regs IH]; intros fs o F; cbn [field_loop List.length].
  - cbn. unfold operands. destruct (free m fs); reflexivity.
  - pose proof (drop_fixed_free lim m fs F) as D. destruct (drop_fixed lim m fs) as [|f fs'].
    + rewrite D. reflexivity.
    + destruct D as [D F']. rewrite D. cbn [List.length Nat.leb]. destruct (_ <=? _)%nat eqn:L; [|reflexivity].
      unfold operands. cbn [combine map add_elems fst snd]. destruct (add_elem o _) as [o'| | |]; cbn [rbind]; try reflexivity.
      rewrite IH, L by exact F'. reflexivity.
Qed.
Lemma field_loop_over lim m ty sd regs : forall fs o, Forall (fun f => fid_idx f < lim) fs ->
  (List.length (free m fs) < List.length regs)%nat -> field_loop lim m ty sd regs fs o = AssertFail.
Proof.
  induction regs as [|r regs IH]; intros fs o F L; cbn [field_loop]; [cbn in L; lia|].
  pose proof (drop_fixed_free lim m fs F) as D. destruct (drop_fixed lim m fs) as [|f fs']; [reflexivity|].
  destruct D as [D F']. rewrite D in L. cbn in L.
  destruct (add_elem_calm o (mkE (Some f) (ty f) r (sd f) false)) as [(o' & ->)| ->]; cbn [rbind]; [|reflexivity]. apply IH; [exact F'|lia].
Qed.
Lemma field_loop_all lim m ty sd regs : forall fs o, Forall (fun f => lim <= fid_idx f) fs -> (List.length regs <= List.length fs)%nat ->
  field_loop lim m ty sd regs fs o = add_elems o (operands fs ty sd regs).
Proof.
  induction regs as [|r regs IH]; intros fs o F L; cbn [field_loop]; [unfold operands; destruct fs; reflexivity|].
  rewrite drop_fixed_none by exact F. destruct fs as [|f fs]; [cbn in L; lia|]. inversion F as [|? ? F1 F2]. subst.
  unfold operands. cbn [combine map add_elems fst snd]. destruct (add_elem o _) as [o'| | |]; cbn [rbind]; try reflexivity.
  apply IH; [exact F2|cbn in L; lia].
Qed.
Lemma in_operands fs ty sd regs e : In e (operands fs ty sd regs) -> exists f r, In (f, r) (combine fs regs) /\ e = mkE (Some f) (ty f) r (sd f) false.
Proof. unfold operands. rewrite in_map_iff. intros ([f r] & <- & H). eauto. Qed.
Lemma combine_fun {A B} (l : list A) : forall (l' : list B) x y z, NoDup l -> In (x, y) (combine l l') -> In (x, z) (combine l l') -> y = z.
Proof.
  induction l as [|a l IH]; intros [|b l'] x y z N; cbn; try tauto. inversion N as [|? ? N1 N2]. subst.
  intros [H|H] [H'|H']; try congruence.
  - apply in_combine_l in H'. congruence.
  - apply in_combine_l in H. congruence.
  - eauto.
Qed.
Lemma operands_built fs ty sd regs : NoDup fs -> exists o, add_elems oi_empty (operands fs ty sd regs) = Ok o /\ oi_elems o = operands fs ty sd regs.
Proof.
  intros N. assert (C : consistent (operands fs ty sd regs)).
  { intros e1 e2 f H1 H2 E1 E2. apply in_operands in H1 as (f1 & r1 & I1 & ->). apply in_operands in H2 as (f2 & r2 & I2 & ->).
    cbn in E1, E2. assert (f1 = f) by congruence. assert (f2 = f) by congruence. subst. now rewrite (combine_fun _ _ _ _ _ N I1 I2). }
  apply C40_built in C as (o & E). exists o. split; [exact E|]. apply add_elems_wf in E as [_ E]; [exact E|apply oi_wf_empty].
Qed.
Lemma operands_vals fs ty sd regs : (List.length regs <= List.length fs)%nat -> map e_val (operands fs ty sd regs) = regs.
Proof.
  unfold operands. rewrite map_map. cbn [e_val]. revert fs. induction regs as [|r regs IH]; intros [|f fs] L; cbn in *; try lia; try reflexivity.
  f_equal. apply IH. lia.
Qed.

Lemma NoDup_filter {T} (p : T -> bool) l : NoDup l -> NoDup (filter p l).
Proof. apply List.NoDup_filter. Qed.
Lemma sources_nodup : NoDup [RS1; RS2; RS3; RS4].
Proof. repeat constructor; cbn; intuition discriminate. Qed.
Lemma free_length m : (List.length (free m [RS1; RS2; RS3; RS4]) <= 4)%nat.
Proof. unfold free. cbn [filter]. repeat destruct (negb _); cbn; lia. Qed.
Lemma direct_srcI_spec m regs :
  ((List.length (free m [RS1; RS2; RS3; RS4]) < List.length regs)%nat /\ direct_srcI m regs = AssertFail) \/
  ((List.length regs <= List.length (free m [RS1; RS2; RS3; RS4]))%nat /\
   exists o, direct_srcI m regs = Ok o /\ oi_elems o = operands (free m [RS1; RS2; RS3; RS4]) (mt_otype m) store_field regs).
Proof.
  assert (F : Forall (fun f => fid_idx f < 4) [RS1; RS2; RS3; RS4]) by (repeat constructor).
  pose proof (free_length m) as L4. unfold direct_srcI, rassert.
  destruct (Compare_dec.le_lt_dec (List.length regs) (List.length (free m [RS1; RS2; RS3; RS4]))) as [L|L]; [right|left]; (split; [exact L|]).
  - replace (N.of_nat (List.length regs) <=? 4) with true by lia. cbn [rbind]. rewrite field_loop_free by exact F.
    replace (_ <=? _)%nat with true by (symmetry; now apply PeanoNat.Nat.leb_le).
    apply operands_built. apply NoDup_filter. exact sources_nodup.
  - destruct (_ <=? 4); cbn [rbind]; [|reflexivity]. now apply field_loop_over.
Qed.
Lemma direct_dstI_spec m regs :
  ((2 < List.length regs)%nat /\ direct_dstI m regs = AssertFail) \/
  ((List.length regs <= 2)%nat /\
   exists o, direct_dstI m regs = Ok o /\ oi_elems o = operands [RD; RD2] (fun _ => default_dest_type m) (fun _ => false) regs).
Proof.
  assert (F : Forall (fun f => 2 <= fid_idx f) [RD; RD2]) by (repeat constructor; cbn; discriminate).
  unfold direct_dstI, rassert.
  destruct (Compare_dec.le_lt_dec (List.length regs) 2) as [L|L]; [right|left]; (split; [exact L|]).
  - replace (N.of_nat (List.length regs) <=? 2) with true by lia. cbn [rbind]. rewrite field_loop_all by (exact F || exact L).
    apply operands_built. repeat constructor; cbn; intuition discriminate.
  - replace (N.of_nat (List.length regs) <=? 2) with false by lia. reflexivity.
Qed.

(** ** Every class *)
Lemma bare_built (l : list elem) : Forall (fun e => e_fid e = None) l -> exists o, add_elems oi_empty l = Ok o /\ oi_elems o = l.
Proof.
  intros F. assert (C : consistent l).
  { intros e1 e2 f H1 _ E1 _. rewrite Forall_forall in F. apply F in H1. congruence. }
  apply C40_built in C as (o & E). exists o. split; [exact E|]. apply add_elems_wf in E as [_ E]; [exact E|apply oi_wf_empty].
Qed.
Lemma bare_none t sd l : Forall (fun e => e_fid e = None) (map (bare t sd) l).
Proof. induction l; constructor; auto. Qed.
Lemma bare_vals t sd l : map e_val (map (bare t sd) l) = l.
Proof. rewrite map_map. cbn [bare e_val]. apply map_id. Qed.
Lemma mask_elems_ok t sd w : w < 2 ^ 64 -> mask_elems t sd w = Ok (map (bare t sd) (ones_of w)).
Proof. intros H. unfold mask_elems. rewrite bit_indices_ok by exact H. reflexivity. Qed.
Lemma add_bare l o : add_elems oi_empty l = Ok o -> Forall (fun e => e_fid e = None) l -> oi_elems o = l.
Proof. intros E F. destruct (bare_built l F) as (o' & E' & Q). congruence. Qed.
Lemma add_bare_one t sd l o : add_elems oi_empty (map (bare t sd) l) = Ok o -> map e_val (oi_elems o) = l.
Proof. intros E. rewrite (add_bare _ _ E (bare_none _ _ _)). apply bare_vals. Qed.
Lemma add_bare_two t sd sd' l l' o : add_elems oi_empty (map (bare t sd) l ++ map (bare t sd') l') = Ok o ->
  map e_val (oi_elems o) = (l ++ l')%list.
Proof.
  intros E. rewrite (add_bare _ _ E).
  - rewrite map_app, !bare_vals. reflexivity.
  - apply Forall_app. split; apply bare_none.
Qed.
Lemma d_srcI_vals o m i : masks_fit o -> d_srcI o m = Ok i -> map e_val (oi_elems i) = given_sources o.
Proof.
  destruct o as [s d sp|s d sp|s d|s d|a d sp|a d|a d r]; cbn [masks_fit d_srcI given_sources given_addrs given_datas]; intros F.
  - destruct (direct_srcI_spec m s) as [[_ ->]|[L (o & -> & Q)]]; [discriminate|]. intros [= <-]. rewrite Q. now apply operands_vals.
  - intros [= <-]. reflexivity.
  - intros [= <-]. reflexivity.
  - rewrite mask_elems_ok by apply F. cbn [rbind]. apply add_bare_one.
  - apply add_bare_two.
  - rewrite !mask_elems_ok by apply F. cbn [rbind]. apply add_bare_two.
  - rewrite !mask_elems_ok by apply F. cbn [rbind]. apply add_bare_two.
Qed.
Lemma bare_flags t sd l : map e_sdata (map (bare t sd) l) = map (fun _ => sd) l.
Proof. rewrite map_map. reflexivity. Qed.
Lemma add_bare_flags t l l' o : add_elems oi_empty (map (bare t false) l ++ map (bare t true) l') = Ok o ->
  map e_sdata (oi_elems o) = (map (fun _ => false) l ++ map (fun _ => true) l')%list.
Proof.
  intros E. rewrite (add_bare _ _ E).
  - rewrite map_app, !bare_flags. reflexivity.
  - apply Forall_app. split; apply bare_none.
Qed.
Lemma d_srcI_flags o m i : masks_fit o -> d_srcI o m = Ok i -> is_store o = true ->
  map e_sdata (oi_elems i) = (map (fun _ => false) (given_addrs o) ++ map (fun _ => true) (given_datas o))%list.
Proof.
  destruct o as [s d sp|s d sp|s d|s d|a d sp|a d|a d r]; cbn [masks_fit d_srcI is_store given_addrs given_datas]; intros F H S; try discriminate S.
  - exact (add_bare_flags _ _ _ _ H).
  - rewrite !mask_elems_ok in H by apply F. exact (add_bare_flags _ _ _ _ H).
  - rewrite !mask_elems_ok in H by apply F. exact (add_bare_flags _ _ _ _ H).
Qed.
Lemma d_dstI_vals o m i : masks_fit o -> d_dstI o m = Ok i -> map e_val (oi_elems i) = given_dests o.
Proof.
  destruct o as [s d sp|s d sp|s d|s d|a d sp|a d|a d r]; cbn [masks_fit d_dstI given_dests]; intros F.
  - destruct (direct_dstI_spec m d) as [[_ ->]|[L (o & -> & Q)]]; [discriminate|]. intros [= <-]. rewrite Q. now apply operands_vals.
  - intros [= <-]. reflexivity.
  - intros [= <-]. reflexivity.
  - rewrite mask_elems_ok by apply F. cbn [rbind]. apply add_bare_one.
  - intros [= <-]. reflexivity.
  - intros [= <-]. reflexivity.
  - rewrite mask_elems_ok by apply F. cbn [rbind]. apply add_bare_one.
Qed.
Lemma d_addr_exactly o v : masks_fit o -> d_addr_regs o = Ok v -> exactly v (given_addrs o).
Proof.
  destruct o as [s d sp|s d sp|s d|s d|a d sp|a d|a d r]; cbn [masks_fit d_addr_regs given_addrs]; intros F;
    try (intros [= <-]; apply exactly_nil); try (intros [= <-]; apply exactly_ones; apply F). apply regs_mask_ok.
Qed.
Lemma d_data_exactly o v : masks_fit o -> d_data_regs o = Ok v -> exactly v (given_datas o).
Proof.
  destruct o as [s d sp|s d sp|s d|s d|a d sp|a d|a d r]; cbn [masks_fit d_data_regs given_datas]; intros F;
    try (intros [= <-]; apply exactly_nil); try (intros [= <-]; apply exactly_ones; apply F). apply regs_mask_ok.
Qed.
Lemma d_src_exactly o v : masks_fit o -> d_src_regs o = Ok v -> exactly v (given_sources o).
Proof.
  assert (S : forall o v, masks_fit o -> (let* a := d_addr_regs o in let* d := d_data_regs o in Ok (N.lor a d)) = Ok v ->
    exactly v (given_addrs o ++ given_datas o)).
  { intros o0 v0 F H. pose proof (d_addr_exactly o0) as P. pose proof (d_data_exactly o0) as Q.
    destruct (d_addr_regs o0) as [x| | |]; cbn [rbind] in H; try discriminate.
    destruct (d_data_regs o0) as [y| | |]; cbn [rbind] in H; try discriminate.
    assert (v0 = N.lor x y) as -> by congruence. apply exactly_app; [now apply P|now apply Q]. }
  destruct o as [s d sp|s d sp|s d|s d|a d sp|a d|a d r]; intros F H.
  - now apply regs_mask_ok.
  - now apply regs_mask_ok.
  - now apply regs_mask_ok.
  - cbn in H. injection H as <-. apply exactly_ones, F.
  - exact (S _ _ F H).
  - exact (S _ _ F H).
  - exact (S _ _ F H).
Qed.
Lemma d_dst_exactly o v : masks_fit o -> d_dst_regs o = Ok v -> exactly v (given_dests o).
Proof.
  destruct o as [s d sp|s d sp|s d|s d|a d sp|a d|a d r]; cbn [masks_fit d_dst_regs given_dests]; intros F;
    try (intros [= <-]; apply exactly_nil); try (intros [= <-]; apply exactly_ones; apply F); apply regs_mask_ok.
Qed.
Ltac dest_bind H :=
  match type of H with
  | rbind ?c _ = Ok _ => let E := fresh "E" in destruct c eqn:E; cbn [rbind] in H; try discriminate H
  end.
Lemma to_i64_twos v : v < 2 ^ 64 -> twos_complement 64 v (to_i64 v).
Proof.
  intros L. change (2 ^ 64) with 18446744073709551616 in L. unfold twos_complement, to_i64. cbn [Z.of_N].
  change (2 ^ (64 - 1))%Z with 9223372036854775808%Z. change (2 ^ 64)%Z with 18446744073709551616%Z.
  destruct (N.ltb_spec v 9223372036854775808); (split; [lia|]); [reflexivity|].
  rewrite <- (Z_mod_plus_full (Z.of_N v - 18446744073709551616) 1 18446744073709551616). f_equal. lia.
Qed.
Lemma direct_reported mn uid d m v : masks_fit (dx_ops d) -> decode_info mn uid (direct_ext d) m 0 = Ok v -> reported d v.
Proof.
  intros F. unfold decode_info, direct_ext. cbn [x_srcI x_dstI x_src x_dst x_srcT x_dstT x_addr x_data x_hint x_imm x_soff x_immT N.eqb].
  intros H. do 8 dest_bind H. cbn [rbind] in H. injection H as <-. constructor; cbn [d_src_oi d_dst_oi d_sources d_dests d_addr d_data d_immT d_imm d_soff].
  - eapply d_srcI_vals; eauto.
  - eapply d_dstI_vals; eauto.
  - eapply d_src_exactly; eauto.
  - eapply d_dst_exactly; eauto.
  - eapply d_addr_exactly; eauto.
  - eapply d_data_exactly; eauto.
  - intros S. eapply d_srcI_flags; eauto.
  - auto.
  - apply to_i64_twos.
Qed.

(** ** The classes with lists of registers *)
Definition over (regs : list N) : bool := existsb (fun r => MAX_REG_NUM <? r) regs.
Lemma six_calm f : (exists g, six f = Ok g) \/ (exists k, match f k with Ok _ => False | Throw e => six f = Throw e | AssertFail => six f = AssertFail | UB => six f = UB end).
Proof.
  unfold six. destruct (f KWord) eqn:E1; cbn [rbind]; [|right; exists KWord; now rewrite E1..].
  destruct (f KLong) eqn:E2; cbn [rbind]; [|right; exists KLong; now rewrite E2..].
  destruct (f KSingle) eqn:E3; cbn [rbind]; [|right; exists KSingle; now rewrite E3..].
  destruct (f KDouble) eqn:E4; cbn [rbind]; [|right; exists KDouble; now rewrite E4..].
  destruct (f KQuad) eqn:E5; cbn [rbind]; [|right; exists KQuad; now rewrite E5..].
  destruct (f KVector) eqn:E6; cbn [rbind]; [|right; exists KVector; now rewrite E6..].
  left. eauto.
Qed.
Lemma six_ok f : (forall k, exists v, f k = Ok v) -> exists g, six f = Ok g /\ forall k, f k = Ok (g k).
Proof.
  intros H. unfold six. destruct (H KWord) as (a & E1), (H KLong) as (b & E2), (H KSingle) as (c & E3), (H KDouble) as (d & E4), (H KQuad) as (e & E5), (H KVector) as (g & E6).
  rewrite E1, E2, E3, E4, E5, E6. cbn [rbind]. eexists. split; [reflexivity|]. intros []; auto.
Qed.
Lemma info_decoded mn uid d srcs dsts sp m : dx_ops d = DInfo srcs dsts sp ->
  let r := decode_info mn uid (direct_ext d) m 0 in
  let fs := free m [RS1; RS2; RS3; RS4] in
  ((List.length fs < List.length srcs \/ 2 < List.length dsts)%nat /\ r = AssertFail) \/
  ((List.length srcs <= List.length fs /\ List.length dsts <= 2)%nat /\ (over srcs || over dsts = true) /\ r = Throw EInvalidRegisterNumber) \/
  ((List.length srcs <= List.length fs /\ List.length dsts <= 2)%nat /\ (over srcs || over dsts = false) /\ exists v, r = Ok v /\
     oi_elems (d_src_oi v) = operands fs (mt_otype m) store_field srcs /\
     oi_elems (d_dst_oi v) = operands [RD; RD2] (fun _ => default_dest_type m) (fun _ => false) dsts).
Proof.
  intros ED r fs. unfold r, decode_info, direct_ext. cbn [x_srcI x_dstI x_src x_dst x_srcT x_dstT x_addr x_data x_hint x_imm x_soff x_immT N.eqb].
  rewrite ED. cbn [d_srcI d_dstI d_src_regs d_dst_regs d_addr_regs d_data_regs M_Direct.d_srcT M_Direct.d_dstT]. rewrite !regs_mask_spec. fold (over srcs) (over dsts).
  destruct (direct_srcI_spec m srcs) as [[L ->]|[L (o & -> & Q)]]; cbn [rbind]; [left; auto|].
  destruct (direct_dstI_spec m dsts) as [[L' ->]|[L' (o' & -> & Q')]]; cbn [rbind]; [left; auto|]. fold fs in L, Q. right.
  destruct (over srcs) eqn:O1; cbn [rbind orb]; [left; auto|]. destruct (over dsts) eqn:O2; cbn [rbind]; [left; auto|]. right. split; [auto|]. split; [reflexivity|].
  assert (S1 : exists g, six (fun k => if is_all_ot m k || is_any_source_ot m k then Ok (mask_of srcs) else Ok 0) = Ok g).
  { destruct (six_ok (fun k => if is_all_ot m k || is_any_source_ot m k then Ok (mask_of srcs) else Ok 0)) as (g & G & _); [|eauto].
    intros k. destruct (_ || _); eauto. }
  assert (S2 : exists g, six (fun k => if is_all_ot m k || is_any_dest_ot m k then Ok (mask_of dsts) else Ok 0) = Ok g).
  { destruct (six_ok (fun k => if is_all_ot m k || is_any_dest_ot m k then Ok (mask_of dsts) else Ok 0)) as (g & G & _); [|eauto].
    intros k. destruct (_ || _); eauto. }
  destruct S1 as (g1 & ->), S2 as (g2 & ->). cbn [rbind]. eexists. split; [reflexivity|]. cbn [d_src_oi d_dst_oi]. auto.
Qed.
(** ** Fixed fields and types of a record *)
Lemma parse_oper_fixed c k m m' : parse_oper c k m = Ok m' -> mt_fixed m' = mt_fixed m.
Proof.
  unfold parse_oper. destruct c as [[|l]|]; try (intros [= <-]; reflexivity). unfold set_operands.
  destruct (meta_field_set l); cbn [rbind]; intros; try discriminate. injection H as <-. reflexivity.
Qed.
Lemma parse_isa_fixed l : forall m m', parse_isa l m = Ok m' -> mt_fixed m' = mt_fixed m.
Proof.
  induction l as [|[w s] l IH]; intros m m'; cbn [parse_isa]; [intros [= <-]; reflexivity|].
  destruct (find _ _) as [[? i]|]; [|discriminate]. destruct w as [n|]; cbn [rbind].
  - destruct (_ || _); cbn [rbind]; [discriminate|]. unfold set_isa_width, rassert. destruct (_ && _); cbn [rbind]; [|discriminate].
    intros H. apply IH in H. exact H.
  - intros H. apply IH in H. exact H.
Qed.
Lemma make_meta_fixed j c t m : make_meta j c t = Ok m -> forall f, mt_fixed m f = false.
Proof.
  unfold make_meta. intros H f. do 3 dest_bind H. apply parse_isa_fixed in H. rewrite H. clear H.
  unfold parse_opers in E1. do 5 dest_bind E1.
  apply parse_oper_fixed in E1, E2, E3, E4, E5, E6. rewrite E1, E6, E5, E4, E3, E2.
  assert (mt_fixed a0 = mt_fixed a) as ->.
  { unfold parse_data in E0. destruct (jm_data j); [|congruence]. destruct (data_size_bad n); [discriminate|]. injection E0 as <-. reflexivity. }
  unfold parse_type in E. destruct (jm_type j).
  - dest_bind E. injection E as <-. reflexivity.
  - injection E as <-. reflexivity.
Qed.
Lemma own_fixed r m f : own_meta r = Ok m -> is_operand_fixed m (Some f) = fixes r f.
Proof.
  unfold own_meta. intros H. dest_bind H. injection H as <-. cbn [is_operand_fixed]. unfold fixes.
  pose proof (make_meta_fixed _ _ _ _ E f) as F. destruct (r_fixed r) as [|n l]; [exact F|].
  unfold add_fixed_fields. cbn [mt_fixed]. rewrite F. cbn [orb]. generalize (n :: l) as fl. clear.
  induction fl as [|n fl IH]; cbn [existsb]; [reflexivity|]. now rewrite IH.
Qed.
Lemma own_free r m : own_meta r = Ok m -> free m [RS1; RS2; RS3; RS4] = free_sources r.
Proof. intros H. unfold free, free_sources. cbn [filter]. now rewrite !(own_fixed r m _ H). Qed.
Lemma own_types r m : own_meta r = Ok m ->
  (forall k f, N.testbit (mt_fset m k) (fid_idx f) = true <-> clause_lists (jm_oper (r_meta r) k) f) /\
  (one_type (jm_oper (r_meta r)) -> forall k f, mt_otype m f = Some k <-> clause_lists (jm_oper (r_meta r) k) f).
Proof.
  unfold own_meta. intros H. dest_bind H. injection H as <-. apply make_meta_types in E.
  destruct (r_fixed r); exact E.
Qed.
Lemma dest_kind m k : negb (N.land dest_fields (mt_fset m k) =? 0) = true <->
  exists f, In f [RD; FUSED_RD_0; FUSED_RD_1] /\ N.testbit (mt_fset m k) (fid_idx f) = true.
Proof.
  rewrite negb_true_iff, N.eqb_neq. split.
  - intros H. assert (exists i, N.testbit (N.land dest_fields (mt_fset m k)) i = true) as (i & T).
    { exists (N.log2 (N.land dest_fields (mt_fset m k))). now apply N.bit_log2. }
    rewrite N.land_spec, andb_true_iff in T. destruct T as [T1 T2].
    assert (i = 10 \/ i = 13 \/ i = 14) as I.
    { change dest_fields with (N.lor (N.lor (2 ^ 10) (2 ^ 13)) (2 ^ 14)) in T1. rewrite !N.lor_spec, !N.pow2_bits_eqb in T1.
      rewrite !orb_true_iff, !N.eqb_eq in T1. destruct T1 as [[T1|T1]|T1]; auto. }
    destruct I as [-> |[-> | ->]]; [exists RD|exists FUSED_RD_0|exists FUSED_RD_1]; cbn; auto.
  - intros (f & I & T) Z. assert (N.testbit (N.land dest_fields (mt_fset m k)) (fid_idx f) = true) as Q.
    { rewrite N.land_spec, T. destruct I as [<-|[<-|[<-|[]]]]; reflexivity. }
    rewrite Z, N.bits_0 in Q. discriminate.
Qed.
Lemma all_kinds_in k : In k all_kinds. Proof. destruct k; cbn; tauto. Qed.
Lemma own_dest_type r m : own_meta r = Ok m -> one_type (jm_oper (r_meta r)) -> rd_rules (jm_oper (r_meta r)) ->
  default_dest_type m = mt_otype m RD.
Proof.
  intros H OT RR. destruct (own_types r m H) as [S T]. specialize (T OT). unfold default_dest_type.
  assert (D : forall k, negb (N.land dest_fields (mt_fset m k) =? 0) = true <-> mt_otype m RD = Some k).
  { intros k. rewrite dest_kind, T. split.
    - intros (f & I & Q). apply S in Q. destruct I as [<-|I]; [exact Q|]. exact (RR k f I Q).
    - intros Q. exists RD. split; [now left|]. now apply S. }
  destruct (find _ all_kinds) as [k|] eqn:F.
  - apply find_some in F as [_ F]. symmetry. now apply D.
  - destruct (mt_otype m RD) as [k|] eqn:Q; [|reflexivity]. pose proof (find_none _ _ F k (all_kinds_in k)) as X.
    assert (negb (N.land dest_fields (mt_fset m k) =? 0) = true) as Y by (now apply D). congruence.
Qed.

(** ** Calls *)
Section Calls.
Context {A U : Type} (u0 : U).
Lemma direct_call (st : dt A U) mn uid x a k o :
  snd (step u0 st (ODirect mn uid x a)) = Ok (AObj k o) ->
  exists f mn', bypass_info f mn' x = Ok (ob_info o).
Proof.
  cbn [step]. unfold make_inst_directly.
  match goal with |- context [let '(d, r) := ?c in _] => destruct c as [d r] end.
  destruct r as [[mn' [i|]]| | |]; cbn [lift_obj snd]; try discriminate.
  destruct (get_fact (dt_b d) i) as [f| | |]; cbn [rbind lift_obj snd]; try discriminate.
  destruct (bypass_info f mn' x) as [v| | |] eqn:E; cbn [lift_obj snd]; try discriminate.
  intros H. exists f, mn'. rewrite E. f_equal. revert H.
  unfold alloc. cbn [lift_obj dt_heap]. rewrite Nat.eqb_refl. cbn [snd]. intros [= _ <-]. reflexivity.
Qed.
Lemma in_order_lemma (st : dt A U) mn uid d a k o : masks_fit (dx_ops d) ->
  snd (step u0 st (ODirect mn uid (direct_ext d) a)) = Ok (AObj k o) -> reported d (i_di (ob_info o)).
Proof.
  intros F H. apply direct_call in H as (f & mn' & H). unfold bypass_info in H. do 3 dest_bind H.
  assert (i_di (ob_info o) = a1) as -> by (injection H as H; rewrite <- H; reflexivity).
  eapply direct_reported; eauto.
Qed.
Lemma immediate_lemma (st : dt A U) mn uid d a k o name num imm ops : masks_fit ops ->
  d = direct_named name imm ops \/ d = direct_numbered num imm ops ->
  snd (step u0 st (ODirect mn uid (direct_ext d) a)) = Ok (AObj k o) ->
  let v := i_di (ob_info o) in
  match imm with
  | None => d_has_imm v = false /\ d_imm v = 0
  | Some i => d_has_imm v = true /\ d_immT v = ImmUnsigned /\ d_imm v = i /\ (i < 2 ^ 64 -> twos_complement 64 i (d_soff v))
  end.
Proof.
  intros F D H. apply in_order_lemma in H; [|destruct D as [-> | ->]; exact F]. destruct H as [_ _ _ _ _ _ _ [I1 I2] I3].
  intros v. fold v in I1, I2, I3. unfold d_has_imm. rewrite I1, I2.
  destruct imm as [i|], D as [-> | ->]; cbn in *; auto.
Qed.
End Calls.

Lemma over_true regs : over regs = true <-> exists q, In q regs /\ 31 < q.
Proof. unfold over, MAX_REG_NUM. rewrite existsb_exists. split; intros (q & H & E); exists q; (split; [exact H|]); apply N.ltb_lt; exact E. Qed.
Section Named.
Context {A U : Type} (u0 : U) (uids : list (string * N)) (annos : list (string * anno)) (nu : N)
  (incl excl : list pattern) (recs : list irec) (s : builder * tree).
Context (NU : 0 < nu < w32) (HD : make_decoder uids annos nu incl excl recs = Ok s)
  (HS : separated (encodings (kept incl excl recs))).
Lemma fields_lemma (h : list (op A U)) r mn d srcs dsts sp a : Forall (covered s) h ->
  In r (kept incl excl recs) -> is_inst r mn -> r_expand r = ""%string -> uniform (kept incl excl recs) r mn ->
  dx_ops d = DInfo srcs dsts sp ->
  let ans := snd (step u0 (fst (run u0 (dt_new s) h)) (ODirect mn INVALID_UID (direct_ext d) a)) in
  exists ty td,
    (one_type (jm_oper (r_meta r)) -> forall k f, ty f = Some k <-> clause_lists (jm_oper (r_meta r) k) f) /\
    (one_type (jm_oper (r_meta r)) -> rd_rules (jm_oper (r_meta r)) -> td = ty RD) /\
    (~ fits r srcs dsts -> ans = AssertFail) /\
    (fits r srcs dsts -> (exists q, In q (srcs ++ dsts)%list /\ 31 < q) -> ans = Throw EInvalidRegisterNumber) /\
    (fits r srcs dsts -> (forall q, In q (srcs ++ dsts)%list -> q <= 31) -> exists k v args, ans = Ok (AObj k (mkObj v args u0)) /\
       d_mnemonic (i_di v) = mn /\
       oi_elems (d_src_oi (i_di v)) = operands (free_sources r) ty store_field srcs /\
       oi_elems (d_dst_oi (i_di v)) = operands [RD; RD2] (fun _ => td) (fun _ => false) dsts).
Proof.
  intros F H1 H2 H3 H5 ED ans. destruct (by_name_lemma u0 uids annos nu incl excl recs s NU HD HS h r mn (direct_ext d) a F H1 H2 H3 H5) as (m & v & M & AN & GI).
  fold ans in GI. exists (mt_otype m), (default_dest_type m).
  split; [apply own_types; exact M|]. split; [intros OT RR; now apply (own_dest_type r)|].
  unfold answers in AN. cbn [rd_mn rd_x rd_meta] in AN.
  assert (OV : over (srcs ++ dsts) = over srcs || over dsts) by apply existsb_app. unfold fits.
  destruct (info_decoded mn (lookup_uid s mn) d srcs dsts sp m ED) as [[L Q]|[(L & O & Q)|(L & O & dv & Q & S1 & S2)]];
    rewrite Q in AN; rewrite (own_free r m M) in *.
  - subst v. cbn in GI. split; [auto|]. split; intros [L1 L2]; exfalso; lia.
  - subst v. cbn in GI. split; [intros NL; contradiction|]. split; [auto|].
    intros _ B. exfalso. rewrite <- OV in O. apply over_true in O as (q & I & X). apply B in I. lia.
  - destruct AN as (an & ->). cbn in GI. destruct GI as (k & args & ->). split; [intros NL; contradiction|]. split.
    + intros _ B. apply over_true in B. rewrite OV in B. congruence.
    + intros _ _. exists k, (mkInfo 0 dv (direct_ext d) m an), args. split; [reflexivity|]. cbn [i_di]. split; [|auto].
      unfold decode_info in Q. repeat dest_bind Q. cbn [rbind N.eqb] in Q. injection Q as <-. reflexivity.
Qed.
End Named.
