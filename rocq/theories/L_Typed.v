(** Typed register masks (C28). *)
From Coq Require Import NArith ZArith List Bool Lia ZifyBool ZifyN String.
From Verif Require Import M_Base M_Field M_Forms M_Meta M_OperandInfo M_Extract M_Decoded.
From Verif Require Import S_Bits S_Operands S_Slots S_Imm S_Agree S_Pairs S_Regs.
From Verif Require Import L_Bits L_Count L_OperandInfo L_Slots L_Imm L_Pairs L_Agree L_Decoded L_Regs.
Import ListNotations.
Local Open Scope N_scope.

Lemma sub_refl a : sub_mask a a. Proof. intros r H. exact H. Qed.
Lemma sub_0 a : sub_mask 0 a. Proof. intros r H. unfold in_mask in H. now rewrite N.bits_0 in H. Qed.
Lemma sub_lor a b c : sub_mask a c -> sub_mask b c -> sub_mask (N.lor a b) c.
Proof. unfold sub_mask, in_mask. intros A B r. rewrite N.lor_spec, orb_true_iff. intros [H|H]; auto. Qed.
Lemma sub_l a b c : sub_mask a b -> sub_mask a (N.lor b c).
Proof. unfold sub_mask, in_mask. intros A r H. rewrite N.lor_spec, A; auto. Qed.
Lemma sub_r a b c : sub_mask a c -> sub_mask a (N.lor b c).
Proof. unfold sub_mask, in_mask. intros A r H. rewrite N.lor_spec, A, orb_true_r; auto. Qed.
Lemma sub_clear a b : sub_mask a b -> sub_mask (clear_x0 a) (clear_x0 b).
Proof.
  unfold sub_mask, in_mask, clear_x0. intros A r. rewrite !andnot64_testbit', !andb_true_iff. intros [H ?]. auto.
Qed.
Lemma sub_pow_clear n b : n < 64 -> n <> 0 -> sub_mask (2 ^ n) b -> sub_mask (2 ^ n) (clear_x0 b).
Proof.
  unfold sub_mask, in_mask. intros L Z A r H. rewrite clear_x0_testbit; auto; rewrite N.pow2_bits_eqb in H; lia.
Qed.
Lemma sub_clear_l a b : sub_mask a b -> sub_mask (clear_x0 a) b.
Proof. unfold sub_mask, in_mask, clear_x0. intros A r. rewrite !andnot64_testbit', !andb_true_iff. intros [H ?]. auto. Qed.
Ltac subs := repeat first [apply sub_refl | apply sub_0 | apply sub_lor | apply sub_clear | apply sub_clear_l | solve [apply sub_l; subs1] | solve [apply sub_r; subs1]]
with subs1 := first [apply sub_refl | (apply sub_l; subs1) | (apply sub_r; subs1)].
Ltac ifs H := repeat match type of H with context [if ?b then _ else _] => destruct b eqn:? end.
Lemma typed_sub m k ss ffm ic : sub_mask (slot_typed m k ss ffm ic) (slot_mask ss ffm ic).
Proof. intros r. unfold in_mask. rewrite slot_typed_bit, slot_mask_bit. intros (s & I & F & _ & E). eauto. Qed.

Lemma srcT_sub c ffm m ic k S T : sub_cond c ffm m ic = true -> pair_store c = false ->
  x_src (ext c ffm) ic = Ok S -> x_srcT (ext c ffm) ic m k = Ok T -> sub_mask T S.
Proof.
  intros SC P HS HT. destruct (irr_srcT c) eqn:IR.
  2:{ rewrite srcT_conforms in HT by auto. rewrite src_conforms in HS by (auto; intros ->; discriminate).
      okinj HS. okinj HT. apply typed_sub. }
  revert HS HT. destruct c; try discriminate IR; try discriminate P; clear IR P; cbn [sub_cond] in SC;
    try match type of SC with (_ && _) = true => apply andb_true_iff in SC as [SC _] end; try match type of SC with (_ && _) = true => apply andb_true_iff in SC as [SC _] end; try (apply (all_if_spec _ _ k) in SC; cbn [fid_idx] in SC);
    irr2 m k; intros HS HT.
  all: try (rewrite HS in HT; okinj HT; apply sub_refl).
  all: try (destruct SC as [SC|SC]; [rewrite SC in HT|rewrite SC in NA; discriminate NA]).
  all: try destruct k; ifs HT; okinj HS; okinj HT; consts; try solve [subs].
  all: pose proof (slice5 2 ic); rewrite N.lor_0_l; apply sub_pow_clear; [lia|lia|subs].
Qed.
Lemma dstT_sub c ffm m ic k S T : sub_cond c ffm m ic = true -> pair_load c = false ->
  x_dst (ext c ffm) ic = Ok S -> x_dstT (ext c ffm) ic m k = Ok T -> sub_mask T S.
Proof.
  intros SC P HS HT. destruct (irr_dstT c) eqn:IR.
  2:{ rewrite dstT_conforms in HT by auto. rewrite dst_conforms in HS by (auto; intros ->; discriminate).
      okinj HS. okinj HT. apply typed_sub. }
  destruct (xcls_dec c X_U) as [->|Q].
  { cbn in SC. apply N.eqb_eq in SC. rewrite U_dstT_conforms in HT by auto. rewrite dst_conforms in HS by auto.
    okinj HS. okinj HT. apply typed_sub. }
  revert HS HT. destruct c; try discriminate IR; try discriminate P; try congruence; clear IR P Q; cbn [sub_cond] in SC;
    try match type of SC with (_ && _) = true => apply andb_true_iff in SC as [_ SC] end; try (apply (all_if_spec _ _ k) in SC; cbn [fid_idx] in SC);
    irr2 m k; intros HS HT.
  all: try (destruct SC as [SC|SC]; [rewrite SC in HT|rewrite SC in NA; discriminate NA]).
  all: destruct k; ifs HT; okinj HS; okinj HT; consts; try solve [subs].
  all: cbn in SC; rewrite ?N0 in SC; cbn in SC; rewrite ?andb_true_r in SC; try congruence.
  all: rewrite ?andb_true_iff in SC; destruct SC as [SC SC']; congruence.
Qed.
Lemma pair_dst_sub c ffm m ic k S T : sub_cond c ffm m ic = true -> is_pair_load c = true ->
  x_dst (ext c ffm) ic = Ok S -> x_dstT (ext c ffm) ic m k = Ok T -> sub_mask T S.
Proof.
  intros SC P HS HT.
  assert (F : pair_free c ffm = true).
  { destruct c; try discriminate P; cbn [sub_cond] in SC; cbn [pair_free];
    repeat match type of SC with (_ && _) = true => apply andb_true_iff in SC as [SC ?] end; auto. }
  destruct (all_if m RD) eqn:A.
  { rewrite pair_dstT in HT by auto. rewrite pair_dst in HS by auto. okinj HS.
    destruct (N.testbit (mt_fset m k) 10); okinj HT; [apply sub_refl|apply sub_0]. }
  destruct c; try discriminate P; cbn [sub_cond] in SC; try (rewrite A, ?andb_false_r in SC; discriminate SC).
  rewrite pair_dst in HS by auto. revert HS HT. generalize (pair_dst _ _ ic P F).
  irr2 m k; intros D HS HT.
  - okinj HT. apply sub_0.
  - rewrite HT in D. replace T with S by congruence. apply sub_refl.
  - cbn [sub_cond pair_free] in F. rewrite F in HT. okinj HS. ifs HT; okinj HT; [|apply sub_0].
    unfold pair_regs. cbn [pair_first]. replace (slice 2 3 ic + 8 =? 0) with false by lia.
    cbn [mask_of fold_right]. subs.
Qed.
Lemma pair_src_sub c ffm m ic k S T : pair_free c ffm = true -> is_pair_store c = true ->
  x_src (ext c ffm) ic = Ok S -> x_srcT (ext c ffm) ic m k = Ok T -> sub_mask T S.
Proof.
  intros F P HS HT. pose proof (pair_data_addr c ffm ic P F) as (_ & _ & D). rewrite D in HS. revert D HS HT.
  generalize (mask_of (pair_regs (pair_first c ic))). intros M.
  destruct c; try discriminate P; clear P; cbn [pair_free] in F;
    try (apply andb_true_iff in F as [F F']); irr2 m k; intros D HS HT.
  all: try (okinj HT; apply sub_0).
  all: try (rewrite HT in D; replace T with S by congruence; apply sub_refl).
  all: rewrite ?F, ?F' in HT; cbn [pair_base pair_first] in HS; okinj HS; ifs HT; okinj HT; consts; subs.
Qed.
Lemma C28_sub_lemma c ffm m ic n u d : sub_cond c ffm m ic = true -> decode_info n u (ext c ffm) m ic = Ok d ->
  forall k, sub_mask (d_srcT d k) (d_sources d) /\ sub_mask (d_dstT d k) (d_dests d).
Proof.
  intros SC D k. apply decode_inv in D as (_ & _ & _ & _ & S & T & ST & DT & _). specialize (ST k). specialize (DT k). split.
  - destruct (is_pair_store c) eqn:P.
    + eapply pair_src_sub; eauto. destruct c; try discriminate P; cbn [sub_cond] in SC; auto.
      now apply andb_true_iff in SC as [SC ?].
    + eapply srcT_sub; eauto.
  - destruct (is_pair_load c) eqn:P; [eapply pair_dst_sub|eapply dstT_sub]; eauto.
Qed.
(** Every register of the masks is in the list. *)
Definition mask_listed (l : list elem) (M : N) : Prop := forall r, in_mask r M -> exists e, In e l /\ e_val e = r.
Lemma slots_listed m ss ffm ic : mask_listed (slot_elems m ss ffm ic) (slot_mask ss ffm ic).
Proof.
  intros r H. apply slot_mask_bit in H as (s & I & F & E). exists (slot_elem m ic s). split; auto.
  apply in_map. now apply live_in.
Qed.
Lemma mask_of_in l r : N.testbit (mask_of l) r = true <-> In r l.
Proof.
  rewrite <- (map_id l) at 1. rewrite mask_of_map, existsb_exists. split.
  - intros (x & I & E). apply N.eqb_eq in E. now subst.
  - intros I. exists r. now rewrite N.eqb_refl.
Qed.
Definition list_cond (c : xcls) (ffm ic : N) : bool :=
  match c with
  | X_C2_sp => negb (slice 2 5 ic =? 0)
  | X_U => slice 7 5 ffm =? 0
  | X_S_pair | X_C2_sp_store_word_pair => pair_free c ffm && negb (pair_first c ic =? 0)
  | _ => negb (is_pair c) || pair_free c ffm
  end.
Lemma masks_listed c ffm m ic n u d : list_cond c ffm ic = true -> decode_info n u (ext c ffm) m ic = Ok d ->
  mask_listed (oi_elems (d_src_oi d)) (d_sources d) /\ mask_listed (oi_elems (d_dst_oi d)) (d_dests d).
Proof.
  intros LC D. apply decode_inv in D as X. destruct X as (_ & _ & SI & DI & S & T & _). split.
  - destruct (is_pair_store c) eqn:P.
    + assert (F : pair_free c ffm = true /\ (pair_first c ic =? 0) = false).
      { destruct c; try discriminate P; cbn [list_cond] in LC.
        - apply andb_true_iff in LC as [A B]. apply negb_true_iff in B. split; assumption.
        - split; [exact LC|]. cbn [pair_first]. apply N.eqb_neq. clear. lia.
        - apply andb_true_iff in LC as [A B]. apply negb_true_iff in B. split; assumption. }
      destruct F as [F NZ].
      pose proof (pair_data_addr c ffm ic P F) as (_ & _ & E). rewrite S in E.
      assert (E' : d_sources d = N.lor (N.lor (2 ^ pair_base c ic) (2 ^ pair_first c ic)) (mask_of (pair_regs (pair_first c ic)))) by congruence.
      rewrite E'. clear E E'.
      destruct (pair_srcI c ffm ic m P F) as (o & E1 & E2 & _). rewrite SI in E1. assert (E3 : d_src_oi d = o) by congruence.
      intros r H. unfold in_mask in H. rewrite !N.lor_spec, !orb_true_iff, !N.pow2_bits_eqb, mask_of_in in H.
      unfold pair_regs in H. rewrite NZ in H. 
      assert (Q : exists sd, pair_srcs c m ic = mkE (Some RS1) (mt_otype m RS1) (pair_base c ic) false false ::
         [mkE (Some RS2) (mt_otype m RS2) (pair_first c ic) sd false; mkE (Some RS3) (mt_otype m RS2) (pair_first c ic + 1) sd false]).
      { unfold pair_srcs, pair_data. rewrite NZ. destruct c; try discriminate P; eauto. }
      destruct Q as [sd Q]. rewrite E3, E2, Q.
      assert (H' : pair_base c ic = r \/ pair_first c ic = r \/ pair_first c ic + 1 = r).
      { rewrite !N.eqb_eq in H. cbn [In] in H. tauto. }
      clear H. destruct H' as [H|[H|H]]; subst r.
      * exact (ex_intro _ _ (conj (or_introl eq_refl) eq_refl)).
      * exact (ex_intro _ _ (conj (or_intror (or_introl eq_refl)) eq_refl)).
      * exact (ex_intro _ _ (conj (or_intror (or_intror (or_introl eq_refl))) eq_refl)).
    + destruct (C26_src c ffm m ic n u d P D) as (E & M & _). rewrite E.
      destruct (xcls_dec c X_C2_sp) as [->|Q].
      * cbn [list_cond] in LC. rewrite C2_sp_src in S by (clear - LC; lia). replace (d_sources d) with (slot_mask (src_slots X_C2_sp) ffm ic) by congruence. apply slots_listed.
      * intros r H. apply (M Q) in H as (s & I & F & V). exists (slot_elem m ic s). split; auto. apply in_map. now apply live_in.
  - destruct (is_pair_load c) eqn:P.
    + assert (F : pair_free c ffm = true) by (destruct c; try discriminate P; exact LC).
      rewrite pair_dst in T by auto. destruct (pair_dstI c ffm ic m P F) as (o & E1 & E2 & _). rewrite DI in E1. 
      assert (E3 : d_dst_oi d = o) by congruence. rewrite E3, E2. 
      assert (E4 : d_dests d = mask_of (pair_regs (pair_first c ic))) by congruence. rewrite E4.
      intros r H. apply mask_of_in in H. unfold pair_regs, pair_dests in *. destruct (_ =? 0); [destruct H|].
      destruct H as [H|[H|[]]]; subst r.
      * exact (ex_intro _ _ (conj (or_introl eq_refl) eq_refl)).
      * exact (ex_intro _ _ (conj (or_intror (or_introl eq_refl)) eq_refl)).
    + destruct (C26_dst c ffm m ic n u d P D) as (E & M & _). rewrite E. intros r H. apply M in H.
      * destruct H as (s & I & F & V). exists (slot_elem m ic s). split; auto. apply in_map. now apply live_in.
      * intros ->. cbn [list_cond] in LC. clear - LC. lia.
Qed.
Lemma elems_typed c ffm m ic n u d : all_typed m -> (is_pair c = true -> pair_free c ffm = true) ->
  decode_info n u (ext c ffm) m ic = Ok d ->
  (forall e, In e (oi_elems (d_src_oi d)) -> e_type e <> None) /\ (forall e, In e (oi_elems (d_dst_oi d)) -> e_type e <> None).
Proof.
  intros AT PF D. apply decode_inv in D as X. destruct X as (_ & _ & SI & DI & _).
  assert (SL : forall ss e, In e (slot_elems m ss ffm ic) -> e_type e <> None).
  { intros ss e I. apply in_map_iff in I as (s & <- & _). cbn [slot_elem e_type]. unfold slot_otype. destruct (sl_ty s); [apply AT|discriminate]. }
  unfold is_pair in PF. split.
  - destruct (is_pair_store c) eqn:P.
    + rewrite orb_true_r in PF. destruct (pair_srcI c ffm ic m P (PF eq_refl)) as (o & E1 & E2 & _).
      assert (E3 : d_src_oi d = o) by congruence. rewrite E3, E2. intros e I. unfold pair_srcs, pair_data in I.
      destruct c; try discriminate P; destruct (_ =? 0) in I; cbn [In] in I;
        repeat (destruct I as [<-|I]; [apply AT|]); contradiction I.
    + destruct (C26_src c ffm m ic n u d P D) as (E & _). rewrite E. apply SL.
  - destruct (is_pair_load c) eqn:P.
    + destruct (pair_dstI c ffm ic m P (PF eq_refl)) as (o & E1 & E2 & _).
      assert (E3 : d_dst_oi d = o) by congruence. rewrite E3, E2. intros e I. unfold pair_dests in I.
      destruct (_ =? 0) in I; cbn [In] in I;
        repeat (destruct I as [<-|I]; [apply AT|]); contradiction I.
    + destruct (C26_dst c ffm m ic n u d P D) as (E & _). rewrite E. apply SL.
Qed.
Lemma C28_cover_lemma c ffm m ic n u : ic < 2 ^ 64 -> typing_ok m -> all_typed m -> agree_cond c ffm m ic = true ->
  (c = X_S_pair -> slice 20 5 ic <> 0) ->
  exists d, decode_info n u (ext c ffm) m ic = Ok d /\
  (forall r, in_mask r (d_sources d) -> exists k, in_mask r (d_srcT d k)) /\
  (forall r, in_mask r (d_dests d) -> exists k, in_mask r (d_dstT d k)).
Proof.
  intros B TO AT AC NZ. destruct (decode_total c ffm m ic n u B TO AC) as (d & D & (_ & L1 & _) & (_ & L2 & _)).
  exists d. split; [exact D|].
  assert (PF : is_pair c = true -> pair_free c ffm = true).
  { intros P. destruct c; try discriminate P; cbn [agree_cond] in AC; cbn [pair_free];
    rewrite ?andb_true_iff in AC; try rewrite andb_true_iff; tauto. }
  assert (LC : list_cond c ffm ic = true).
  { destruct c; try reflexivity; try (unfold list_cond; rewrite (PF eq_refl)); try reflexivity; cbn [agree_cond] in AC; try exact AC.
    - cbn [pair_first andb]. apply negb_true_iff, N.eqb_neq. auto.
    - cbn [pair_first andb]. now apply andb_true_iff in AC as [_ AC]. }
  destruct (elems_typed c ffm m ic n u d AT PF D) as [T1 T2].
  destruct (masks_listed c ffm m ic n u d LC D) as [M1 M2]. split; intros r H.
  - apply M1 in H as (e & I & <-). specialize (T1 e I). destruct (e_type e) as [k|] eqn:E; [|congruence].
    exists k. now apply L1.
  - apply M2 in H as (e & I & <-). specialize (T2 e I). destruct (e_type e) as [k|] eqn:E; [|congruence].
    exists k. now apply L2.
Qed.
