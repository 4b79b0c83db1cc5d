(** Pseudo-instructions. *)
From Coq Require Import NArith ZArith Arith List Bool String Lia.
From Verif Require Import M_Base M_Field M_Forms M_Meta M_OperandInfo M_Extract M_Decoded M_Registry M_Trie M_Builder M_DTable M_Direct M_Pseudo.
From Verif Require Import S_Bits S_Maps S_Operands S_Regs S_Direct S_Pseudo L_Bits L_Count L_Registry L_Uids L_History L_Meta L_OperandInfo L_Direct.
Import ListNotations.
Local Open Scope N_scope.

(** ** Renaming *)
Lemma fixup_elems_renamed es : forall fl, renamed fl es (fixup_elems es fl).
Proof.
  induction es as [|e es IH]; intros fl.
  - split; [reflexivity|]. intros [|i] e; discriminate.
  - destruct fl as [|[f t] fl]; cbn [fixup_elems].
    + split; [reflexivity|]. intros i e' H. exists e'. split; [exact H|]. destruct i; cbn; destruct (e_fid e'); reflexivity.
    + destruct (IH fl) as [L Q]. split; [cbn; now rewrite L|]. intros [|i] e' H; cbn [nth_error] in *; [|exact (Q i e' H)].
      assert (e = e') as -> by congruence. eexists. split; [reflexivity|]. destruct (e_fid e'); reflexivity.
Qed.
Lemma renamed_unique fl es es1 es2 : renamed fl es es1 -> renamed fl es es2 -> es1 = es2.
Proof.
  revert fl es1 es2. induction es as [|e es IH]; intros fl [|x es1] [|y es2] [L1 Q1] [L2 Q2]; try discriminate; [reflexivity|]. f_equal.
  - destruct (Q1 O e eq_refl) as (e1 & E1 & R1), (Q2 O e eq_refl) as (e2 & E2 & R2). cbn in E1, E2.
    assert (x = e1) as -> by congruence. assert (y = e2) as -> by congruence.
    destruct (e_fid e); [congruence|]. destruct (nth_error fl 0) as [[f t]|]; congruence.
  - apply (IH (tl fl)).
    + split; [cbn in L1; congruence|]. intros i e' H. destruct (Q1 (S i) e' H) as (e1 & E1 & R1). exists e1. split; [exact E1|].
      destruct fl; cbn [tl nth_error] in *; [|exact R1]. destruct i; exact R1.
    + split; [cbn in L2; congruence|]. intros i e' H. destruct (Q2 (S i) e' H) as (e1 & E1 & R1). exists e1. split; [exact E1|].
      destruct fl; cbn [tl nth_error] in *; [|exact R1]. destruct i; exact R1.
Qed.
Lemma fixup_vals es : forall fl, map e_val (fixup_elems es fl) = map e_val es.
Proof.
  induction es as [|e es IH]; intros [|[f t] fl]; cbn [fixup_elems map]; try reflexivity. rewrite IH. f_equal. destruct (e_fid e); reflexivity.
Qed.
Lemma fixup_flags es : forall fl, map e_sdata (fixup_elems es fl) = map e_sdata es.
Proof.
  induction es as [|e es IH]; intros [|[f t] fl]; cbn [fixup_elems map]; try reflexivity. rewrite IH. f_equal. destruct (e_fid e); reflexivity.
Qed.
Lemma fixup_ok o fl o' : fixup o fl = Ok o' -> oi_elems o' = fixup_elems (oi_elems o) fl.
Proof. unfold fixup. intros H. apply add_elems_wf in H as [_ H]; [exact H|apply oi_wf_empty]. Qed.
Lemma fixup_spec o fl : (exists o', fixup o fl = Ok o' /\ oi_elems o' = fixup_elems (oi_elems o) fl /\ consistent (fixup_elems (oi_elems o) fl)) \/
  (fixup o fl = AssertFail /\ ~ consistent (fixup_elems (oi_elems o) fl)).
Proof.
  destruct (add_elems_outcome (fixup_elems (oi_elems o) fl) oi_empty oi_wf_empty) as [(o' & E & C)|[E C]]; [left|right; auto].
  exists o'. split; [exact E|]. split; [now apply fixup_ok|exact C].
Qed.

(** ** Masks by kind *)
Lemma kind_mask_spec k es : (forall r, In r (of_kind k es) -> r < 64) -> exists v, kind_mask k es = Ok v /\ exactly v (of_kind k es).
Proof.
  induction es as [|e es IH]; cbn [kind_mask of_kind flat_map]; intros B; [exists 0; split; [reflexivity|apply exactly_nil]|].
  fold (of_kind k es) in *.
  destruct (IH (fun r H => B r (in_or_app _ _ _ (or_intror H)))) as (v & E & X). rewrite E.
  assert (Q : okind_eqb (e_type e) (Some k) = match e_type e with Some k' => kind_eqb k' k | None => false end) by (destruct (e_type e); reflexivity).
  rewrite Q. destruct (e_type e) as [k'|]; [destruct (kind_eqb k' k)|]; cbn [app].
  - replace (64 <=? e_val e) with false by (symmetry; apply N.leb_gt, B; now left). cbn [rbind]. eexists. split; [reflexivity|].
    apply (exactly_app _ _ [e_val e]); [|exact X]. intros r. unfold in_mask. cbn [In].
    rewrite bit1_testbit by (apply B; now left). rewrite N.eqb_eq. intuition auto.
  - cbn [rbind]. eexists. split; [reflexivity|]. exact X.
  - cbn [rbind]. eexists. split; [reflexivity|]. exact X.
Qed.
Lemma kind_mask_inv k es v : kind_mask k es = Ok v -> forall r, In r (of_kind k es) -> r < 64.
Proof.
  revert v. induction es as [|e es IH]; cbn [kind_mask of_kind flat_map]; intros v H r; [intros []|].
  fold (of_kind k es) in *.
  assert (Q : okind_eqb (e_type e) (Some k) = match e_type e with Some k' => kind_eqb k' k | None => false end) by (destruct (e_type e); reflexivity).
  rewrite Q in H. destruct (kind_mask k es) as [w| | |]; cbn [rbind] in H.
  2-4: exfalso; destruct (e_type e) as [k'|]; [destruct (kind_eqb k' k); [destruct (64 <=? e_val e)|]|]; cbn in H; discriminate.
  specialize (IH w eq_refl r). destruct (e_type e) as [k'|]; [destruct (kind_eqb k' k)|]; cbn [app In]; auto.
  intros [<-|I]; [|auto]. destruct (N.leb_spec 64 (e_val e)); [discriminate|assumption].
Qed.
Lemma kind_mask_exactly k es v : kind_mask k es = Ok v -> exactly v (of_kind k es).
Proof. intros H. destruct (kind_mask_spec k es (kind_mask_inv k es v H)) as (w & E & X). replace v with w by congruence. exact X. Qed.
Lemma of_kind_vals k es r : In r (of_kind k es) -> In r (map e_val es).
Proof.
  unfold of_kind. rewrite in_flat_map, in_map_iff. intros (e & I & H). exists e. split; [|exact I].
  destruct (e_type e) as [k'|]; [|destruct H]. destruct (kind_eqb k' k); [|destruct H]. destruct H as [H|[]]. exact H.
Qed.

(** ** The wrapped extractor *)
Lemma direct_wrap_src g d m o' : masks_fit (dx_ops d) -> wrapI (gf_src g) (x_srcI (direct_ext d)) m 0 m false = Ok o' ->
  exists es, handed_in (dx_ops d) (list_sources (dx_ops d)) (given_sources (dx_ops d)) es /\ oi_elems o' = fixup_elems es (gf_src g) /\ exists o, d_srcI (dx_ops d) m = Ok o /\ es = oi_elems o.
Proof.
  intros F. unfold wrapI. cbn [N.eqb direct_ext x_srcI]. intros H. dest_bind H. apply fixup_ok in H.
  exists (oi_elems a). split; [|eauto]. split; [eapply d_srcI_vals; eauto|].
  destruct (dx_ops d) as [s t sp|s t sp|s t|s t|x t sp|x t|x t r]; cbn [list_sources]; auto; cbn [d_srcI masks_fit] in *; try congruence;
    try (rewrite !mask_elems_ok in E by apply F; cbn [rbind] in E); rewrite (add_bare _ _ E); try apply Forall_app; try split; apply bare_none.
Qed.
Lemma direct_wrap_dst g d m o' : masks_fit (dx_ops d) -> wrapI (gf_dst g) (x_dstI (direct_ext d)) m 0 m false = Ok o' ->
  exists es, handed_in (dx_ops d) (list_dests (dx_ops d)) (given_dests (dx_ops d)) es /\ oi_elems o' = fixup_elems es (gf_dst g) /\ exists o, d_dstI (dx_ops d) m = Ok o /\ es = oi_elems o.
Proof.
  intros F. unfold wrapI. cbn [N.eqb direct_ext x_dstI]. intros H. dest_bind H. apply fixup_ok in H.
  exists (oi_elems a). split; [|eauto]. split; [eapply d_dstI_vals; eauto|].
  destruct (dx_ops d) as [s t sp|s t sp|s t|s t|x t sp|x t|x t r]; cbn [list_dests]; auto; cbn [d_dstI masks_fit] in *; try congruence;
    try (injection E as <-; constructor);
    rewrite !mask_elems_ok in E by apply F; cbn [rbind] in E; rewrite (add_bare _ _ E); apply bare_none.
Qed.

(** ** The builder *)
Record pinv (annos : list (string * anno)) (P : list prec) (b : pbuilder) : Prop := mkPI {
  pi_annos : pb_annos b = annos;
  pi_nu : 0 < pb_nu b < w32;
  pi_ids : reg_ok (fun _ => False) (pb_nu b) (pb_inst b);
  pi_rec : forall p mn, In p P -> r_pseudo (fst p) = Some mn ->
    exists i m g u, pfind b mn = Some i /\ nth_error (pb_facts b) i = Some (mkPF mn m g (mfind annos mn) u) /\
      make_meta (r_meta (fst p)) false [] = Ok m /\ make_gform (snd p) m = Ok g /\ mfind (ir_map (pb_inst b)) mn = Some u;
  pi_only : forall mn i, pfind b mn = Some i -> exists p, In p P /\ r_pseudo (fst p) = Some mn;
  pi_metas : forall mn, mfind (pb_metas b) mn <> None <-> exists p, In p P /\ r_pseudo (fst p) = Some mn;
  pi_stash : pb_stash b = dk_new INITIAL_SIZE DEFAULT_UP_SIZE }.
Lemma pinv_new uids annos nu b : 0 < nu < w32 -> pbuilder_new uids annos nu = Ok b -> pinv annos [] b.
Proof.
  intros N. unfold pbuilder_new. destruct (ir_new uids nu) as [[nu1 ir]| | |] eqn:E; cbn [rbind]; try discriminate.
  unfold ir_new in E. apply load_ok in E as (L1 & L2 & R & _); [|auto| |discriminate].
  2:{ split; cbn [ir_map ir_arr]; try discriminate; [apply da_new_ok; vm_compute; intuition discriminate|..]; intros u m Q; unfold da_slot, da_new in Q; destruct u; discriminate. }
  intros [= <-]. constructor; cbn [pb_annos pb_nu pb_inst pb_facts pb_stash pb_metas]; auto.
  - lia.
  - intros p mn [].
  - intros mn i. discriminate.
  - intros mn. cbn. split; [congruence|]. intros (p & [] & _).
Qed.
Lemma pinv_step annos P b p b' : pinv annos P b -> ppseudo b p = Ok b' -> pinv annos (P ++ [p]) b'.
Proof.
  intros [I1 I2 I3 I4 I5 I6 I7]. unfold ppseudo. destruct (r_pseudo (fst p)) as [mn|] eqn:EP.
  2:{ intros [= <-]. constructor; auto.
    - intros q mn H Q. apply in_app_iff in H as [H|[<-|[]]]; [eauto|congruence].
    - intros mn i H. destruct (I5 _ _ H) as (q & H1 & H2). exists q. rewrite in_app_iff. auto.
    - intros mn. rewrite I6. split; intros (q & H1 & H2); exists q; rewrite in_app_iff in *; [auto|].
      destruct H1 as [H1|[<-|[]]]; [auto|congruence]. }
  destruct (make_meta (r_meta (fst p)) false []) as [m| | |] eqn:EM; cbn [rbind]; try discriminate.
  destruct (mfind (pb_metas b) mn) as [m0|] eqn:EF; [discriminate|].
  set (b1 := mkPB _ _ _ _ _ _ _). destruct (make_gform (snd p) m) as [g| | |] eqn:EG; cbn [rbind]; try discriminate.
  assert (NP : pfind b mn = None).
  { destruct (pfind b mn) as [i|] eqn:Q; [|reflexivity]. destruct (I5 _ _ Q) as (q & H). exfalso. apply (proj2 (I6 mn)); [eauto|exact EF]. }
  unfold pbuild. change (pfind b1 mn) with (pfind b mn). rewrite NP. cbn [b1 pb_inst pb_nu pb_facts pb_reg pb_annos pb_metas pb_stash].
  destruct (ir_register (pb_inst b) mn (pb_nu b)) as [[[nu' ir] uid]| | |] eqn:ER; cbn [rbind]; try discriminate.
  apply (register_ok (fun _ => False)) in ER as (R1 & R2 & R3 & R4 & R5 & R6); [|lia|lia|exact I3].
  intros [= <-]. cbn [fst snd]. constructor; cbn [pb_annos pb_nu pb_inst pb_facts pb_stash pb_metas]; auto.
  - lia.
  - intros q mn' H Q. unfold pfind. cbn [pb_reg]. rewrite mfind_madd. apply in_app_iff in H as [H|[<-|[]]].
    + destruct (I4 q mn' H Q) as (i & m' & g' & u & J1 & J2 & J3 & J4 & J5).
      destruct (String.eqb_spec mn mn') as [<-|NE]; [congruence|]. exists i, m', g', u. split; [exact J1|]. split; [|auto].
      rewrite nth_error_app1; [exact J2|]. apply nth_error_Some. congruence.
    + assert (mn' = mn) as -> by congruence. rewrite String.eqb_refl. exists (List.length (pb_facts b)), m, g, uid.
      split; [reflexivity|]. split; [|auto]. rewrite nth_error_app2 by lia. rewrite Nat.sub_diag. cbn. now rewrite I1.
  - intros mn' i. unfold pfind. cbn [pb_reg]. rewrite mfind_madd. destruct (String.eqb_spec mn mn') as [<-|NE].
    + intros _. exists p. rewrite in_app_iff. cbn. auto.
    + intros H. destruct (I5 _ _ H) as (q & H1 & H2). exists q. rewrite in_app_iff. auto.
  - intros mn'. rewrite mfind_madd. destruct (String.eqb_spec mn mn') as [<-|NE].
    + split; [|discriminate]. intros _. exists p. rewrite in_app_iff. cbn. auto.
    + rewrite I6. split; intros (q & H1 & H2); exists q; rewrite in_app_iff in *; [auto|].
      destruct H1 as [H1|[<-|[]]]; [auto|congruence].
Qed.
Lemma pinv_configure annos recs : forall P b b', pinv annos P b -> pconfigure recs b = Ok b' -> pinv annos (P ++ recs) b'.
Proof.
  induction recs as [|p recs IH]; intros P b b' I; cbn [pconfigure].
  - intros [= <-]. now rewrite app_nil_r.
  - destruct (ppseudo b p) as [b1| | |] eqn:E; cbn [rbind]; try discriminate. intros H.
    replace (P ++ p :: recs)%list with ((P ++ [p]) ++ recs)%list by (rewrite <- app_assoc; reflexivity).
    eapply IH; [|exact H]. eapply pinv_step; eauto.
Qed.
Lemma pinv_made uids annos nu recs b : 0 < nu < w32 -> make_pseudos uids annos nu recs = Ok b -> pinv annos recs b.
Proof.
  intros N. unfold make_pseudos. destruct (pbuilder_new uids annos nu) as [b0| | |] eqn:E; cbn [rbind]; try discriminate.
  intros H. exact (pinv_configure annos recs [] b0 b (pinv_new _ _ _ _ N E) H).
Qed.

(** ** Calls *)
Definition bo (b : pbuilder) : builder := mkB [] (pb_reg b) (pb_inst b) (pb_nu b) [] [] (pb_stash b).
Lemma pfind_uid_bo b u b' o : find_ifact_uid (bo b) u = Ok (b', o) -> pfind_uid b u = Ok (pset_stash b (b_stash b'), o).
Proof.
  unfold find_ifact_uid, pfind_uid. cbn [bo b_stash b_inst]. change (find_ifact (bo b)) with (pfind b).
  destruct (dk_contains_n (pb_stash b) u).
  - destruct (dk_lookup_n (pb_stash b) u); cbn [rbind]; try discriminate. intros [= <- <-]. destruct b; reflexivity.
  - destruct (ir_mnemonic (pb_inst b) u); cbn [rbind]; try discriminate. destruct (pfind b a).
    + destruct (dk_add (pb_stash b) a u n); cbn [rbind]; try discriminate. intros [= <- <-]. reflexivity.
    + intros [= <- <-]. destruct b; reflexivity.
Qed.
Lemma pset_same b : pset_stash b (pb_stash b) = b.
Proof. destruct b; reflexivity. Qed.
(** What a call does in a state [b] that differs from the configured builder by its stash. *)
Definition pname (b : pbuilder) (d : direct) : res string :=
  if dx_uid d =? INVALID_UID then Ok (dx_mn d) else ir_mnemonic (pb_inst b) (dx_uid d).
Lemma make_pseudo_step b d : stash_ok (bo b) -> named_once (pb_inst b) -> uid_fits d ->
  exists st, stash_ok (bo (pset_stash b st)) /\
    make_pseudo b d = (pset_stash b st,
      let* mn := pname b d in
      match pfind b mn with None => Throw EUnknownPseudoMnemonic | Some i => let* f := pget b i in pinfo f mn d end).
Proof.
  intros SO NO UF. unfold make_pseudo, pname. destruct (dx_uid d =? INVALID_UID).
  - exists (pb_stash b). rewrite pset_same. split; [exact SO|]. cbn [rbind]. destruct (pfind b (dx_mn d)); reflexivity.
  - destruct (ir_mnemonic (pb_inst b) (dx_uid d)) as [mn|e| |] eqn:E; cbn [rbind];
      try (exists (pb_stash b); rewrite pset_same; split; [exact SO|reflexivity]).
    destruct (find_uid_ok (bo b) (dx_uid d) mn SO NO UF E) as (st & SO' & F).
    apply pfind_uid_bo in F. rewrite F. exists st. split; [exact SO'|]. cbn [set_stash b_stash].
    change (find_ifact (bo b) mn) with (pfind b mn). destruct (pfind b mn); reflexivity.
Qed.
Lemma pseudo_run_state h : forall b, stash_ok (bo b) -> named_once (pb_inst b) -> Forall uid_fits h ->
  exists st, stash_ok (bo (pset_stash b st)) /\ pseudo_run b h = pset_stash b st.
Proof.
  induction h as [|d h IH]; intros b SO NO F.
  - exists (pb_stash b). rewrite pset_same. auto.
  - inversion F as [|? ? F1 F2]. subst. destruct (make_pseudo_step b d SO NO F1) as (st & SO' & E).
    destruct (IH (pset_stash b st) SO' NO F2) as (st' & SO'' & E'). exists st'. split; [exact SO''|].
    unfold pseudo_run in *. cbn [fold_left]. rewrite E. exact E'.
Qed.
Section Claims.
Context (uids : list (string * N)) (annos : list (string * anno)) (nu : N) (recs : list prec) (b : pbuilder).
Context (NU : 0 < nu < w32) (HB : make_pseudos uids annos nu recs = Ok b).
Lemma pseudo_answer h d : Forall uid_fits h -> uid_fits d ->
  snd (make_pseudo (pseudo_run b h) d) =
  let* mn := pname b d in
  match pfind b mn with None => Throw EUnknownPseudoMnemonic | Some i => let* f := pget b i in pinfo f mn d end.
Proof.
  intros F U. pose proof (pinv_made _ _ _ _ _ NU HB) as [I1 I2 I3 I4 I5 I6 I7].
  assert (NO : named_once (pb_inst b)) by exact (reg_named_once _ _ _ I3).
  assert (SO : stash_ok (bo b)) by (apply stash_ok_empty; exact I7).
  destruct (pseudo_run_state h b SO NO F) as (st & SO' & ->).
  destruct (make_pseudo_step (pset_stash b st) d SO' NO U) as (st' & _ & ->). reflexivity.
Qed.
Lemma asks_name mn d p : In p recs -> r_pseudo (fst p) = Some mn -> asks b mn d -> pname b d = Ok mn.
Proof.
  intros H1 H2 A. pose proof (pinv_made _ _ _ _ _ NU HB) as [I1 I2 I3 I4 I5 I6 I7].
  destruct (I4 p mn H1 H2) as (i & m & g & u & _ & _ & _ & _ & R). unfold pname. destruct A as [[-> ->]|A]; [reflexivity|].
  unfold pseudo_uid, ir_uid in A. rewrite R in A. pose proof (ro_bound _ _ _ I3 _ _ R) as B.
  rewrite A. replace (u =? INVALID_UID) with false by (symmetry; apply N.eqb_neq; unfold INVALID_UID; lia).
  assert (da_slot (ir_arr (pb_inst b)) u = Some mn) as SL by (apply (ro_own _ _ _ I3); auto).
  unfold ir_mnemonic, da_lookup. destruct (ro_arr _ _ _ I3) as [_ DB]. rewrite SL. apply DB in SL. apply N.ltb_lt in SL. now rewrite SL.
Qed.
Lemma pseudo_known h p mn d : Forall uid_fits h -> uid_fits d -> In p recs -> r_pseudo (fst p) = Some mn -> asks b mn d ->
  exists m g, make_meta (r_meta (fst p)) false [] = Ok m /\ make_gform (snd p) m = Ok g /\
    snd (make_pseudo (pseudo_run b h) d) = pinfo (mkPF mn m g (mfind annos mn) (pseudo_uid b mn)) mn d.
Proof.
  intros F U H1 H2 A. rewrite pseudo_answer, (asks_name mn d p) by assumption. cbn [rbind].
  pose proof (pinv_made _ _ _ _ _ NU HB) as [I1 I2 I3 I4 I5 I6 I7].
  destruct (I4 p mn H1 H2) as (i & m & g & u & J1 & J2 & J3 & J4 & J5). exists m, g. split; [exact J3|]. split; [exact J4|].
  rewrite J1. unfold pget. rewrite J2. cbn [rbind]. unfold pseudo_uid, ir_uid. now rewrite J5.
Qed.
Lemma pseudo_unknown h mn d : Forall uid_fits h -> dx_uid d = INVALID_UID -> dx_mn d = mn ->
  (forall p, In p recs -> r_pseudo (fst p) <> Some mn) -> snd (make_pseudo (pseudo_run b h) d) = Throw EUnknownPseudoMnemonic.
Proof.
  intros F U M H. rewrite pseudo_answer by (assumption || (unfold uid_fits; rewrite U; reflexivity)).
  unfold pname. rewrite U, N.eqb_refl. cbn [rbind]. rewrite M.
  destruct (pfind b mn) as [i|] eqn:Q; [|reflexivity]. apply (pi_only _ _ _ (pinv_made _ _ _ _ _ NU HB)) in Q as (p & H1 & H2). exfalso. exact (H p H1 H2).
Qed.
End Claims.
Lemma form_fields_is m names : forall fl, form_fields m names = Ok fl -> form_is m names fl.
Proof.
  induction names as [|n names IH]; intros fl; cbn [form_fields]; [intros [= <-]; constructor|].
  destruct (get_fid n) as [f|] eqn:E; [|discriminate]. destruct (form_fields m names) as [l| | |]; cbn [rbind]; try discriminate.
  intros [= <-]. constructor; [auto|]. now apply IH.
Qed.

(** ** The answer *)
Lemma six_inv f g : six f = Ok g -> forall k, f k = Ok (g k).
Proof.
  unfold six. intros H. do 6 dest_bind H. injection H as <-. intros []; assumption.
Qed.
Lemma pinfo_made mn m g a uid d v : masks_fit (dx_ops d) -> pinfo (mkPF mn m g a uid) mn d = Ok v ->
  pseudo_made (gf_src g) (gf_dst g) mn uid m a d v.
Proof.
  intros F. unfold pinfo. cbn [pf_form pf_meta pf_uid pf_anno]. intros H. dest_bind H. rename a0 into di. injection H as <-.
  unfold decode_info, wrap_ext in E. cbn [x_srcI x_dstI x_src x_dst x_srcT x_dstT x_addr x_data x_hint x_imm x_soff x_immT direct_ext N.eqb] in E.
  do 8 dest_bind E. cbn [rbind] in E. injection E as <-. rename a0 into soi, a1 into doi.
  pose proof E0 as E0'. pose proof E1 as E1'.
  apply (direct_wrap_src g d m soi F) in E0' as (es & HI & Q & os & Q1 & Q2).
  apply (direct_wrap_dst g d m doi F) in E1' as (ed & HI' & Q' & od & Q1' & Q2').
  constructor; cbn [i_di i_meta i_anno d_mnemonic d_uid d_src_oi d_dst_oi M_Decoded.d_srcT M_Decoded.d_dstT].
  - auto.
  - constructor; cbn [d_src_oi d_dst_oi d_sources d_dests d_addr d_data d_immT d_imm d_soff].
    + rewrite Q, fixup_vals. apply HI.
    + rewrite Q', fixup_vals. apply HI'.
    + eapply d_src_exactly; eauto.
    + eapply d_dst_exactly; eauto.
    + eapply d_addr_exactly; eauto.
    + eapply d_data_exactly; eauto.
    + intros S. rewrite Q, fixup_flags. subst es. eapply d_srcI_flags; eauto.
    + auto.
    + apply to_i64_twos.
  - exists es. split; [exact HI|]. rewrite Q. apply fixup_elems_renamed.
  - exists ed. split; [exact HI'|]. rewrite Q'. apply fixup_elems_renamed.
  - intros k. split; apply kind_mask_exactly.
    + pose proof (six_inv _ _ E4 k) as X. unfold wrapT in X. change (wrapI (gf_src g) (fun _ m _ => d_srcI (dx_ops d) m) m 0 m false = Ok soi) in E0. rewrite E0 in X. exact X.
    + pose proof (six_inv _ _ E5 k) as X. unfold wrapT in X. change (wrapI (gf_dst g) (fun _ m _ => d_dstI (dx_ops d) m) m 0 m false = Ok doi) in E1. rewrite E1 in X. exact X.
Qed.
Lemma pseudo_lemma uids annos nu recs b : 0 < nu < w32 -> make_pseudos uids annos nu recs = Ok b ->
  forall h p mn d, Forall uid_fits h -> uid_fits d -> masks_fit (dx_ops d) -> In p recs -> r_pseudo (fst p) = Some mn -> asks b mn d ->
  exists m fs fd, make_meta (r_meta (fst p)) false [] = Ok m /\ form_is m (pc_sources (snd p)) fs /\ form_is m (pc_dests (snd p)) fd /\
    forall v, snd (make_pseudo (pseudo_run b h) d) = Ok v -> pseudo_made fs fd mn (pseudo_uid b mn) m (mfind annos mn) d v.
Proof.
  intros NU HB h p mn d F U MF H1 H2 A. destruct (pseudo_known uids annos nu recs b NU HB h p mn d F U H1 H2 A) as (m & g & M & G & ->).
  unfold make_gform in G. do 3 dest_bind G. injection G as <-. exists m, a, a0. split; [exact M|].
  split; [now apply form_fields_is|]. split; [now apply form_fields_is|]. intros v H. exact (pinfo_made _ _ _ _ _ _ _ MF H).
Qed.
Lemma renamed_consistent fl es : (forall es', renamed fl es es' -> consistent es') <-> consistent (fixup_elems es fl).
Proof.
  split; [intros H; apply H, fixup_elems_renamed|]. intros C es' R. rewrite (renamed_unique fl es es' (fixup_elems es fl)); auto using fixup_elems_renamed.
Qed.
(** Lists of operands: when the call succeeds. *)
Lemma kind_six k0 (es : list elem) : (forall r, In r (map e_val es) -> r < 64) -> exists v, kind_mask k0 es = Ok v.
Proof. intros B. destruct (kind_mask_spec k0 es) as (v & E & _); [intros r H; apply B; eapply of_kind_vals; eauto|eauto]. Qed.
Lemma over_false l : over l = false -> forall r, In r l -> r < 64.
Proof.
  intros O r H. destruct (N.ltb_spec 31 r) as [L|L]; [|lia]. exfalso. assert (over l = true) by (apply over_true; eauto). congruence.
Qed.
Lemma pinfo_outcome mn m g a uid d s t : listed_ops d s t ->
  let r := pinfo (mkPF mn m g a uid) mn d in
  let ok := consistent (fixup_elems (oi_elems s) (gf_src g)) /\ consistent (fixup_elems (oi_elems t) (gf_dst g)) in
  let regs := (map e_val (oi_elems s) ++ map e_val (oi_elems t))%list in
  (~ ok /\ r = AssertFail) \/ (ok /\ over regs = true /\ r = Throw EInvalidRegisterNumber) \/ (ok /\ over regs = false /\ exists v, r = Ok v).
Proof.
  intros L r ok regs. unfold r, pinfo. cbn [pf_form pf_meta pf_uid pf_anno].
  assert (R : over regs = over (map e_val (oi_elems s)) || over (map e_val (oi_elems t))) by apply existsb_app. rewrite R. clear R.
  assert (D1 : d_srcI (dx_ops d) m = Ok s) by (destruct L as [-> |(sp & ->)]; reflexivity).
  assert (D2 : d_dstI (dx_ops d) m = Ok t) by (destruct L as [-> |(sp & ->)]; reflexivity).
  assert (D3 : d_src_regs (dx_ops d) = regs_mask (map e_val (oi_elems s))) by (destruct L as [-> |(sp & ->)]; reflexivity).
  assert (D4 : d_dst_regs (dx_ops d) = regs_mask (map e_val (oi_elems t))) by (destruct L as [-> |(sp & ->)]; reflexivity).
  assert (D5 : d_addr_regs (dx_ops d) = Ok 0) by (destruct L as [-> |(sp & ->)]; reflexivity).
  assert (D6 : d_data_regs (dx_ops d) = Ok 0) by (destruct L as [-> |(sp & ->)]; reflexivity).
  unfold decode_info, wrap_ext. cbn [x_srcI x_dstI x_src x_dst x_srcT x_dstT x_addr x_data x_hint x_imm x_soff x_immT direct_ext N.eqb].
  rewrite D3, D4, D5, D6, !regs_mask_spec. fold (over (map e_val (oi_elems s))) (over (map e_val (oi_elems t))).
  unfold wrapT, wrapI. cbn [N.eqb]. rewrite D1, D2. cbn [rbind]. unfold ok.
  destruct (fixup_spec s (gf_src g)) as [(s' & -> & S1 & S2)|[-> S2]]; cbn [rbind]; [|left; tauto].
  destruct (fixup_spec t (gf_dst g)) as [(t' & -> & T1 & T2)|[-> T2]]; cbn [rbind]; [|left; tauto]. right.
  destruct (over (map e_val (oi_elems s))) eqn:O1; cbn [rbind orb]; [left; auto|].
  destruct (over (map e_val (oi_elems t))) eqn:O2; cbn [rbind]; [left; auto|]. right. split; [auto|]. split; [reflexivity|].
  assert (B1 : forall r, In r (map e_val (oi_elems s')) -> r < 64) by (rewrite S1, fixup_vals; now apply over_false).
  assert (B2 : forall r, In r (map e_val (oi_elems t')) -> r < 64) by (rewrite T1, fixup_vals; now apply over_false).
  destruct (six_ok (fun k => kind_mask k (oi_elems s')) (fun k => kind_six k _ B1)) as (g1 & -> & _). cbn [rbind].
  destruct (six_ok (fun k => kind_mask k (oi_elems t')) (fun k => kind_six k _ B2)) as (g2 & -> & _). cbn [rbind]. eauto.
Qed.
Lemma outcome_lemma uids annos nu recs b : 0 < nu < w32 -> make_pseudos uids annos nu recs = Ok b ->
  forall h p mn d s t, Forall uid_fits h -> uid_fits d -> In p recs -> r_pseudo (fst p) = Some mn -> asks b mn d -> listed_ops d s t ->
  exists m fs fd, make_meta (r_meta (fst p)) false [] = Ok m /\ form_is m (pc_sources (snd p)) fs /\ form_is m (pc_dests (snd p)) fd /\
    let ans := snd (make_pseudo (pseudo_run b h) d) in
    let ok := (forall es, renamed fs (oi_elems s) es -> consistent es) /\ (forall es, renamed fd (oi_elems t) es -> consistent es) in
    let regs := (map e_val (oi_elems s) ++ map e_val (oi_elems t))%list in
    (~ ok -> ans = AssertFail) /\
    (ok -> (exists q, In q regs /\ 31 < q) -> ans = Throw EInvalidRegisterNumber) /\
    (ok -> (forall q, In q regs -> q <= 31) -> exists v, ans = Ok v).
Proof.
  intros NU HB h p mn d s t F U H1 H2 A L. destruct (pseudo_known uids annos nu recs b NU HB h p mn d F U H1 H2 A) as (m & g & M & G & EQ).
  exists m, (gf_src g), (gf_dst g). split; [exact M|].
  assert (FS : form_is m (pc_sources (snd p)) (gf_src g) /\ form_is m (pc_dests (snd p)) (gf_dst g)).
  { unfold make_gform in G. do 3 dest_bind G. injection G as <-. split; now apply form_fields_is. }
  split; [apply FS|]. split; [apply FS|]. cbn zeta. rewrite EQ. rewrite !renamed_consistent.
  destruct (pinfo_outcome mn m g (mfind annos mn) (pseudo_uid b mn) d s t L) as [[O ->]|[(O & V & ->)|(O & V & v & ->)]].
  - split; [auto|]. split; intros X; contradiction.
  - split; [intros X; contradiction|]. split; [auto|]. intros _ B. exfalso. apply over_true in V as (q & I & X). apply B in I. lia.
  - split; [intros X; contradiction|]. split; [|eauto]. intros _ B. apply over_true in B. congruence.
Qed.

(** ** Special fields *)
Lemma sfid_eqb s s' : (sfid_idx s' =? sfid_idx s) = true <-> s' = s.
Proof. rewrite N.eqb_eq. split; [|congruence]. destruct s, s'; cbn; intros; congruence. Qed.
Lemma special_named_iff n s : mfind special_names n = Some s <-> special_named n s.
Proof.
  split.
  - intros H. cbn [mfind special_names] in H.
    repeat match type of H with (if ?b then _ else _) = _ => destruct b eqn:?E;
      [assert (X := H); injection X as <-; symmetry; apply String.eqb_eq; assumption|] end. discriminate.
  - destruct s; cbn; intros H; [subst n; reflexivity..|destruct H].
Qed.
Lemma form_specials_spec names : forall pos t t', form_specials pos names t = Ok t' -> forall s,
  (forall i, at_position names s i -> t' s = Some (pos + N.of_nat i)) /\
  ((forall n, In n names -> ~ special_named n s) -> t' s = t s).
Proof.
  induction names as [|n names IH]; intros pos t t'; cbn [form_specials].
  - intros [= <-] s. split; [|reflexivity]. intros i ((n & H & _) & _). destruct i; discriminate.
  - destruct (mfind special_names n) as [s0|] eqn:E; [|discriminate]. intros H s. specialize (IH _ _ _ H s). destruct IH as [IH1 IH2]. split.
    + intros i ((n' & P1 & P2) & P3).
      destruct i as [|i].
      * cbn in P1. assert (n' = n) as -> by congruence. apply special_named_iff in P2. assert (s0 = s) as -> by congruence.
        rewrite IH2; [|intros n' I X; apply In_nth_error in I as (j & I); specialize (P3 (S j) n' I X); lia].
        rewrite (proj2 (sfid_eqb s s) eq_refl). f_equal. lia.
      * rewrite (IH1 i); [f_equal; lia|]. split; [eauto|]. intros j n2 Q1 Q2. specialize (P3 (S j) n2 Q1 Q2). lia.
    + intros Q. rewrite IH2; [|intros n' I; apply Q; now right].
      destruct (sfid_idx s =? sfid_idx s0) eqn:X; [|reflexivity]. apply sfid_eqb in X. subst. exfalso. apply (Q n (or_introl eq_refl)). now apply special_named_iff.
Qed.
Lemma specials_lemma uids annos nu recs b : 0 < nu < w32 -> make_pseudos uids annos nu recs = Ok b ->
  forall h p mn d v, Forall uid_fits h -> uid_fits d -> In p recs -> r_pseudo (fst p) = Some mn -> asks b mn d ->
  snd (make_pseudo (pseudo_run b h) d) = Ok v -> forall s ic, s <> SF__N ->
  (forall i, at_position (pc_specials (snd p)) s i ->
     x_spec (i_x v) s ic = match given_specials (dx_ops d) with
                           | None => AssertFail
                           | Some l => match nth_error l i with Some w => Ok w | None => Throw EStdOutOfRange end
                           end) /\
  ((forall n, In n (pc_specials (snd p)) -> ~ special_named n s) -> x_spec (i_x v) s ic = Throw EUnsupportedSpecialField).
Proof.
  intros NU HB h p mn d v F U H1 H2 A H s ic NS. destruct (pseudo_known uids annos nu recs b NU HB h p mn d F U H1 H2 A) as (m & g & M & G & EQ).
  rewrite EQ in H. unfold pinfo in H. dest_bind H. injection H as <-. cbn [i_x pf_form pf_meta]. unfold wrap_ext. cbn [x_spec].
  assert (FS : form_specials 0 (pc_specials (snd p)) (fun _ => None) = Ok (gf_spec g)).
  { unfold make_gform in G. do 3 dest_bind G. injection G as <-. reflexivity. }
  destruct (form_specials_spec _ _ _ _ FS s) as [P1 P2].
  assert (W : forall (T : Type) (x y : T), match s with SF__N => x | _ => y end = y) by (intros; destruct s; congruence || reflexivity).
  rewrite W. split.
  - intros i Q. rewrite (P1 i Q). unfold direct_spec_at, given_specials. rewrite N.add_0_l, Nnat.Nat2N.id. destruct (dx_ops d); reflexivity.
  - intros Q. rewrite (P2 Q). reflexivity.
Qed.
