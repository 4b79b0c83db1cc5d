(** Lemmas: disassemblers of pseudo-instructions (C59). *)
From Coq Require Import NArith List Bool String Lia PeanoNat.
From Verif Require Import M_Base M_Meta M_OperandInfo M_Extract M_Decoded M_Registry M_Builder M_DTable M_Direct M_Pseudo M_PseudoDasm.
From Verif Require Import L_Registry L_Uids L_History S_Operands S_Direct S_Pseudo L_Pseudo S_PseudoDasm.
From Verif Require S_Dasm L_DasmDirect.
Import ListNotations.
Local Open Scope N_scope.

(** ** The registry of the pseudo-builder *)
Lemma pconf_ids annos recs : forall P b b', pinv annos P b -> pconfigure recs b = Ok b' ->
  (forall m u, mfind (ir_map (pb_inst b)) m = Some u -> mfind (ir_map (pb_inst b')) m = Some u) /\
  (forall m u, mfind (ir_map (pb_inst b')) m = Some u -> mfind (ir_map (pb_inst b)) m = Some u \/ exists p, In p recs /\ r_pseudo (fst p) = Some m).
Proof.
  induction recs as [|p recs IH]; intros P b b' I; cbn [pconfigure].
  - intros [= <-]. auto.
  - destruct (ppseudo b p) as [b1| | |] eqn:E; cbn [rbind]; try discriminate. intros H.
    pose proof (pinv_step _ _ _ _ _ I E) as I'. destruct (IH _ _ _ I' H) as (K1 & K2).
    assert (S : (forall m u, mfind (ir_map (pb_inst b)) m = Some u -> mfind (ir_map (pb_inst b1)) m = Some u) /\
                (forall m u, mfind (ir_map (pb_inst b1)) m = Some u -> mfind (ir_map (pb_inst b)) m = Some u \/ r_pseudo (fst p) = Some m)).
    { clear IH H K1 K2 I'. revert E. unfold ppseudo. destruct (r_pseudo (fst p)) as [mn|]; [|intros [= <-]; auto].
      destruct (make_meta _ _ _) as [m| | |]; cbn [rbind]; try discriminate. destruct (mfind (pb_metas b) mn); [discriminate|].
      destruct (make_gform _ _) as [g| | |]; cbn [rbind]; try discriminate. unfold pbuild.
      destruct (pfind _ mn); [intros [= <-]; cbn; auto|]. cbn [pb_inst pb_nu].
      destruct (ir_register (pb_inst b) mn (pb_nu b)) as [[[nu' ir] uid]| | |] eqn:ER; cbn [rbind]; try discriminate.
      pose proof (pi_nu _ _ _ I) as NU.
      apply (register_ok (fun _ => False)) in ER as (R1 & R2 & R3 & R4 & R5 & R6); [|lia|lia|exact (pi_ids _ _ _ I)].
      intros [= <-]. cbn [pb_inst fst snd]. split; [exact R5|]. intros m' u Q. destruct (R6 _ _ Q) as [Q'|(-> & _)]; auto. }
    destruct S as (S1 & S2). split; [auto|]. intros m u Q. destruct (K2 _ _ Q) as [Q'|(q & Q1 & Q2)].
    + destruct (S2 _ _ Q') as [Q''|Q'']; [auto|]. right. exists p. cbn. auto.
    + right. exists q. cbn. auto.
Qed.
Lemma made_ids uids annos nu recs b : 0 < nu < w32 -> make_pseudos uids annos nu recs = Ok b ->
  (forall m u, In (m, u) uids -> mfind (ir_map (pb_inst b)) m = Some u) /\
  (forall m u, mfind (ir_map (pb_inst b)) m = Some u -> In (m, u) uids \/ exists p, In p recs /\ r_pseudo (fst p) = Some m).
Proof.
  intros N. unfold make_pseudos. destruct (pbuilder_new uids annos nu) as [b0| | |] eqn:E; cbn [rbind]; try discriminate. intros H.
  pose proof (pinv_new _ _ _ _ N E) as I. destruct (pconf_ids _ _ _ _ _ I H) as (K1 & K2). clear I H. revert E.
  unfold pbuilder_new. destruct (ir_new uids nu) as [[nu1 ir]| | |] eqn:E; cbn [rbind]; try discriminate.
  intros [= <-]. cbn [pb_inst] in *. unfold ir_new in E. apply load_ok in E as (L1 & L2 & R & A1 & A2 & A3); [|auto| |discriminate].
  2:{ split; cbn [ir_map ir_arr]; try discriminate; [apply da_new_ok; vm_compute; intuition discriminate|..]; intros u m Q; unfold da_slot, da_new in Q; destruct u; discriminate. }
  split; [eauto|]. intros m u Q. destruct (K2 _ _ Q) as [Q'|Q']; [|auto]. destruct (A1 _ _ Q') as [X|X]; [discriminate|auto].
Qed.

(** ** One call *)
Lemma pfind_uid_step b u : stash_ok (bo b) -> named_once (pb_inst b) -> u + DEFAULT_UP_SIZE < w32 ->
  match ir_mnemonic (pb_inst b) u with
  | Ok mn => exists st, stash_ok (bo (pset_stash b st)) /\ pfind_uid b u = Ok (pset_stash b st, pfind b mn)
  | Throw e => pfind_uid b u = Throw e
  | _ => False
  end.
Proof.
  intros SO NO UF. destruct (ir_mnemonic (pb_inst b) u) as [mn|e| |] eqn:E.
  - destruct (find_uid_ok (bo b) u mn SO NO UF E) as (st & SO' & F). apply pfind_uid_bo in F. exists st. split; [exact SO'|exact F].
  - unfold pfind_uid. destruct (dk_contains_n (pb_stash b) u) eqn:C.
    + exfalso. unfold dk_contains_n, da_contains in C. apply andb_true_iff in C as [_ C]. destruct (da_slot (dk_vec (pb_stash b)) u) as [i|] eqn:SL; [|discriminate].
      destruct (so_slot _ SO u i SL) as (mn & X & _). cbn [bo b_inst] in X. congruence.
    + rewrite E. reflexivity.
  - unfold ir_mnemonic, da_lookup in E. destruct (_ <? _); [destruct (da_slot _ _)|]; discriminate.
  - unfold ir_mnemonic, da_lookup in E. destruct (_ <? _); [destruct (da_slot _ _)|]; discriminate.
Qed.

Section Claims.
Context (uids : list (string * N)) (annos : list (string * anno)) (nu : N) (recs : list prec) (b : pbuilder).
Context (NU : 0 < nu < w32) (HB : make_pseudos uids annos nu recs = Ok b).
Let I := pinv_made _ _ _ _ _ NU HB.
Let NO : named_once (pb_inst b) := reg_named_once _ _ _ (pi_ids _ _ _ I).

(** The state differs from the configured builder by its stash only. *)
Definition like (s : pdasm) : Prop := exists st, stash_ok (bo (pset_stash b st)) /\ pd_b s = pset_stash b st.
Lemma like_new : like (pdasm_new b).
Proof. exists (pb_stash b). rewrite pset_same. split; [apply stash_ok_empty; exact (pi_stash _ _ _ I)|reflexivity]. Qed.
Lemma set_like s u f : like s -> u + 100 < 2 ^ 32 -> like (fst (set_dasm s u f)).
Proof.
  intros (st & SO & E) F. destruct f as [f|]; [|exists st; auto]. unfold set_dasm. rewrite E.
  pose proof (pfind_uid_step (pset_stash b st) u SO NO F) as X. cbn [pset_stash pb_inst] in X.
  destruct (ir_mnemonic (pb_inst b) u) as [mn|e| |]; [|rewrite X; exists st; auto|destruct X|destruct X].
  destruct X as (st' & SO' & X). rewrite X. destruct (pfind _ mn); exists st'; split; auto.
Qed.
Lemma make_like s g : like s -> dx_uid (gv_direct g) + 100 < 2 ^ 32 -> like (fst (make_shown s g)).
Proof.
  intros (st & SO & E) F. unfold make_shown. rewrite E.
  destruct (make_pseudo_step (pset_stash b st) (gv_direct g) SO NO F) as (st' & SO' & X). rewrite X. exists st'. split; [exact SO'|reflexivity].
Qed.
Lemma do_like s c : like s -> call_fits c -> like (pdo s c).
Proof. destruct c; intros L F; [now apply set_like|now apply make_like]. Qed.

(** The name and the factory of a pseudo-instruction. *)
Lemma pseudo_named p mn : In p recs -> r_pseudo (fst p) = Some mn ->
  ir_mnemonic (pb_inst b) (pseudo_uid b mn) = Ok mn /\ exists i, pfind b mn = Some i.
Proof.
  intros H1 H2. destruct (pi_rec _ _ _ I p mn H1 H2) as (i & m & g & u & J1 & _ & _ & _ & J5). split; [|eauto].
  unfold pseudo_uid, ir_uid. rewrite J5. pose proof (pi_ids _ _ _ I) as R.
  assert (da_slot (ir_arr (pb_inst b)) u = Some mn) as SL by (apply (ro_own _ _ _ R); auto).
  unfold ir_mnemonic, da_lookup. destruct (ro_arr _ _ _ R) as [_ DB]. rewrite SL. apply DB in SL. apply N.ltb_lt in SL. now rewrite SL.
Qed.
Lemma pfind_inj mn mn' i : pfind b mn = Some i -> pfind b mn' = Some i -> mn = mn'.
Proof.
  intros H H'. destruct (pi_only _ _ _ I _ _ H) as (p & P1 & P2). destruct (pi_only _ _ _ I _ _ H') as (q & Q1 & Q2).
  destruct (pi_rec _ _ _ I p mn P1 P2) as (i1 & m & g & u & J1 & J2 & _). destruct (pi_rec _ _ _ I q mn' Q1 Q2) as (i2 & m' & g' & u' & K1 & K2 & _).
  congruence.
Qed.

(** ** The disassembler of a factory after any calls *)
Definition held (h : list pcall) (s : pdasm) : Prop := forall p mn i, In p recs -> r_pseudo (fst p) = Some mn -> pfind b mn = Some i ->
  (forall f, newest (pseudo_uid b mn) h f -> pd_dasm s i = f) /\ (untouched (pseudo_uid b mn) h -> pd_dasm s i = default_dasm).
Lemma newest_last u h f : newest u (h ++ [Install u (Some f)]) f.
Proof. exists h, []. split; [reflexivity|]. intros g []. Qed.
Lemma newest_unique u h f f' : newest u h f -> newest u h f' -> f = f'.
Proof.
  intros (h1 & h2 & -> & U) (k1 & k2 & E & V). revert k1 E. induction h1 as [|c h1 IH]; intros [|c' k1]; cbn [app]; intros [= E1 E2]; auto.
  - subst k1 || idtac. exfalso. subst. apply (U f'). apply in_or_app. right. now left.
  - exfalso. subst. apply (V f). apply in_or_app. right. now left.
  - eauto.
Qed.
Lemma newest_snoc u h c f : newest u (h ++ [c]) f -> c = Install u (Some f) \/ ((forall g, c <> Install u (Some g)) /\ newest u h f).
Proof.
  intros (h1 & h2 & E & U). destruct h2 as [|c' h2] using rev_ind.
  - apply app_inj_tail in E as (-> & ->). auto.
  - clear IHh2. replace (h1 ++ Install u (Some f) :: h2 ++ [c'])%list with ((h1 ++ Install u (Some f) :: h2) ++ [c'])%list in E by (rewrite <- app_assoc; reflexivity).
    apply app_inj_tail in E as (-> & ->). right. split.
    + intros g ->. apply (U g), in_or_app. right. now left.
    + exists h1, h2. split; [reflexivity|]. intros g H. apply (U g), in_or_app. now left.
Qed.
Lemma set_dasm_at s u f p mn i : like s -> u + 100 < 2 ^ 32 -> In p recs -> r_pseudo (fst p) = Some mn -> pfind b mn = Some i ->
  pd_dasm (fst (set_dasm s u f)) i = match f with Some f => if u =? pseudo_uid b mn then f else pd_dasm s i | None => pd_dasm s i end.
Proof.
  intros (st & SO & E) F H1 H2 P. destruct f as [f|]; [|reflexivity]. unfold set_dasm. rewrite E.
  destruct (pseudo_named p mn H1 H2) as (NM & _).
  pose proof (pfind_uid_step (pset_stash b st) u SO NO F) as X. cbn [pset_stash pb_inst] in X.
  destruct (N.eqb_spec u (pseudo_uid b mn)) as [->|NE].
  - rewrite NM in X. destruct X as (st' & _ & X). rewrite X. change (pfind (pset_stash b st) mn) with (pfind b mn). rewrite P. cbn [fst pd_dasm]. now rewrite Nat.eqb_refl.
  - destruct (ir_mnemonic (pb_inst b) u) as [mn'|e| |] eqn:EM; [|rewrite X; reflexivity|destruct X|destruct X].
    destruct X as (st' & _ & X). rewrite X. change (pfind (pset_stash b st) mn') with (pfind b mn'). destruct (pfind b mn') as [j|] eqn:PJ; [|reflexivity].
    cbn [fst pd_dasm]. destruct (Nat.eqb_spec i j) as [->|]; [|reflexivity]. exfalso. apply NE.
    assert (mn' = mn) as -> by exact (pfind_inj _ _ _ PJ P). exact (NO _ _ _ EM NM).
Qed.
Lemma make_dasm s g : pd_dasm (fst (make_shown s g)) = pd_dasm s.
Proof. unfold make_shown. destruct (make_pseudo _ _). reflexivity. Qed.
Lemma run_held h : Forall call_fits h -> like (pcalls b h) /\ held h (pcalls b h).
Proof.
  induction h as [|c h IH] using rev_ind; intros F.
  - split; [exact like_new|]. intros p mn i _ _ _. split; [|reflexivity]. intros f (h1 & h2 & E & _). destruct h1; discriminate.
  - apply Forall_app in F as (F1 & F2). apply Forall_inv in F2. destruct (IH F1) as (L & H).
    assert (E : pcalls b (h ++ [c]) = pdo (pcalls b h) c) by (unfold pcalls; now rewrite fold_left_app).
    rewrite E. split; [now apply do_like|]. intros p mn i H1 H2 P. destruct (H p mn i H1 H2 P) as (A & B). destruct c as [u f|g].
    + cbn [pdo]. rewrite (set_dasm_at _ _ _ p mn i L F2 H1 H2 P). split.
      * intros f' N. apply newest_snoc in N as [[= -> ->]|(N1 & N2)]; [now rewrite N.eqb_refl|].
        destruct f as [f|]; [|now apply A]. destruct (N.eqb_spec u (pseudo_uid b mn)) as [->|]; [now destruct (N1 f)|now apply A].
      * intros U. destruct f as [f|]; [|apply B; intros g Q; apply (U g), in_or_app; auto].
        destruct (N.eqb_spec u (pseudo_uid b mn)) as [->|]; [exfalso; apply (U f), in_or_app; right; now left|].
        apply B. intros g Q. apply (U g), in_or_app. auto.
    + cbn [pdo]. rewrite make_dasm. split.
      * intros f N. apply newest_snoc in N as [[=]|(_ & N)]. auto.
      * intros U. apply B. intros f Q. apply (U f), in_or_app. auto.
Qed.

Lemma which_named st d p mn i : stash_ok (bo (pset_stash b st)) -> dx_uid d + 100 < 2 ^ 32 -> In p recs -> r_pseudo (fst p) = Some mn -> asks b mn d -> pfind b mn = Some i ->
  pwhich (pset_stash b st) d = Some i.
Proof.
  intros SO F H1 H2 A P. pose proof (asks_name _ _ _ _ _ NU HB mn d p H1 H2 A) as PN. unfold pname, pwhich in *.
  destruct (dx_uid d =? INVALID_UID); [injection PN as ->; exact P|].
  pose proof (pfind_uid_step (pset_stash b st) (dx_uid d) SO NO F) as X. cbn [pset_stash pb_inst] in X. rewrite PN in X.
  destruct X as (st' & _ & X). rewrite X. exact P.
Qed.
(** What is made after any calls is what makePseudoInst makes. *)
Lemma made_lemma h p mn g : Forall call_fits h -> call_fits (Make g) -> In p recs -> r_pseudo (fst p) = Some mn -> asks b mn (gv_direct g) ->
  exists i, pfind b mn = Some i /\
    snd (make_shown (pcalls b h) g) = let* v := snd (make_pseudo b (gv_direct g)) in Ok (mkShown v (pd_dasm (pcalls b h) i) (gv_note g)).
Proof.
  intros F FG H1 H2 A. destruct (run_held h F) as ((st & SO & E) & _). destruct (pseudo_named p mn H1 H2) as (_ & i & P). exists i. split; [exact P|].
  unfold make_shown. rewrite E. destruct (make_pseudo_step (pset_stash b st) (gv_direct g) SO NO FG) as (st' & _ & X). rewrite X.
  rewrite (which_named st (gv_direct g) p mn i SO FG H1 H2 A P).
  assert (SB : stash_ok (bo b)) by (apply stash_ok_empty; exact (pi_stash _ _ _ I)).
  destruct (make_pseudo_step b (gv_direct g) SB NO FG) as (st2 & _ & X2). rewrite X2. reflexivity.
Qed.
Lemma installed_lemma h p mn g v : Forall call_fits h -> call_fits (Make g) -> In p recs -> r_pseudo (fst p) = Some mn -> asks b mn (gv_direct g) ->
  snd (make_shown (pcalls b h) g) = Ok v ->
  snd (make_pseudo b (gv_direct g)) = Ok (sw_info v) /\
  forall f, newest (pseudo_uid b mn) h f -> text_of v = f mn 0 (i_meta (sw_info v)) (i_x (sw_info v)) (gv_note g).
Proof.
  intros F FG H1 H2 A Q. destruct (made_lemma h p mn g F FG H1 H2 A) as (i & P & E). rewrite E in Q. clear E.
  pose proof (pseudo_known _ _ _ _ _ NU HB [] p mn (gv_direct g) (Forall_nil _) FG H1 H2 A) as (m & gf & _ & _ & K). change (pseudo_run b []) with b in K.
  destruct (snd (make_pseudo b (gv_direct g))) as [w| | |] eqn:W; cbn [rbind] in Q; try discriminate. injection Q as <-. cbn [sw_info].
  split; [reflexivity|]. intros f N. destruct (run_held h F) as (_ & H). destruct (H p mn i H1 H2 P) as (Hn & _).
  unfold text_of. cbn [sw_info sw_dasm sw_note]. rewrite (Hn f N). clear - K. unfold pinfo in K. cbn [pf_form pf_meta pf_uid pf_anno] in K.
  set (x := wrap_ext _ _ _ _) in K. destruct (decode_info mn _ x m 0) as [di| | |] eqn:D; cbn [rbind] in K; try discriminate. injection K as ->. cbn [i_di i_icode i_meta i_x].
  f_equal. revert D. clear. unfold decode_info. intros D.
  repeat match type of D with (rbind ?a _) = _ => destruct a as [?| | |]; cbn [rbind] in D; try discriminate D end. injection D as <-. reflexivity.
Qed.
Lemma default_lemma h p mn g v : Forall call_fits h -> call_fits (Make g) -> In p recs -> r_pseudo (fst p) = Some mn -> asks b mn (gv_direct g) ->
  snd (make_shown (pcalls b h) g) = Ok v -> untouched (pseudo_uid b mn) h -> masks_fit (dx_ops (gv_direct g)) -> S_Dasm.plain mn ->
  exists t, text_of v = Ok t /\ Forall2 S_Dasm.says (S_Dasm.words t) (S_Dasm.Lit mn :: S_Dasm.direct_line (gv_direct g)).
Proof.
  intros F FG H1 H2 A Q U MF PL. destruct (made_lemma h p mn g F FG H1 H2 A) as (i & P & E). rewrite E in Q. clear E.
  pose proof (pseudo_known _ _ _ _ _ NU HB [] p mn (gv_direct g) (Forall_nil _) FG H1 H2 A) as (m & gf & _ & _ & K). change (pseudo_run b []) with b in K.
  destruct (snd (make_pseudo b (gv_direct g))) as [w| | |] eqn:W; cbn [rbind] in Q; try discriminate. injection Q as <-.
  destruct (run_held h F) as (_ & H). destruct (H p mn i H1 H2 P) as (_ & Hd).
  unfold text_of. cbn [sw_info sw_dasm sw_note]. rewrite (Hd U). unfold default_dasm. clear - K MF PL. unfold pinfo in K. cbn [pf_form pf_meta pf_uid pf_anno] in K.
  destruct (L_DasmDirect.C50_direct_lemma (gv_direct g) mn 0 m MF PL) as (t & T & S). exists t. split; [|exact S].
  set (x := wrap_ext _ _ _ _) in K. destruct (decode_info mn _ x m 0) as [di| | |] eqn:D; cbn [rbind] in K; try discriminate. injection K as ->. cbn [i_di i_icode i_meta i_x].
  replace (d_mnemonic di) with mn; [exact T|]. revert D. clear. unfold decode_info. intros D.
  repeat match type of D with (rbind ?a _) = _ => destruct a as [?| | |]; cbn [rbind] in D; try discriminate D end. injection D as <-. reflexivity.
Qed.
Lemma refused_lemma h u f : Forall call_fits h -> call_fits (Install u (Some f)) ->
  let ans := snd (set_dasm (pcalls b h) u (Some f)) in
  (pseudo_id b recs u -> ans = Ok tt) /\
  (~ pseudo_id b recs u -> (exists mn, In (mn, u) uids) -> ans = Throw EUnknownPseudoUID) /\
  (~ pseudo_id b recs u -> (forall mn, ~ In (mn, u) uids) -> ans = Throw EUnassignedIndex \/ ans = Throw EStdOutOfRange).
Proof.
  intros F FU. destruct (run_held h F) as ((st & SO & E) & _). cbv zeta. unfold set_dasm. rewrite E.
  pose proof (pfind_uid_step (pset_stash b st) u SO NO FU) as X. cbn [pset_stash pb_inst] in X. pose proof (pi_ids _ _ _ I) as R.
  destruct (made_ids _ _ _ _ _ NU HB) as (MI1 & MI2). split; [|split].
  - intros (p & mn & H1 & H2 & ->). destruct (pseudo_named p mn H1 H2) as (NM & i & P). rewrite NM in X. destruct X as (st' & _ & ->).
    change (pfind (pset_stash b st) mn) with (pfind b mn). rewrite P. reflexivity.
  - intros NP (mn & HI). apply MI1 in HI. assert (SL : da_slot (ir_arr (pb_inst b)) u = Some mn) by (apply (ro_own _ _ _ R); auto).
    assert (NM : ir_mnemonic (pb_inst b) u = Ok mn).
    { unfold ir_mnemonic, da_lookup. destruct (ro_arr _ _ _ R) as [_ DB]. rewrite SL. apply DB in SL. apply N.ltb_lt in SL. now rewrite SL. }
    rewrite NM in X. destruct X as (st' & _ & ->). change (pfind (pset_stash b st) mn) with (pfind b mn).
    destruct (pfind b mn) as [i|] eqn:P; [|reflexivity]. exfalso. apply NP. destruct (pi_only _ _ _ I _ _ P) as (p & H1 & H2). exists p, mn.
    split; [exact H1|]. split; [exact H2|]. unfold pseudo_uid, ir_uid. now rewrite HI.
  - intros NP NL. destruct (ir_mnemonic (pb_inst b) u) as [mn|e| |] eqn:NM.
    + exfalso. apply ir_mnemonic_slot, (ro_back _ _ _ R) in NM. destruct (MI2 _ _ NM) as [H|(p & H1 & H2)]; [exact (NL _ H)|].
      apply NP. exists p, mn. split; [exact H1|]. split; [exact H2|]. unfold pseudo_uid, ir_uid. now rewrite NM.
    + rewrite X. cbn [snd]. unfold ir_mnemonic, da_lookup in NM. destruct (_ <? _); [destruct (da_slot _ _); [discriminate|]|]; injection NM as <-; auto.
    + destruct X.
    + destruct X.
Qed.
End Claims.
