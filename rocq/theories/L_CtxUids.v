(** Lemmas: unique ids in a program with several contexts. *)
From Coq Require Import NArith ZArith Arith List Bool String Lia.
From Verif Require Import M_Base M_Field M_Forms M_Meta M_Extract M_Decoded M_Cache M_Registry M_Trie M_Builder M_DTable M_Direct M_Pseudo M_Context.
From Verif Require Import S_Bits S_Maps S_Uids S_Trie S_Table S_History S_Context L_Cache L_Registry L_Uids L_Table L_Ids L_Context.
Import ListNotations.
Local Open Scope N_scope.

(** What registrations and aliases do to a registry and the counter. *)
Record grows (al : string -> Prop) (nu : N) (r : instreg) (nu' : N) (r' : instreg) : Prop := mkGrows {
  gr_le : nu <= nu';
  gr_lt : nu' < w32;
  gr_ok : reg_ok al nu' r';
  gr_new : forall m u, mfind (ir_map r') m = Some u -> mfind (ir_map r) m = Some u \/ al m \/ nu <= u }.
Lemma grows_refl al nu r : nu < w32 -> reg_ok al nu r -> grows al nu r nu r.
Proof. intros. split; auto; lia. Qed.
Lemma grows_weaken (al al' : string -> Prop) nu r nu' r' : (forall m, al m -> al' m) -> grows al nu r nu' r' -> grows al' nu r nu' r'.
Proof.
  intros W [A B C D]. split; auto.
  - eapply reg_ok_weaken; [exact W|apply N.le_refl|exact C].
  - intros m u H. destruct (D m u H) as [?|[?|?]]; auto.
Qed.
Lemma grows_trans al nu r nu1 r1 nu2 r2 : grows al nu r nu1 r1 -> grows al nu1 r1 nu2 r2 -> grows al nu r nu2 r2.
Proof.
  intros [A B C D] [A' B' C' D']. split; auto; [lia|]. intros m u H. destruct (D' m u H) as [Q|[Q|Q]]; auto. right. right. lia.
Qed.
Lemma grows_register al nu r mn nu' r' uid : 0 < nu < w32 -> reg_ok al nu r -> ir_register r mn nu = Ok (nu', r', uid) -> grows al nu r nu' r'.
Proof.
  intros [N1 N2] R H. apply (register_ok al) in H as (A & B & C & _ & _ & D); auto. split; auto.
  intros m u Q. destruct (D m u Q) as [?|(_ & -> & _)]; auto. right. right. lia.
Qed.
Lemma grows_alias (al : string -> Prop) nu r mn uid r' : nu < w32 -> al mn -> reg_ok al nu r -> ir_alias r mn uid nu = Ok r' -> grows al nu r nu r'.
Proof.
  intros N AL R H. apply (alias_ok al) in H as (A & _ & D & _); auto. split; auto; [lia|].
  intros m u Q. destruct (D m u Q) as [?|(-> & _)]; auto.
Qed.

(** ** The builder *)
Lemma upd_inst b i g b' : upd_fact b i g = Ok b' -> b_nu b' = b_nu b /\ b_inst b' = b_inst b.
Proof. intros H. apply upd_fact_inv in H as (f & _ & ->). split; reflexivity. Qed.
Lemma reg_inst b mn b' uid : register_inst b mn = Ok (b', uid) -> ir_register (b_inst b) mn (b_nu b) = Ok (b_nu b', b_inst b', uid).
Proof.
  unfold register_inst. destruct (ir_register _ _ _) as [[[nu' r'] u]| | |]; cbn [rbind]; try discriminate.
  intros H. assert (b' = set_inst b nu' r') as -> by (cbn in H; congruence). assert (u = uid) as -> by congruence. reflexivity.
Qed.
Lemma bld_inst b mn fname xp st m b' i : bld b mn fname xp st m = Ok (b', i) ->
  (xp = ""%string /\ exists uid, ir_register (b_inst b) mn (b_nu b) = Ok (b_nu b', b_inst b', uid)) \/
  (xp <> ""%string /\ b_nu b' = b_nu b /\ exists uid, ir_alias (b_inst b) mn uid (b_nu b) = Ok (b_inst b')).
Proof.
  unfold bld. destruct (String.eqb_spec xp "") as [->|NE].
  - intros H. left. split; [reflexivity|].
    match type of H with (let (_, _) := ?p in _) = _ => destruct p as [b1 i1] eqn:E1 end.
    assert (B1 : b_nu b1 = b_nu b /\ b_inst b1 = b_inst b).
    { destruct (find_ifact b fname) as [j|]; [assert (b1 = b) as -> by congruence; auto|].
      cbn [new_fact] in E1. match type of E1 with (?x, _) = _ => assert (b1 = x) as -> by congruence end. split; reflexivity. }
    clear E1. destruct B1 as [N1 I1].
    set (b2 := if String.eqb mn fname then b1 else set_reg b1 (madd (b_reg b1) mn i1)) in H.
    assert (B2 : b_nu b2 = b_nu b1 /\ b_inst b2 = b_inst b1) by (unfold b2; destruct (String.eqb mn fname); split; reflexivity).
    clearbody b2. destruct B2 as [N2 I2].
    destruct (upd_fact b2 i1 _) as [b3| | |] eqn:U3; cbn [rbind] in H; try discriminate. apply upd_inst in U3 as [N3 I3].
    destruct (register_inst b3 mn) as [[b4 uid]| | |] eqn:U4; cbn [rbind] in H; try discriminate. apply reg_inst in U4.
    destruct (upd_fact b4 i1 _) as [b5| | |] eqn:U5; cbn [rbind] in H; try discriminate. apply upd_inst in U5 as [N5 I5].
    assert (b' = b5) as -> by congruence. exists uid. rewrite N5, I5. rewrite <- I1, <- I2, <- I3, <- N1, <- N2, <- N3. exact U4.
  - intros H. right. split; [exact NE|]. destruct (find_ifact b xp) as [j|]; [|discriminate].
    destruct (ir_alias _ _ _ _) as [r'| | |] eqn:EA; cbn [rbind] in H; try discriminate.
    destruct (upd_fact _ j _) as [b2| | |] eqn:U2; cbn [rbind] in H; try discriminate. apply upd_inst in U2 as [N2 I2].
    destruct (upd_fact b2 j _) as [b3| | |] eqn:U3; cbn [rbind] in H; try discriminate. apply upd_inst in U3 as [N3 I3].
    assert (b' = b3) as -> by congruence. rewrite N3, I3, N2, I2. split; [reflexivity|]. eauto.
Qed.
Lemma overlay_inst b mn o r x b' : build_overlay b mn o r x = Ok b' ->
  exists uid, ir_register (b_inst b) mn (b_nu b) = Ok (b_nu b', b_inst b', uid).
Proof.
  unfold build_overlay. destruct (overlay_parse o) as [[[base mask] v]| | |]; cbn [rbind]; try discriminate.
  destruct (mfind (b_metas b) base) as [bm|]; [|discriminate].
  destruct (meta_overrides _ _ bm) as [m| | |]; cbn [rbind]; try discriminate.
  destruct (register_inst b mn) as [[b1 uid]| | |] eqn:U; cbn [rbind]; try discriminate. apply reg_inst in U.
  destruct (_ && _)%bool; [discriminate|]. destruct (find_ifact b1 base) as [i|]; [|discriminate].
  intros H. apply upd_inst in H as [N I]. exists uid. now rewrite N, I.
Qed.
Lemma custom_inst b mn types b' : add_custom b mn types = Ok b' -> exists uid, ir_register (b_inst b) mn (b_nu b) = Ok (b_nu b', b_inst b', uid).
Proof.
  unfold add_custom, new_fact. cbn beta iota zeta. set (b2 := set_reg _ _).
  destruct (register_inst b2 mn) as [[b3 uid]| | |] eqn:U; cbn [rbind]; try discriminate. apply reg_inst in U.
  intros H. apply upd_inst in H as [N I]. exists uid. now rewrite N, I.
Qed.

Section Decoder.
Context (nu1 : N) (r1 : instreg).
Definition binv (P : list irec) (b : builder) : Prop := 0 < nu1 /\ grows (expanded P) nu1 r1 (b_nu b) (b_inst b).
Lemma binv_metas P b mn (m : meta) : binv P b -> binv P (set_metas b (madd (b_metas b) mn m)).
Proof. intros H. exact H. Qed.
Lemma binv_bld P b r mn st m b' i : is_inst r mn -> binv P b -> bld b mn (fname_of r mn) (r_expand r) st m = Ok (b', i) -> binv (P ++ [r]) b'.
Proof.
  intros HI [N G] H. split; [exact N|]. assert (G' : grows (expanded (P ++ [r])) nu1 r1 (b_nu b) (b_inst b)).
  { eapply grows_weaken; [|exact G]. intros m0. apply expanded_app. }
  pose proof (gr_le _ _ _ _ _ G'). pose proof (gr_lt _ _ _ _ _ G').
  eapply grows_trans; [exact G'|]. apply bld_inst in H as [(_ & uid & H)|(NE & -> & uid & H)].
  - eapply grows_register; [lia|apply G'|exact H].
  - eapply grows_alias; [lia| |apply G'|exact H]. exists r. split; [apply in_or_app; right; now left|]. auto.
Qed.
Lemma binv_overlay P b r mn o x b' : r_mn r = Some mn -> r_overlay r = Some o -> binv P b -> build_overlay b mn o r x = Ok b' -> binv (P ++ [r]) b'.
Proof.
  intros _ _ [N G] H. split; [exact N|]. assert (G' : grows (expanded (P ++ [r])) nu1 r1 (b_nu b) (b_inst b)).
  { eapply grows_weaken; [|exact G]. intros m0. apply expanded_app. }
  pose proof (gr_le _ _ _ _ _ G'). pose proof (gr_lt _ _ _ _ _ G').
  eapply grows_trans; [exact G'|]. apply overlay_inst in H as (uid & H). eapply grows_register; [lia|apply G'|exact H].
Qed.
End Decoder.
(** A new registry. *)
Lemma new_grows uids nu nu1 r1 : 0 < nu < w32 -> ir_new uids nu = Ok (nu1, r1) ->
  nu <= nu1 /\ nu1 < w32 /\ reg_ok (fun _ => False) nu1 r1 /\ forall m u, mfind (ir_map r1) m = Some u -> In m (map fst uids).
Proof.
  intros N E. unfold ir_new in E. apply load_ok in E as (L1 & L2 & R & U & _); [|auto| |discriminate].
  2:{ split; cbn [ir_map ir_arr]; try discriminate; [apply da_new_ok; vm_compute; intuition discriminate|..]; intros u m Q; unfold da_slot, da_new in Q; destruct u; discriminate. }
  split; [auto|]. split; [auto|]. split; [auto|]. intros m u H. destruct (U m u H) as [Q|Q]; [discriminate Q|]. exact (in_map fst _ _ Q).
Qed.
(** What the constructed registries hold. *)
Definition fresh_reg (uids : list (string * N)) (al : string -> Prop) (nu nu' : N) (r : instreg) : Prop :=
  nu <= nu' /\ nu' < w32 /\ reg_ok al nu' r /\
  forall m u, mfind (ir_map r) m = Some u -> ~ In m (map fst uids) -> ~ al m -> nu <= u.
Definition expands (recs : list irec) (m : string) : Prop := exists r, In r recs /\ r_mn r = Some m /\ r_expand r <> ""%string.
Lemma decoder_fresh uids annos nu incl excl recs s : 0 < nu < w32 -> make_decoder uids annos nu incl excl recs = Ok s ->
  fresh_reg uids (expands recs) nu (b_nu (fst s)) (b_inst (fst s)).
Proof.
  intros N H. unfold make_decoder in H. destruct (builder_new uids annos nu) as [b0| | |] eqn:E; cbn [rbind] in H; try discriminate.
  unfold builder_new in E. destruct (ir_new uids nu) as [[nu1 r1]| | |] eqn:EN; cbn [rbind] in E; try discriminate.
  apply new_grows in EN as (L1 & L2 & R & U); [|exact N]. set (bb := mkB _ _ _ _ _ _ _) in E.
  assert (R' : reg_ok (expanded []) nu1 r1) by (eapply reg_ok_weaken; [|apply N.le_refl|exact R]; intros ? []).
  assert (B0 : binv nu1 r1 [] bb) by (split; [lia|]; apply grows_refl; [exact L2|exact R']).
  assert (CU : forall b mn ty b', binv nu1 r1 [] b -> add_custom b mn ty = Ok b' -> binv nu1 r1 [] b').
  { intros b mn ty b' [N0 G] C. split; [auto|]. apply custom_inst in C as (uid & C). eapply grows_trans; [exact G|].
    pose proof (gr_le _ _ _ _ _ G). pose proof (gr_lt _ _ _ _ _ G). eapply grows_register; [lia|apply G|exact C]. }
  destruct (add_custom bb "nop" _) as [b1| | |] eqn:E1; cbn [rbind] in E; try discriminate.
  apply CU in E1; [|exact B0]. apply CU in E; [|exact E1].
  destruct (configure_keep (binv nu1 r1) (binv_metas nu1 r1) (binv_bld nu1 r1) (binv_overlay nu1 r1) incl excl recs [] (b0, tree_new) s E H) as (P & [_ [G1 G2 G3 G4]] & Q2).
  assert (EX : forall m, expanded P m -> expands recs m).
  { intros m (r & I & [HI _] & X). exists r. split; [|auto]. apply Q2 in I as [[]|[I _]]. unfold kept in I. now apply filter_In in I. }
  split; [lia|]. split; [lia|]. split; [eapply reg_ok_weaken; [exact EX|apply N.le_refl|exact G3]|].
  intros m u F NU NA. destruct (G4 m u F) as [Q|[Q|Q]]; [apply U in Q; contradiction|apply EX in Q; contradiction|lia].
Qed.
Lemma pseudos_fresh uids annos nu recs b : 0 < nu < w32 -> make_pseudos uids annos nu recs = Ok b ->
  fresh_reg uids (fun _ => False) nu (pb_nu b) (pb_inst b).
Proof.
  intros N H. unfold make_pseudos, pbuilder_new in H. destruct (ir_new uids nu) as [[nu1 r1]| | |] eqn:EN; cbn [rbind] in H; try discriminate.
  apply new_grows in EN as (L1 & L2 & R & U); [|exact N]. set (bb := mkPB _ _ _ _ _ _ _) in H.
  assert (G : grows (fun _ => False) nu1 r1 (pb_nu bb) (pb_inst bb)) by (apply grows_refl; [exact L2|exact R]).
  clearbody bb. revert bb G H. induction recs as [|r recs IH]; intros bb G H; cbn [pconfigure] in H.
  - assert (b = bb) as -> by congruence. destruct G as [G1 G2 G3 G4]. split; [lia|]. split; [lia|]. split; [exact G3|].
    intros m u F NU _. destruct (G4 m u F) as [Q|[[]|Q]]; [apply U in Q; contradiction|lia].
  - destruct (ppseudo bb r) as [b1| | |] eqn:E; cbn [rbind] in H; try discriminate. apply (IH b1); [|exact H]. clear IH H.
    unfold ppseudo in E. destruct (r_pseudo (fst r)) as [mn|]; [|assert (b1 = bb) as -> by congruence; exact G].
    destruct (make_meta _ _ _) as [m| | |]; cbn [rbind] in E; try discriminate. destruct (mfind (pb_metas bb) mn); [discriminate|].
    destruct (make_gform _ _) as [g| | |]; cbn [rbind] in E; try discriminate. unfold pbuild in E. cbn [pb_inst pb_nu] in E.
    destruct (pfind _ mn); [match type of E with Ok ?x = _ => assert (b1 = x) as -> by congruence end; exact G|].
    destruct (ir_register _ _ _) as [[[nu' r'] uid]| | |] eqn:ER; cbn [rbind] in E; try discriminate.
    match type of E with Ok ?x = _ => assert (b1 = x) as -> by congruence end. cbn [pb_nu pb_inst fst snd].
    eapply grows_trans; [exact G|]. pose proof (gr_le _ _ _ _ _ G). pose proof (gr_lt _ _ _ _ _ G). eapply grows_register; [lia|apply G|exact ER].
Qed.

(** ** Calls *)
Section Calls.
Context {A U : Type} (u0 : U).
Notation dt := (dt A U).
Definition same_reg (b b' : builder) : Prop := b_nu b' = b_nu b /\ b_inst b' = b_inst b.
Definition reg_step (b b' : builder) : Prop :=
  same_reg b b' \/ exists mn uid, ir_register (b_inst b) mn (b_nu b) = Ok (b_nu b', b_inst b', uid).
Lemma leaf_get_b (d : dt) i mn ic x : dt_b (fst (leaf_get d i mn ic x)) = dt_b d.
Proof. unfold leaf_get. destruct (stash_lookup _ _ _ _ ic); [reflexivity|]. destruct (let* f := _ in _); reflexivity. Qed.
Lemma get_info_b (d : dt) ic : dt_b (fst (get_info d ic)) = dt_b d.
Proof.
  unfold get_info. destruct (cache_lookup _ _ ic); [reflexivity|]. unfold tree_get.
  destruct (tree_sel (dt_tree d) ic) as [[mn p]| | |]; try reflexivity.
  destruct (x_illop _ ic) as [[]| | |]; try reflexivity.
  match goal with |- context [leaf_get ?a ?b ?c ?e ?f] => pose proof (leaf_get_b a b c e f) as Q; destruct (leaf_get a b c e f) as [d' [v| | |]] end; exact Q.
Qed.
Lemma copy_out_b (d : dt) i : dt_b (fst (copy_out d i)) = dt_b d.
Proof. unfold copy_out. destruct (dt_heap d i); reflexivity. Qed.
Lemma make_inst_b (d : dt) ic a : dt_b (fst (make_inst u0 d ic a)) = dt_b d.
Proof.
  unfold make_inst. destruct (cache_lookup _ _ ic); [apply copy_out_b|]. pose proof (get_info_b d ic) as Q.
  destruct (get_info d ic) as [d' [v| | |]]; cbn [fst] in Q; try exact Q. cbn [alloc]. rewrite copy_out_b. exact Q.
Qed.
Lemma find_uid_b b u b' o : find_ifact_uid b u = Ok (b', o) -> same_reg b b'.
Proof.
  unfold find_ifact_uid. destruct (dk_contains_n _ _).
  - destruct (dk_lookup_n _ _); cbn [rbind]; try discriminate. intros H. assert (b' = b) as -> by congruence. split; reflexivity.
  - destruct (ir_mnemonic _ _); cbn [rbind]; try discriminate. destruct (find_ifact b _); [|intros H; assert (b' = b) as -> by congruence; split; reflexivity].
    destruct (dk_add _ _ _ _) as [st| | |]; cbn [rbind]; try discriminate. intros H. assert (b' = set_stash b st) as -> by congruence. split; reflexivity.
Qed.
Lemma directly_b (d : dt) mn uid x a : same_reg (dt_b d) (dt_b (fst (make_inst_directly u0 d mn uid x a))).
Proof.
  unfold make_inst_directly. match goal with |- context [let (_, _) := ?p in _] => set (q := p) end.
  assert (Q : same_reg (dt_b d) (dt_b (fst q))).
  { unfold q. destruct (uid =? INVALID_UID); [split; reflexivity|]. destruct (ir_mnemonic _ uid); try (split; reflexivity).
    destruct (find_ifact_uid (dt_b d) uid) as [[b o]| | |] eqn:E; try (split; reflexivity). apply find_uid_b in E. exact E. }
  destruct q as [d1 r]. cbn [fst] in Q. destruct r as [[mn' [i|]]| | |]; try exact Q. destruct (let* f := _ in _); exact Q.
Qed.
Lemma morph_b (d : dt) k mn x : dt_b (fst (morph_inst d k mn x)) = dt_b d.
Proof.
  unfold morph_inst. destruct (find_ifact _ mn); [|reflexivity]. destruct (let* f := _ in _); try reflexivity.
  destruct (dt_heap d k); reflexivity.
Qed.
Lemma flush_b (d : dt) : dt_b (fst (flush_caches d)) = dt_b d.
Proof. unfold flush_caches. destruct (flush_tree _); reflexivity. Qed.
Lemma lift_obj_b (r : dt * res nat) : dt_b (fst (lift_obj r)) = dt_b (fst r).
Proof. destruct r as [d [k| | |]]; try reflexivity. cbn. destruct (dt_heap d k); reflexivity. Qed.
Lemma lift_unit_b (r : dt * res unit) : dt_b (fst (lift_unit r)) = dt_b (fst r).
Proof. destruct r as [d [k| | |]]; reflexivity. Qed.
Lemma trace_b (d : dt) ic tmn x a : reg_step (dt_b d) (dt_b (fst (make_inst_from_trace u0 d ic tmn x a))).
Proof.
  unfold make_inst_from_trace. pose proof (make_inst_b d ic a) as Q. destruct (make_inst u0 d ic a) as [d1 [j| | |]]; cbn [fst] in Q; try (left; split; cbn [fst]; rewrite Q; reflexivity).
  destruct (dt_heap d1 j) as [o|]; [|left; split; cbn [fst]; rewrite Q; reflexivity].
  destruct (String.eqb _ tmn); [left; split; cbn [fst]; rewrite Q; reflexivity|].
  destruct (bld (dt_b d1) tmn tmn "" 0 meta_rv32i) as [[b i]| | |] eqn:E; try (left; split; cbn [fst]; rewrite Q; reflexivity).
  apply bld_inst in E as [(_ & uid & E)|(NE & _)]; [|contradiction NE; reflexivity]. right. exists tmn, uid. rewrite Q in E.
  pose proof (leaf_get_b (set_b d1 b) i tmn ic x) as L. destruct (leaf_get (set_b d1 b) i tmn ic x) as [d2 [v| | |]]; cbn [fst] in L; cbn [fst alloc set_ic dt_b];
    rewrite L; exact E.
Qed.
Lemma step_b (d : dt) o : reg_step (dt_b d) (dt_b (fst (step u0 d o))).
Proof.
  assert (S : forall d' : dt, dt_b d' = dt_b d -> reg_step (dt_b d) (dt_b d')) by (intros d' ->; left; split; reflexivity).
  destruct o as [ic|ic a|ic mn x a|mn uid x a|k mn x| |k u|k]; cbn [step].
  - pose proof (get_info_b d ic) as Q. destruct (get_info d ic) as [d1 [v| | |]]; apply S; exact Q.
  - apply S. rewrite lift_obj_b. apply make_inst_b.
  - rewrite lift_obj_b. apply trace_b.
  - left. rewrite lift_obj_b. apply directly_b.
  - destruct (held d k); [|apply S; reflexivity]. apply S. rewrite lift_unit_b. apply morph_b.
  - apply S. rewrite lift_unit_b. apply flush_b.
  - destruct (held d k) as [i|]; [|apply S; reflexivity]. destruct (dt_heap d i); apply S; reflexivity.
  - destruct (held d k) as [i|]; [|apply S; reflexivity]. destruct (dt_heap d i); apply S; reflexivity.
Qed.
Lemma pseudo_inst (b : pbuilder) d : pb_inst (fst (make_pseudo b d)) = pb_inst b.
Proof.
  unfold make_pseudo. match goal with |- context [let (_, _) := ?p in _] => set (q := p) end.
  assert (Q : pb_inst (fst q) = pb_inst b).
  { unfold q. destruct (dx_uid d =? INVALID_UID); [reflexivity|]. destruct (ir_mnemonic _ _); try reflexivity.
    destruct (pfind_uid b (dx_uid d)) as [[b1 o]| | |] eqn:E; try reflexivity. cbn [fst]. unfold pfind_uid in E. destruct (dk_contains_n _ _).
    - destruct (dk_lookup_n _ _); cbn [rbind] in E; try discriminate. assert (b1 = b) as -> by congruence. reflexivity.
    - destruct (ir_mnemonic _ _); cbn [rbind] in E; try discriminate. destruct (pfind b _); [|assert (b1 = b) as -> by congruence; reflexivity].
      destruct (dk_add _ _ _ _) as [st| | |]; cbn [rbind] in E; try discriminate. assert (b1 = pset_stash b st) as -> by congruence. reflexivity. }
  destruct q as [b1 r]. cbn [fst] in Q. destruct r as [[mn' [i|]]| | |]; exact Q.
Qed.

(** ** The registries of a context *)
Definition reg_of (x : ctxt A U) (w : numbering) : instreg :=
  match w with Instructions => b_inst (dt_b (cx_dt x)) | PseudoInstructions => pb_inst (cx_pb x) end.
Definition al_of (c : config) (w : numbering) : string -> Prop :=
  match w with Instructions => expands (map fst (c_recs c)) | PseudoInstructions => fun _ => False end.
Lemma not_alias c w m : library_chose c w m -> ~ In m (map fst (c_uids c)) /\ ~ al_of c w m.
Proof.
  intros [H1 H2]. split; [exact H1|]. destruct w; cbn; [|tauto]. intros (r & I & M & X). apply in_map_iff in I as ([r' p] & <- & I).
  apply X. eapply H2; eauto.
Qed.
Lemma context_fresh c nu (x : ctxt A U) nu' : 0 < nu < w32 -> make_context c nu = Ok (x, nu') -> exists mid,
  fresh_reg (c_uids c) (al_of c Instructions) nu mid (reg_of x Instructions) /\
  fresh_reg (c_uids c) (al_of c PseudoInstructions) mid nu' (reg_of x PseudoInstructions).
Proof.
  intros N. unfold make_context. destruct (ir_new (c_uids c) nu) as [[n1 i1]| | |]; try discriminate. cbn [rbind].
  destruct (anno_files (c_ovs c) (c_files c) []) as [an| | |] eqn:E1; try discriminate. cbn [rbind].
  destruct (make_decoder _ an nu _ _ _) as [s| | |] eqn:E2; try discriminate. cbn [rbind].
  destruct (ir_new (c_uids c) (b_nu (fst s))) as [[n2 i2]| | |]; try discriminate. cbn [rbind].
  destruct (anno_files [] (c_files c) []) as [pan| | |]; try discriminate. cbn [rbind].
  destruct (make_pseudos _ _ _ _) as [pb| | |] eqn:E3; try discriminate. cbn [rbind].
  intros H. assert (x = mkCx (dt_new s) pb) as -> by congruence. assert (nu' = pb_nu pb) as -> by congruence.
  apply decoder_fresh in E2; [|exact N]. exists (b_nu (fst s)). split; [exact E2|]. destruct E2 as (L1 & L2 & _).
  apply pseudos_fresh in E3; [exact E3|lia].
Qed.

(** ** The program *)
Record ginv (K : string -> option config) (g : mavis A U) : Prop := mkGI {
  gi_nu : 0 < mv_nu g < w32;
  gi_reg : forall X c x, K X = Some c -> mfind (mv_reg g) X = Some x -> forall w, reg_ok (al_of c w) (mv_nu g) (reg_of x w);
  gi_dom : forall X, K X = None <-> mfind (mv_reg g) X = None;
  gi_apart : forall X c x w m u X' c' x' w' m', K X = Some c -> mfind (mv_reg g) X = Some x -> K X' = Some c' -> mfind (mv_reg g) X' = Some x' ->
    library_chose c w m -> library_chose c' w' m' -> mfind (ir_map (reg_of x w)) m = Some u -> mfind (ir_map (reg_of x' w')) m' = Some u ->
    X = X' /\ w = w' }.
Definition kset (K : string -> option config) n c : string -> option config := fun X => if String.eqb n X then Some c else K X.
Lemma make_ginv K (g : mavis A U) n c x nu : ginv K g -> mfind (mv_reg g) n = None -> make_context c (mv_nu g) = Ok (x, nu) ->
  ginv (kset K n c) (mkMV nu (madd (mv_reg g) n x) (mv_cur g)).
Proof.
  intros [N R D AP] F H. apply context_fresh in H as (mid & (A1 & A2 & A3 & A4) & (B1 & B2 & B3 & B4)); [|exact N].
  assert (RX : forall w, reg_ok (al_of c w) nu (reg_of x w)).
  { intros []; [|exact B3]. eapply reg_ok_weaken; [|exact B1|exact A3]. auto. }
  constructor; cbn [mv_nu mv_reg].
  - lia.
  - intros X c1 x1. unfold kset. rewrite mfind_madd. destruct (String.eqb_spec n X) as [->|NE].
    + intros [= <-] [= <-]. exact RX.
    + intros K1 F1 w. eapply reg_ok_weaken; [| |exact (R _ _ _ K1 F1 w)]; [auto|lia].
  - intros X. unfold kset. rewrite mfind_madd. destruct (String.eqb n X); [split; discriminate|apply D].
  - assert (NEW : forall w m u, library_chose c w m -> mfind (ir_map (reg_of x w)) m = Some u ->
        match w with Instructions => mv_nu g <= u < mid | PseudoInstructions => mid <= u end).
    { intros w m u L M. apply not_alias in L as [L1 L2]. destruct w.
      - pose proof (A4 _ _ M L1 L2). pose proof (ro_bound _ _ _ A3 _ _ M). lia.
      - exact (B4 _ _ M L1 L2). }
    assert (OLD : forall X c1 x1 w m u, K X = Some c1 -> mfind (mv_reg g) X = Some x1 -> mfind (ir_map (reg_of x1 w)) m = Some u -> u < mv_nu g).
    { intros X c1 x1 w m u K1 F1 M. pose proof (ro_bound _ _ _ (R _ _ _ K1 F1 w) _ _ M). lia. }
    intros X c1 x1 w m u X' c' x' w' m'. unfold kset. rewrite !mfind_madd. destruct (String.eqb_spec n X) as [Q|NE]; destruct (String.eqb_spec n X') as [Q'|NE'].
    + subst X X'. intros [= <-] [= <-] [= <-] [= <-] L L' M M'. apply NEW in M; [|exact L]. apply NEW in M'; [|exact L']. split; [reflexivity|]. destruct w, w'; auto; lia.
    + subst X. intros [= <-] [= <-] K' F' L L' M M'. apply NEW in M; [|exact L]. eapply OLD in M'; eauto. destruct w; lia.
    + subst X'. intros K' F' [= <-] [= <-] L L' M M'. apply NEW in M'; [|exact L']. eapply OLD in M; eauto. destruct w'; lia.
    + eauto.
Qed.
Lemma call_ginv K (g : mavis A U) x x' : ginv K g -> mfind (mv_reg g) (mv_cur g) = Some x ->
  ctxt_nu x' < w32 -> mv_nu g <= ctxt_nu x' ->
  reg_of x' PseudoInstructions = reg_of x PseudoInstructions ->
  (forall al, reg_ok al (mv_nu g) (reg_of x Instructions) -> grows al (mv_nu g) (reg_of x Instructions) (ctxt_nu x') (reg_of x' Instructions)) ->
  ginv K (mkMV (ctxt_nu x') (madd (mv_reg g) (mv_cur g) x') (mv_cur g)).
Proof.
  intros [N R D AP] F LT LE PS GR. constructor; cbn [mv_nu mv_reg].
  - lia.
  - intros X c1 x1. rewrite mfind_madd. destruct (String.eqb_spec (mv_cur g) X) as [<-|NE].
    + intros K1 [= <-] []; [apply GR, (R _ _ _ K1 F)|]. rewrite PS. eapply reg_ok_weaken; [| |exact (R _ _ _ K1 F PseudoInstructions)]; [auto|lia].
    + intros K1 F1 w. eapply reg_ok_weaken; [| |exact (R _ _ _ K1 F1 w)]; [auto|lia].
  - intros X. rewrite mfind_madd. destruct (String.eqb_spec (mv_cur g) X) as [<-|]; [|apply D]. rewrite D, F. split; discriminate.
  - assert (OLD : forall X c1 x1 w m u, K X = Some c1 -> mfind (mv_reg g) X = Some x1 -> mfind (ir_map (reg_of x1 w)) m = Some u -> u < mv_nu g).
    { intros X c1 x1 w m u K1 F1 M. pose proof (ro_bound _ _ _ (R _ _ _ K1 F1 w) _ _ M). lia. }
    assert (CUR : forall c1 w m u, K (mv_cur g) = Some c1 -> library_chose c1 w m -> mfind (ir_map (reg_of x' w)) m = Some u ->
       mfind (ir_map (reg_of x w)) m = Some u \/ w = Instructions /\ mv_nu g <= u).
    { intros c1 [] m u K1 L M; [|left; now rewrite <- PS]. apply not_alias in L as [_ L2].
      destruct (gr_new _ _ _ _ _ (GR _ (R _ _ _ K1 F Instructions)) _ _ M) as [?|[Q|?]]; auto. contradiction (L2 Q). }
    intros X c1 x1 w m u X' c' x2 w' m'. rewrite !mfind_madd. destruct (String.eqb_spec (mv_cur g) X) as [Q|NE]; destruct (String.eqb_spec (mv_cur g) X') as [Q'|NE'].
    + subst X X'. intros K1 [= <-] K2 [= <-] L L' M M'. split; [reflexivity|].
      destruct (CUR _ _ _ _ K1 L M) as [O|[-> O]], (CUR _ _ _ _ K2 L' M') as [O'|[-> O']]; auto.
      * eapply (AP _ _ _ w m u _ _ _ w' m' K1 F K2 F); eauto.
      * pose proof (OLD _ _ _ _ _ _ K1 F O). lia.
      * pose proof (OLD _ _ _ _ _ _ K2 F O'). lia.
    + subst X. intros K1 [= <-] K2 F2 L L' M M'. destruct (CUR _ _ _ _ K1 L M) as [O|[-> O]]; [eauto|]. pose proof (OLD _ _ _ _ _ _ K2 F2 M'). lia.
    + subst X'. intros K1 F1 K2 [= <-] L L' M M'. destruct (CUR _ _ _ _ K2 L' M') as [O|[-> O]]; [eauto|]. pose proof (OLD _ _ _ _ _ _ K1 F1 M). lia.
    + eauto.
Qed.
Lemma ctxt_call (x : ctxt A U) nu (o : cop A U) : 0 < nu < w32 ->
  let x' := fst (cstep u0 (ctxt_at x nu) o) in
  reg_of x' PseudoInstructions = reg_of x PseudoInstructions /\
  (forall al, reg_ok al nu (reg_of x Instructions) -> grows al nu (reg_of x Instructions) (ctxt_nu x') (reg_of x' Instructions)).
Proof.
  intros N.
  assert (SM : forall x' : ctxt A U, reg_of x' PseudoInstructions = reg_of x PseudoInstructions -> reg_of x' Instructions = reg_of x Instructions -> ctxt_nu x' = nu ->
     reg_of x' PseudoInstructions = reg_of x PseudoInstructions /\
     (forall al, reg_ok al nu (reg_of x Instructions) -> grows al nu (reg_of x Instructions) (ctxt_nu x') (reg_of x' Instructions))).
  { intros x' E1 E2 E3. split; [exact E1|]. intros al R. rewrite E2, E3. apply grows_refl; [lia|exact R]. }
  destruct o as [o|d|mn|uid|mn|uid|mn]; cbn [cstep]; try (apply SM; reflexivity).
  - pose proof (step_b (cx_dt (ctxt_at x nu)) o) as Q. destruct (step u0 (cx_dt (ctxt_at x nu)) o) as [d' a]. cbn [fst] in *.
    destruct Q as [[Q1 Q2]|(mn & uid & Q)].
    + apply SM; [reflexivity|exact Q2|exact Q1].
    + split; [reflexivity|]. intros al R. eapply grows_register; [exact N|exact R|exact Q].
  - pose proof (pseudo_inst (cx_pb (ctxt_at x nu)) d) as Q. destruct (make_pseudo (cx_pb (ctxt_at x nu)) d) as [pb v]. cbn [fst] in *. apply SM; [exact Q|reflexivity|reflexivity].
Qed.
Lemma gstep_ginv K (g : mavis A U) (o : gop A U) : ginv K g -> (match o with GMake _ _ nu' => mv_nu g <= nu' < 2 ^ 32 | _ => True end) -> goes_on (snd (gstep u0 g o)) ->
  exists K', ginv K' (fst (gstep u0 g o)) /\ (forall X c, K X = Some c -> K' X = Some c) /\
    (forall X c nu', o = GMake X c nu' -> snd (gstep u0 g o) = Ok GDone -> K' X = Some c).
Proof.
  intros G KP GO. pose proof G as [N R D AP].
  assert (SAME : forall g' : mavis A U, mv_nu g <= mv_nu g' < w32 -> mv_reg g' = mv_reg g -> ginv K g').
  { intros g' L E. constructor; rewrite ?E; auto; [lia|]. intros X c x K1 F w. eapply reg_ok_weaken; [| |exact (R _ _ _ K1 F w)]; [auto|apply L]. }
  destruct o as [n c nu'|n|n|o]; cbn [gstep] in *.
  - destruct (mfind (mv_reg g) n) as [x0|] eqn:F.
    + exists K. split; [exact G|]. split; [auto|]. intros X c1 n1 _ Q. discriminate Q.
    + destruct (make_context c (mv_nu g)) as [[x nu]|e| |] eqn:E; cbn [fst snd] in *; try contradiction GO.
      * exists (kset K n c). split; [apply make_ginv; auto|]. split.
        -- intros X c1 K1. unfold kset. destruct (String.eqb_spec n X) as [->|]; [|exact K1]. apply D in F. congruence.
        -- intros X c1 n1 Q _. assert (X = n /\ c1 = c) as [-> ->] by (split; congruence). unfold kset. now rewrite String.eqb_refl.
      * exists K. split; [apply SAME; [|reflexivity]|]. { cbn. change w32 with (2 ^ 32). lia. }
        split; [auto|]. intros X c1 n1 _ Q. discriminate Q.
  - exists K. destruct (mfind (mv_reg g) n); (split; [apply SAME; [cbn; lia|reflexivity]|]); (split; [auto|]); intros X c1 n1 Q; discriminate Q.
  - exists K. split; [exact G|]. split; [auto|]. intros X c1 n1 Q; discriminate Q.
  - destruct (mfind (mv_reg g) (mv_cur g)) as [x|] eqn:F; [|contradiction GO].
    destruct (ctxt_call x (mv_nu g) o N) as [C1 C2]. destruct (cstep u0 (ctxt_at x (mv_nu g)) o) as [x' a]. cbn [fst snd] in *.
    destruct (K (mv_cur g)) as [c|] eqn:EK; [|apply D in EK; congruence].
    pose proof (C2 _ (R _ _ _ EK F Instructions)) as [L1 L2 _ _].
    exists K. split; [apply (call_ginv K g x x'); auto|]. split; [auto|]. intros X c1 n1 Q. discriminate Q.
Qed.
Lemma grun_ginv (ops : list (gop A U)) : forall K (g : mavis A U), ginv K g -> counter_kept u0 g ops -> Forall goes_on (snd (grun u0 g ops)) ->
  exists K', ginv K' (fst (grun u0 g ops)) /\ (forall X c, K X = Some c -> K' X = Some c) /\
    (forall X c nu', In (GMake X c nu', Ok GDone) (combine ops (snd (grun u0 g ops))) -> K' X = Some c).
Proof.
  induction ops as [|o ops IH]; intros K g G KP GO.
  - exists K. split; [exact G|]. split; [auto|]. intros ? ? ? [].
  - cbn [counter_kept] in KP. destruct KP as [KP1 KP2]. cbn [grun] in *. pose proof (gstep_ginv K g o G KP1) as S.
    destruct (gstep u0 g o) as [g1 a]. cbn [fst snd] in S, KP2.
    assert (GA : goes_on a) by (destruct a; cbn [snd] in GO; [exact I|exact I|inversion GO; auto|inversion GO; auto]).
    destruct (S GA) as (K1 & G1 & M1 & N1).
    assert (GO' : Forall goes_on (snd (grun u0 g1 ops))) by (destruct a; try contradiction GA; destruct (grun u0 g1 ops); cbn [snd] in *; now inversion GO).
    destruct (IH K1 g1 G1 KP2 GO') as (K2 & G2 & M2 & N2).
    destruct a as [v|e| |]; try contradiction GA; destruct (grun u0 g1 ops) as [g2 l]; cbn [fst snd] in *; exists K2; (split; [exact G2|]); (split; [auto|]); intros X c nu' [Q|I]; eauto.
    + assert (o = GMake X c nu') by congruence. assert (Ok v = Ok GDone) by congruence. eauto.
    + discriminate Q.
Qed.
Lemma says_find (g : mavis A U) X w m u : says u0 g X w m u -> u <> INVALID_UID -> exists x, mfind (mv_reg g) X = Some x /\ mfind (ir_map (reg_of x w)) m = Some u.
Proof.
  unfold says. cbn [grun gstep]. destruct (mfind (mv_reg g) X) as [x|] eqn:F.
  2:{ match goal with |- context [let (_, _) := ?p in _] => destruct p as [g1 l1] end. intros H. discriminate H. }
  cbn [gstep mv_reg mv_cur mv_nu]. rewrite F. intros H NZ. exists x. split; [reflexivity|].
  assert (u = ir_uid (reg_of x w) m) as ->.
  { destruct w; cbn [question cstep rbind snd] in H;
    exact (f_equal (fun l => match l with [_; Ok (GAns (CNum n))] => n | _ => u end) (eq_sym H)). }
  unfold ir_uid in *. destruct (mfind (ir_map (reg_of x w)) m); [reflexivity|]. now contradiction NZ.
Qed.
Lemma program_uids_lemma (c0 : config) nu0 (g0 : mavis A U) (ops : list (gop A U)) : 0 < nu0 < 2 ^ 32 -> mavis_new c0 nu0 = Ok g0 ->
  let g := fst (grun u0 g0 ops) in let answers := snd (grun u0 g0 ops) in
  counter_kept u0 g0 ops -> Forall goes_on answers ->
  forall X c w m X' c' w' m' u, made_with c0 (combine ops answers) X c -> made_with c0 (combine ops answers) X' c' ->
  library_chose c w m -> library_chose c' w' m' -> u <> INVALID_UID ->
  says u0 g X w m u -> says u0 g X' w' m' u -> X = X' /\ w = w' /\ m = m'.
Proof.
  intros N H g answers KP GO X c w m X' c' w' m' u M M' L L' NZ S S'.
  assert (G0 : ginv (kset (fun _ => None) "BASE" c0) g0).
  { unfold mavis_new in H. destruct (make_context c0 nu0) as [[x nu]| | |] eqn:E; cbn [rbind] in H; try discriminate.
    assert (g0 = mkMV nu [("BASE"%string, x)] "BASE") as -> by congruence.
    apply (make_ginv (fun _ => None) (mkMV nu0 [] "BASE") "BASE" c0 x nu); [|reflexivity|exact E].
    constructor; cbn; try discriminate; [exact N|]. intros _. split; reflexivity. }
  destruct (grun_ginv ops _ _ G0 KP GO) as (K & [_ R D AP] & K1 & K2).
  assert (KM : forall X c, made_with c0 (combine ops answers) X c -> K X = Some c).
  { intros Y c1 [[-> ->]|(nu' & I)]; [|eauto]. apply K1. reflexivity. }
  apply KM in M. apply KM in M'. apply says_find in S as (x & F & V); [|exact NZ]. apply says_find in S' as (x' & F' & V'); [|exact NZ].
  destruct (AP _ _ _ _ _ _ _ _ _ _ _ M F M' F' L L' V V') as [<- <-]. split; [reflexivity|]. split; [reflexivity|].
  assert (c' = c) as -> by congruence. assert (x' = x) as -> by congruence.
  pose proof (R _ _ _ M F w) as RO. apply not_alias in L as [_ L]. apply not_alias in L' as [_ L'].
  pose proof (ro_own _ _ _ RO _ _ V L). pose proof (ro_own _ _ _ RO _ _ V' L'). congruence.
Qed.
End Calls.
