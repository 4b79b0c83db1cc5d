(** Lemmas: instructions are numbered in order. *)
From Coq Require Import NArith ZArith Arith List Bool String Lia.
From Verif Require Import M_Base M_Field M_Forms M_Meta M_Extract M_Decoded M_Cache M_Registry M_Trie M_Builder M_DTable M_Direct M_Pseudo M_Context M_Left.
From Verif Require Import S_Bits S_Maps S_Uids S_Trie S_Table S_History S_Context S_Numbers L_Cache L_Registry L_Uids L_Table L_Ids L_Founder L_Context L_CtxUids L_Left.
Import ListNotations.
Local Open Scope N_scope.

Lemma numbered_snoc l : forall known m sh, numbered known (l ++ [(m, sh)]) =
  (numbered known l ++ (if in_dec string_dec m (known ++ map fst l) then [] else if sh then [] else [m]))%list.
Proof.
  induction l as [|[m1 s1] l IH]; intros known m sh; cbn [app numbered map fst].
  - rewrite app_nil_r. destruct (in_dec string_dec m known); [reflexivity|]. destruct sh; reflexivity.
  - assert (EQ : forall (a b : list string) (X Y : list string), (In m a <-> In m b) -> (if in_dec string_dec m a then X else Y) = (if in_dec string_dec m b then X else Y)).
    { intros a b X Y E. destruct (in_dec string_dec m a), (in_dec string_dec m b); try reflexivity; tauto. }
    destruct (in_dec string_dec m1 known) as [I|NI].
    + rewrite IH. f_equal. apply EQ. rewrite !in_app_iff. cbn [In]. intuition congruence.
    + destruct s1; rewrite IH; cbn [app]; f_equal; try f_equal; apply EQ; rewrite !in_app_iff; cbn [In]; rewrite !in_app_iff; tauto.
Qed.

(** A registry that numbers from [st] on. *)
Record counts (user : list string) (st : N) (l : list (string * bool)) (nu : N) (r : instreg) : Prop := mkCounts {
  co_nu : nu = st + N.of_nat (List.length (numbered user l));
  co_at : forall k m, nth_error (numbered user l) k = Some m -> mfind (ir_map r) m = Some (st + N.of_nat k);
  co_dom : forall m, mfind (ir_map r) m <> None <-> In m (user ++ map fst l) }.
Lemma dom_dec (r : instreg) user (l : list (string * bool)) m : (mfind (ir_map r) m <> None <-> In m (user ++ map fst l)) ->
  forall (X Y : list string), (if in_dec string_dec m (user ++ map fst l) then X else Y) = match mfind (ir_map r) m with Some _ => X | None => Y end.
Proof. intros D X Y. destruct (in_dec _ _ _) as [I|I], (mfind (ir_map r) m); try reflexivity; [apply D in I; congruence|]. contradict I. apply D. discriminate. Qed.
Lemma counts_register al user st l nu r m nu' r' uid : 0 < nu < w32 -> reg_ok al nu r -> counts user st l nu r ->
  ir_register r m nu = Ok (nu', r', uid) -> counts user st (l ++ [(m, false)]) nu' r'.
Proof.
  intros [N1 N2] R [C1 C2 C3] H. pose proof (register_ok al nu r m nu' r' uid N2 N1 R H) as (L1 & L2 & _ & F & K1 & K2).
  unfold ir_register in H. pose proof (dom_dec r user l m (C3 m)) as DD.
  assert (D : forall m', mfind (ir_map r') m' <> None <-> In m' (user ++ map fst (l ++ [(m, false)]))).
  { intros m'. rewrite map_app, app_assoc, in_app_iff. cbn [map fst In]. split.
    - intros Q. destruct (mfind (ir_map r') m') as [u|] eqn:E; [|congruence]. apply K2 in E as [E|(-> & _)]; [left; apply C3; congruence|right; now left].
    - intros [Q|[<-|[]]]; [|congruence]. apply C3 in Q. destruct (mfind (ir_map r) m') as [u|] eqn:E; [|congruence]. rewrite (K1 _ _ E). discriminate. }
  destruct (mfind (ir_map r) m) as [u|] eqn:E.
  - assert (nu' = nu) as -> by congruence. assert (r' = r) as -> by congruence.
    split; [| |exact D]; rewrite numbered_snoc, DD, app_nil_r; auto.
  - cbn [advance_uid] in H. destruct (da_add _ _ _) as [a| | |]; cbn [rbind] in H; try discriminate.
    assert (E2 : nu' = u32 (nu + 1)) by congruence.
    assert (E3 : nu' = nu + 1).
    { destruct (N.eq_dec (nu + 1) w32) as [Q|Q]; [rewrite E2, Q in L1; change (u32 w32) with 0 in L1; lia|]. rewrite E2. unfold u32. apply N.mod_small. lia. }
    assert (U : uid = nu) by congruence.
    split; [| |exact D]; rewrite numbered_snoc, DD.
    + rewrite app_length. cbn [List.length]. lia.
    + intros k m' Q. destruct (Nat.lt_ge_cases k (List.length (numbered user l))) as [LT|GE].
      * rewrite nth_error_app1 in Q by exact LT. apply K1. now apply C2.
      * rewrite nth_error_app2 in Q by exact GE. destruct (k - List.length (numbered user l))%nat as [|j] eqn:J; [|destruct j; discriminate Q].
        cbn in Q. assert (m' = m) as -> by congruence. rewrite F, U. f_equal. lia.
Qed.
Lemma counts_alias user st l nu r m uid r' : counts user st l nu r -> ir_alias r m uid nu = Ok r' -> counts user st (l ++ [(m, true)]) nu r'.
Proof.
  intros [C1 C2 C3] H. unfold ir_alias in H. destruct (rassert _); cbn [rbind] in H; try discriminate.
  assert (EQ : numbered user (l ++ [(m, true)]) = numbered user l) by (rewrite numbered_snoc; destruct (in_dec _ _ _); apply app_nil_r).
  assert (DO : forall m', In m' (user ++ map fst (l ++ [(m, true)])) <-> In m' (user ++ map fst l) \/ m' = m).
  { intros m'. rewrite map_app, app_assoc, in_app_iff. cbn [map fst In]. intuition congruence. }
  destruct (mfind (ir_map r) m) as [u|] eqn:E.
  - assert (r' = r) as -> by congruence. split; rewrite ?EQ; auto. intros m'. rewrite DO, C3. split; [tauto|]. intros [?| ->]; [auto|]. apply C3. congruence.
  - destruct (rassert _); cbn [rbind] in H; try discriminate. assert (r' = mkIR (madd (ir_map r) m uid) (ir_arr r)) as -> by congruence. cbn [ir_map].
    split; rewrite ?EQ; auto.
    + intros k m' Q. cbn [ir_map]. rewrite mfind_madd. destruct (String.eqb_spec m m') as [->|NE]; [|auto]. apply C2 in Q. congruence.
    + intros m'. cbn [ir_map]. rewrite DO, mfind_madd. destruct (String.eqb_spec m m') as [->|NE]; [split; [tauto|discriminate]|]. rewrite C3. intuition congruence.
Qed.
Lemma load_above l : forall used nu r nu' r', da_ok (ir_arr r) -> ir_load l used nu r = Ok (nu', r') -> nu' = above l nu.
Proof.
  induction l as [|[m uid] l IH]; intros used nu r nu' r' R H; [cbn in *; congruence|].
  cbn [ir_load] in H. unfold above. cbn [fold_left snd]. fold (above l (N.max (uid + 1) nu)).
  destruct (uid =? INVALID_UID); [discriminate|]. destruct (existsb _ used); [discriminate|].
  destruct (mfind (ir_map r) m) eqn:F; [discriminate|]. destruct (da_add _ _ _) as [arr| | |] eqn:D; cbn [rbind] in H; try discriminate.
  pose proof (da_add_lt _ _ _ _ R D) as B. apply da_add_spec in D as (O & _); [|exact R].
  assert (EA : allocate_uid nu uid = N.max (uid + 1) nu) by (unfold allocate_uid, u32; rewrite N.mod_small; [reflexivity|unfold w32 in *; lia]).
  rewrite EA in H. refine (IH _ _ _ _ _ _ H). exact O.
Qed.
Lemma above_le l : forall n, n <= above l n.
Proof. induction l as [|p l IH]; intros n; [apply N.le_refl|]. unfold above. cbn [fold_left]. fold (above l (N.max (snd p + 1) n)). specialize (IH (N.max (snd p + 1) n)). lia. Qed.
Lemma above_top l : forall n p, In p l -> snd p + 1 <= above l n.
Proof.
  induction l as [|q l IH]; intros n p I; [destruct I|]. unfold above. cbn [fold_left]. fold (above l (N.max (snd q + 1) n)). destruct I as [<-|I]; [|now apply IH].
  pose proof (above_le l (N.max (snd q + 1) n)). lia.
Qed.
Lemma above_same l : forall n, (forall p, In p l -> snd p + 1 <= n) -> above l n = n.
Proof.
  induction l as [|q l IH]; intros n H; [reflexivity|]. unfold above. cbn [fold_left]. fold (above l (N.max (snd q + 1) n)).
  pose proof (H q (or_introl eq_refl)). rewrite N.max_r by lia. apply IH. intros p I. apply H. now right.
Qed.
Lemma above_again l n k : above l n <= k -> above l k = k.
Proof. intros H. apply above_same. intros p I. pose proof (above_top l n p I). lia. Qed.

Lemma new_counts uids nu nu1 r1 : 0 < nu < w32 -> ir_new uids nu = Ok (nu1, r1) ->
  nu1 = above uids nu /\ 0 < nu1 < w32 /\ reg_ok (fun _ => False) nu1 r1 /\ counts (map fst uids) nu1 [] nu1 r1.
Proof.
  intros N H. pose proof H as HN. apply new_grows in HN as (L1 & L2 & R & _); [|exact N]. unfold ir_new in H.
  assert (E : nu1 = above uids nu) by (eapply load_above; [|exact H]; cbn [ir_arr]; apply da_new_ok; vm_compute; intuition discriminate).
  split; [exact E|]. split; [lia|]. split; [exact R|]. apply load_ok in H as (_ & _ & _ & K1 & _ & K2); [|exact N| |discriminate].
  2:{ split; cbn [ir_map ir_arr]; try discriminate; [apply da_new_ok; vm_compute; intuition discriminate|..]; intros u m Q; unfold da_slot, da_new in Q; destruct u; discriminate. }
  split; cbn [numbered map List.length].
  - cbn. lia.
  - intros [|k] m Q; discriminate Q.
  - intros m. rewrite app_nil_r, in_map_iff. split.
    + intros Q. destruct (mfind (ir_map r1) m) as [u|] eqn:F; [|congruence]. apply K1 in F as [F|F]; [discriminate F|]. exists (m, u). auto.
    + intros ((m' & u) & E1 & I). cbn in E1. subst m'. rewrite (K2 _ _ I). discriminate.
Qed.

(** ** The decoder *)
Section Decoder.
Context (user : list string) (st : N) (nu1 : N) (r1 : instreg).
Definition told (P : list irec) : list (string * bool) := ("nop"%string, false) :: ("cmov"%string, false) :: flat_map mentions P.
Definition kinv (P : list irec) (b : builder) : Prop := binv nu1 r1 P b /\ counts user st (told P) (b_nu b) (b_inst b).
Lemma told_snoc P r m sh : mentions r = [(m, sh)] -> told (P ++ [r]) = (told P ++ [(m, sh)])%list.
Proof. intros M. unfold told. rewrite flat_map_app. cbn [flat_map]. rewrite M, app_nil_r. reflexivity. Qed.
Lemma kinv_metas P b mn (m : meta) : kinv P b -> kinv P (set_metas b (madd (b_metas b) mn m)).
Proof. intros H. exact H. Qed.
Lemma binv_lt P b : binv nu1 r1 P b -> 0 < b_nu b < w32.
Proof. intros [N G]. pose proof (gr_le _ _ _ _ _ G). pose proof (gr_lt _ _ _ _ _ G). lia. Qed.
Lemma kinv_bld P b r mn m b' i : is_inst r mn -> own_meta r = Ok m -> kinv P b -> bld b mn (fname_of r mn) (r_expand r) (r_stencil r) m = Ok (b', i) -> kinv (P ++ [r]) b'.
Proof.
  intros HI _ [B C] H. split; [exact (binv_bld nu1 r1 P b r mn _ m b' i HI B H)|]. destruct HI as [M O]. pose proof (binv_lt P b B) as L. destruct B as [_ G].
  apply bld_inst in H as [(X & uid & H)|(X & EN & uid & H)].
  - rewrite (told_snoc P r mn false) by (unfold mentions; rewrite M, O, X; reflexivity). eapply counts_register; [exact L|apply G|exact C|exact H].
  - rewrite (told_snoc P r mn true), EN by (unfold mentions; rewrite M, O; destruct (String.eqb_spec (r_expand r) ""); [contradiction|reflexivity]). eapply counts_alias; [exact C|exact H].
Qed.
Lemma kinv_overlay P b r mn o x b' : r_mn r = Some mn -> r_overlay r = Some o -> kinv P b -> build_overlay b mn o r x = Ok b' -> kinv (P ++ [r]) b'.
Proof.
  intros M O [B C] H. split; [exact (binv_overlay nu1 r1 P b r mn o x b' M O B H)|]. pose proof (binv_lt P b B) as L. destruct B as [_ G].
  apply overlay_inst in H as (uid & H). rewrite (told_snoc P r mn false) by (unfold mentions; rewrite M, O; reflexivity).
  eapply counts_register; [exact L|apply G|exact C|exact H].
Qed.
End Decoder.
Lemma mentions_filter l : flat_map mentions (filter has_mn l) = flat_map mentions l.
Proof. induction l as [|r l IH]; [reflexivity|]. cbn [filter flat_map]. unfold has_mn at 1, mentions at 2. destruct (r_mn r) eqn:M; cbn [flat_map]; [|exact IH]. rewrite IH. unfold mentions at 1. rewrite M. reflexivity. Qed.
Lemma decoder_counts uids annos nu incl excl recs s : 0 < nu < w32 -> make_decoder uids annos nu incl excl recs = Ok s ->
  counts (map fst uids) (above uids nu) (told (kept incl excl recs)) (b_nu (fst s)) (b_inst (fst s)) /\ b_nu (fst s) < w32.
Proof.
  intros N H. unfold make_decoder in H. destruct (builder_new uids annos nu) as [b0| | |] eqn:E; cbn [rbind] in H; try discriminate.
  unfold builder_new in E. destruct (ir_new uids nu) as [[nu1 r1]| | |] eqn:EN; cbn [rbind] in E; try discriminate.
  apply new_counts in EN as (-> & L & R & C); [|exact N]. set (nu1 := above uids nu) in *. set (bb := mkB _ _ _ _ _ _ _) in E.
  assert (R' : reg_ok (expanded []) nu1 r1) by (eapply reg_ok_weaken; [|apply N.le_refl|exact R]; intros ? []).
  assert (B0 : binv nu1 r1 [] bb) by (split; [exact (proj1 L)|]; apply grows_refl; [exact (proj2 L)|exact R']).
  assert (CU : forall b mn ty b' l, binv nu1 r1 [] b -> counts (map fst uids) nu1 l (b_nu b) (b_inst b) -> add_custom b mn ty = Ok b' ->
    binv nu1 r1 [] b' /\ counts (map fst uids) nu1 (l ++ [(mn, false)]) (b_nu b') (b_inst b')).
  { intros b mn ty b' l [N0 G] CC K. apply custom_inst in K as (uid & K).
    pose proof (gr_le _ _ _ _ _ G). pose proof (gr_lt _ _ _ _ _ G).
    split; [split; [auto|]; eapply grows_trans; [exact G|]; eapply grows_register; [lia|apply G|exact K]|].
    eapply counts_register; [|apply G|exact CC|exact K]. lia. }
  destruct (add_custom bb "nop" _) as [b1| | |] eqn:E1; cbn [rbind] in E; try discriminate.
  apply (CU _ _ _ _ []) in E1 as [B1 C1]; [|exact B0|exact C]. apply (CU _ _ _ _ _ B1 C1) in E as [B2 C2]. cbn [app] in C2.
  pose proof (configure_keep_own (kinv (map fst uids) nu1 nu1 r1) (kinv_metas _ _ _ _) (kinv_bld _ _ _ _) (kinv_overlay _ _ _ _) incl excl recs [] (b0, tree_new) s (conj B2 C2) H) as [B3 C3].
  split; [|exact (proj2 (binv_lt _ _ _ _ B3))]. cbn [app] in C3. unfold told in *. rewrite mentions_filter in C3. exact C3.
Qed.
Definition ptold (l : list prec) : list (string * bool) := flat_map (fun r => match r_pseudo (fst r) with Some m => [(m, false)] | None => [] end) l.
Lemma pseudos_counts uids annos nu recs b : 0 < nu < w32 -> make_pseudos uids annos nu recs = Ok b ->
  counts (map fst uids) (above uids nu) (ptold recs) (pb_nu b) (pb_inst b) /\ pb_nu b < w32.
Proof.
  intros N H. unfold make_pseudos, pbuilder_new in H. destruct (ir_new uids nu) as [[nu1 r1]| | |] eqn:EN; cbn [rbind] in H; try discriminate.
  apply new_counts in EN as (-> & L & R & C); [|exact N]. set (nu1 := above uids nu) in *. set (bb := mkPB _ _ _ _ _ _ _) in H.
  (* the names registered are those of the factories *)
  assert (K : forall todo done b0, counts (map fst uids) nu1 (ptold done) (pb_nu b0) (pb_inst b0) /\ 0 < pb_nu b0 < w32 /\ reg_ok (fun _ => False) (pb_nu b0) (pb_inst b0) /\
      (forall m i, pfind b0 m = Some i -> mfind (pb_metas b0) m <> None) ->
    pconfigure todo b0 = Ok b -> counts (map fst uids) nu1 (ptold (done ++ todo)) (pb_nu b) (pb_inst b) /\ pb_nu b < w32).
  2:{ apply (K recs [] bb); [|exact H]. split; [exact C|]. split; [exact L|]. split; [exact R|]. intros m i Q. discriminate Q. }
  clear H C R bb r1. induction todo as [|r todo IH]; intros done b0 (C & L2 & R & F) H; cbn [pconfigure] in H.
  - assert (b = b0) as -> by congruence. rewrite app_nil_r. split; [exact C|lia].
  - destruct (ppseudo b0 r) as [b1| | |] eqn:E; cbn [rbind] in H; try discriminate.
    replace (done ++ r :: todo)%list with ((done ++ [r]) ++ todo)%list by (rewrite <- app_assoc; reflexivity). apply (IH (done ++ [r])%list b1); [|exact H]. clear IH H.
    assert (PT : ptold (done ++ [r]) = (ptold done ++ match r_pseudo (fst r) with Some m => [(m, false)] | None => [] end)%list) by (unfold ptold; rewrite flat_map_app; cbn [flat_map]; now rewrite app_nil_r).
    rewrite PT. unfold ppseudo in E. destruct (r_pseudo (fst r)) as [mn|]; [|assert (b1 = b0) as -> by congruence; rewrite app_nil_r; auto].
    destruct (make_meta _ _ _) as [m| | |]; cbn [rbind] in E; try discriminate. destruct (mfind (pb_metas b0) mn) eqn:FM; [discriminate|].
    destruct (make_gform _ _) as [g| | |]; cbn [rbind] in E; try discriminate. unfold pbuild in E. unfold pfind in E, F. cbn [pb_inst pb_nu pb_reg pb_metas pb_facts pb_annos pb_stash] in E.
    destruct (mfind (pb_reg b0) mn) as [i|] eqn:FI; [exfalso; exact (F _ _ FI FM)|].
    destruct (ir_register _ _ _) as [[[nu' r'] uid]| | |] eqn:ER; cbn [rbind] in E; try discriminate.
    match type of E with Ok ?x = _ => assert (b1 = x) as -> by congruence end. unfold pfind. cbn [pb_nu pb_inst pb_reg pb_metas fst snd].
    pose proof (grows_register _ _ _ _ _ _ _ L2 R ER) as G. pose proof (gr_le _ _ _ _ _ G). pose proof (gr_lt _ _ _ _ _ G).
    split; [eapply counts_register; [exact L2|exact R|exact C|exact ER]|]. split; [lia|]. split; [apply G|].
    intros m' i. rewrite !mfind_madd. destruct (String.eqb mn m'); [discriminate|]. apply F.
Qed.
(** ** Contexts *)
Section Contexts.
Context {A U : Type} (u0 : U).
Lemma context_counts c nu (x : ctxt A U) nu' : 0 < nu < w32 -> make_context c nu = Ok (x, nu') ->
  (forall w k m, nth_error (names_of w c) k = Some m -> mfind (ir_map (reg_of x w)) m = Some (number c nu w k)) /\ nu' = used_up c nu /\ nu <= nu' < w32.
Proof.
  intros N H. unfold make_context in H. destruct (ir_new (c_uids c) nu); cbn [rbind] in H; try discriminate.
  destruct (anno_files _ _ _) as [annos| | |]; cbn [rbind] in H; try discriminate. destruct (make_decoder _ _ _ _ _ _) as [s| | |] eqn:E; cbn [rbind] in H; try discriminate.
  destruct (ir_new (c_uids c) (b_nu (fst s))); cbn [rbind] in H; try discriminate. destruct (anno_files _ _ _) as [pannos| | |]; cbn [rbind] in H; try discriminate.
  destruct (make_pseudos _ _ _ _) as [pb| | |] eqn:EP; cbn [rbind] in H; try discriminate.
  assert (x = mkCx (dt_new s) pb) as -> by congruence. assert (nu' = pb_nu pb) as -> by congruence. clear H.
  apply decoder_counts in E as [[C1 C2 C3] L]; [|exact N]. pose proof (above_le (c_uids c) nu) as L0.
  assert (N2 : 0 < b_nu (fst s) < w32) by lia. apply pseudos_counts in EP as [[D1 D2 D3] L2]; [|exact N2].
  rewrite (above_again (c_uids c) nu (b_nu (fst s))) in * by lia.
  fold (instruction_names c) in *. 
  change (numbered (map fst (c_uids c)) (told (kept (c_incl c) (c_excl c) (map fst (c_recs c))))) with (instruction_names c) in *.
  change (numbered (map fst (c_uids c)) (ptold (c_recs c))) with (pseudo_names c) in *.
  split; [|split].
  - intros [] k m Q; cbn [names_of reg_of number cx_dt cx_pb] in *.
    + etransitivity; [exact (C2 _ _ Q)|]. f_equal. unfold number. lia.
    + rewrite (D2 _ _ Q). f_equal. unfold number. lia.
  - unfold used_up. lia.
  - lia.
Qed.
Lemma find_says (g : mavis A U) X w m x u : mfind (mv_reg g) X = Some x -> mfind (ir_map (reg_of x w)) m = Some u -> says u0 g X w m u.
Proof.
  intros F Q. assert (V : ir_uid (reg_of x w) m = u) by (unfold ir_uid; now rewrite Q). unfold says. cbn [grun gstep]. rewrite F. cbn [mv_cur mv_reg mv_nu]. rewrite F.
  destruct w; cbn [question cstep reg_of] in *; cbn [rbind snd]; rewrite <- V; reflexivity.
Qed.
Record minv (nu0 : N) (done : list (string * config)) (g : mavis A U) : Prop := mkMI {
  mi_nu : mv_nu g = used_by (map snd done) nu0;
  mi_lt : 0 < mv_nu g < w32;
  mi_at : forall before X c after, done = (before ++ (X, c) :: after)%list -> exists x, mfind (mv_reg g) X = Some x /\
    forall w k m, nth_error (names_of w c) k = Some m -> mfind (ir_map (reg_of x w)) m = Some (number c (used_by (map snd before) nu0) w k) }.
Lemma used_snoc cs c n : used_by (cs ++ [c]) n = used_up c (used_by cs n).
Proof. unfold used_by. now rewrite fold_left_app. Qed.
Lemma minv_make nu0 done (g : mavis A U) n c x nu : minv nu0 done g -> mfind (mv_reg g) n = None -> make_context c (mv_nu g) = Ok (x, nu) ->
  minv nu0 (done ++ [(n, c)]) (mkMV nu (madd (mv_reg g) n x) (mv_cur g)).
Proof.
  intros [I1 I2 I3] F H. apply context_counts in H as (K & -> & L); [|exact I2]. constructor; cbn [mv_nu mv_reg].
  - rewrite map_app. cbn [map snd]. rewrite used_snoc, I1. reflexivity.
  - lia.
  - intros before X c1 after E. destruct after as [|q after _] using rev_ind.
    + apply app_inj_tail in E as [-> E]. assert (X = n) as -> by congruence. assert (c1 = c) as -> by congruence. exists x.
      rewrite mfind_madd, String.eqb_refl. split; [reflexivity|]. rewrite <- I1. exact K.
    + rewrite app_comm_cons, app_assoc in E. apply app_inj_tail in E as [E _]. destruct (I3 _ _ _ _ E) as (x1 & F1 & K1). exists x1.
      rewrite mfind_madd. destruct (String.eqb_spec n X) as [->|_]; [congruence|]. auto.
Qed.
Lemma minv_call nu0 done (g : mavis A U) o : minv nu0 done g -> no_record (GCall o) -> minv nu0 done (fst (gstep u0 g (GCall o))).
Proof.
  intros I NR. cbn [gstep]. destruct (mfind (mv_reg g) (mv_cur g)) as [x|] eqn:F; [|exact I].
  assert (S : forall d : dt A U, forall o, match o with OTrace _ _ _ _ => False | _ => True end -> same_reg (dt_b d) (dt_b (fst (step u0 d o)))).
  { intros d p NT. assert (S : forall d' : dt A U, dt_b d' = dt_b d -> same_reg (dt_b d) (dt_b d')) by (intros d' ->; split; reflexivity).
    destruct p as [ic|ic a|ic mn y a|mn uid y a|k mn y| |k u|k]; cbn [step].
    - pose proof (get_info_b d ic) as Q. destruct (get_info d ic) as [d1 [v| | |]]; apply S; exact Q.
    - apply S. rewrite lift_obj_b. apply make_inst_b.
    - destruct NT.
    - rewrite lift_obj_b. apply directly_b.
    - destruct (held d k); [|apply S; reflexivity]. apply S. rewrite lift_unit_b. apply morph_b.
    - apply S. rewrite lift_unit_b. apply flush_b.
    - destruct (held d k) as [i|]; [|apply S; reflexivity]. destruct (dt_heap d i); apply S; reflexivity.
    - destruct (held d k) as [i|]; [|apply S; reflexivity]. destruct (dt_heap d i); apply S; reflexivity. }
  assert (Q : ctxt_nu (fst (cstep u0 (ctxt_at x (mv_nu g)) o)) = mv_nu g /\ forall w, reg_of (fst (cstep u0 (ctxt_at x (mv_nu g)) o)) w = reg_of x w).
  { destruct o as [p|p|mn|uid|mn|uid|mn]; try (split; [reflexivity|intros []; reflexivity]).
    - cbn [cstep]. specialize (S (cx_dt (ctxt_at x (mv_nu g))) p). destruct (step u0 (cx_dt (ctxt_at x (mv_nu g))) p) as [d a]. cbn [fst] in *.
      assert (NT : match p with OTrace _ _ _ _ => False | _ => True end) by (destruct p; exact NR). specialize (S NT). destruct S as [S1 S2].
      unfold ctxt_nu. split; [cbn [cx_dt]; exact S2 || exact S1|]. intros []; cbn [reg_of cx_dt cx_pb]; [exact S1 || exact S2|reflexivity].
    - cbn [cstep]. pose proof (pseudo_inst (cx_pb (ctxt_at x (mv_nu g))) p) as PI. destruct (make_pseudo (cx_pb (ctxt_at x (mv_nu g))) p) as [pb v]. cbn [fst] in *.
      split; [reflexivity|]. intros []; [reflexivity|exact PI]. }
  destruct (cstep u0 (ctxt_at x (mv_nu g)) o) as [x' a]. cbn [fst] in *. destruct Q as [Q1 Q2]. destruct I as [I1 I2 I3].
  constructor; cbn [mv_nu mv_reg]; [congruence|congruence|]. intros before X c after E. destruct (I3 _ _ _ _ E) as (y & F1 & K1). rewrite mfind_madd.
  destruct (String.eqb_spec (mv_cur g) X) as [<-|_]; [|exists y; auto]. exists x'. split; [reflexivity|]. intros w k m H. rewrite Q2. assert (y = x) as -> by congruence. now apply K1.
Qed.
Lemma made_nil (ops : list (gop A U)) : made ops [] = [].
Proof. destruct ops as [|[]]; reflexivity. Qed.
Lemma minv_run nu0 ops : forall done names (g : mavis A U), minv nu0 done g -> (forall n, In n names -> In n (map fst done)) -> Forall no_record ops ->
  only_taken names ops (snd (mrun u0 g ops)) -> minv nu0 (done ++ made ops (snd (mrun u0 g ops))) (fst (mrun u0 g ops)).
Proof.
  induction ops as [|o ops IH]; intros done names g I HN NR H; [cbn; rewrite app_nil_r; exact I|]. inversion NR as [|? ? N1 N2]; subst. clear NR. cbn [mrun] in *.
  destruct o as [n c nu'|n|n|p].
  - unfold mstep in *. cbn [gstep] in *. destruct (mfind (mv_reg g) n) as [x0|] eqn:F.
    + specialize (IH done names g I HN N2). destruct (mrun u0 g ops) as [g1 l1]. cbn [fst snd made only_taken] in *. apply IH, H.
    + destruct (make_context c (mv_nu g)) as [[x nu]|e| |] eqn:E.
      * specialize (IH _ (n :: names) _ (minv_make nu0 done g n c x nu I F E)). destruct (mrun u0 _ ops) as [g1 l1]. cbn [fst snd made only_taken] in *.
        rewrite <- app_assoc in IH. apply IH; [|exact N2|exact H]. intros k [<-|J]; rewrite map_app, in_app_iff; [right; now left|left; auto].
      * exfalso. destruct (mrun u0 _ ops) as [g1 l1]. cbn [snd only_taken] in H. destruct H as [H _]. apply HN, in_map_iff in H as ([k c1] & E1 & J). cbn [fst] in E1. subst k.
        apply in_split in J as (b1 & b2 & J). destruct (mi_at _ _ _ I _ _ _ _ J) as (y & Y & _). congruence.
      * cbn [fst snd made]. rewrite made_nil, app_nil_r. exact I.
      * cbn [fst snd made]. rewrite made_nil, app_nil_r. exact I.
  - unfold mstep in *. cbn [gstep] in *. destruct (mfind (mv_reg g) n) as [x0|] eqn:F.
    + assert (I2 : minv nu0 done (mkMV (mv_nu g) (mv_reg g) n)) by (destruct I as [I1 I2 I3]; constructor; assumption).
      specialize (IH _ names _ I2 HN N2). destruct (mrun u0 _ ops) as [g1 l1]. cbn [fst snd made only_taken] in *. apply IH, H.
    + specialize (IH _ names _ I HN N2). destruct (mrun u0 _ ops) as [g1 l1]. cbn [fst snd made only_taken] in *. apply IH, H.
  - unfold mstep in *. cbn [gstep] in *. specialize (IH _ names _ I HN N2). destruct (mrun u0 _ ops) as [g1 l1]. cbn [fst snd made only_taken] in *. apply IH, H.
  - unfold mstep in *. pose proof (minv_call nu0 done g p I N1) as I2. destruct (gstep u0 g (GCall p)) as [g' a]. cbn [fst] in I2. specialize (IH _ names _ I2 HN N2).
    destruct a as [v|e| |]; [| |cbn [fst snd made]; rewrite made_nil, app_nil_r; exact I2|cbn [fst snd made]; rewrite made_nil, app_nil_r; exact I2]; destruct (mrun u0 g' ops) as [g1 l1]; cbn [fst snd made only_taken] in *; apply IH, H.
Qed.
Lemma numbers_lemma c0 nu0 (g0 : mavis A U) (ops : list (gop A U)) : 0 < nu0 < 2 ^ 32 -> mavis_new c0 nu0 = Ok g0 ->
  let run := mrun u0 g0 ops in Forall no_record ops -> only_taken ["BASE"%string] ops (snd run) ->
  forall before X c after, (("BASE"%string, c0) :: made ops (snd run) = before ++ (X, c) :: after)%list ->
  forall w k m, nth_error (names_of w c) k = Some m -> says u0 (fst run) X w m (number c (used_by (map snd before) nu0) w k).
Proof.
  intros N H run NR OT before X c after E w k m Q.
  assert (I0 : minv nu0 [("BASE"%string, c0)] g0).
  { unfold mavis_new in H. destruct (make_context c0 nu0) as [[x nu]| | |] eqn:EM; cbn [rbind] in H; try discriminate.
    assert (g0 = mkMV nu [("BASE"%string, x)] "BASE") as -> by congruence.
    apply (minv_make nu0 [] (mkMV nu0 [] "BASE") "BASE" c0 x nu); [|reflexivity|exact EM].
    constructor; cbn [mv_nu mv_reg]; [reflexivity|exact N|]. intros b1 ? ? ? EE. destruct b1; discriminate EE. }
  pose proof (minv_run nu0 ops _ ["BASE"%string] g0 I0 (fun n J => J) NR OT) as [_ _ K]. destruct (K _ _ _ _ E) as (x & F & K2). exact (find_says _ _ _ _ x _ F (K2 _ _ _ Q)).
Qed.
End Contexts.
