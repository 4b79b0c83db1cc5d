(** Lemmas: the UID counter after the construction of a context. *)
From Coq Require Import NArith ZArith Arith List Bool String Lia.
From Verif Require Import M_Base M_Field M_Forms M_Meta M_Extract M_Decoded M_Cache M_Registry M_Trie M_Builder M_DTable M_Direct M_Pseudo M_Context M_Left.
From Verif Require Import S_Bits S_Maps S_Uids S_Trie S_Table S_History S_Context L_Cache L_Registry L_Uids L_Table L_Ids L_Context L_CtxUids.
Import ListNotations.
Local Open Scope N_scope.

Lemma allocate_le nu uid : nu < w32 -> nu <= allocate_uid nu uid /\ allocate_uid nu uid < w32.
Proof.
  intros H. unfold allocate_uid, u32. assert ((uid + 1) mod w32 < w32) by (apply N.mod_lt; discriminate). unfold w32 in *. lia.
Qed.
Lemma load_left_le l : forall used nu r, nu < w32 -> nu <= load_left l used nu r /\ load_left l used nu r < w32.
Proof.
  induction l as [|[m uid] l IH]; intros used nu r N; cbn [load_left]; [lia|].
  destruct (uid =? INVALID_UID); [lia|]. destruct (existsb _ used); [lia|]. pose proof (allocate_le nu uid N) as [A B].
  destruct (mfind (ir_map r) m); [lia|]. destruct (da_add _ _ _) as [arr| | |]; [|lia..].
  destruct (IH (uid :: used) _ (mkIR (madd (ir_map r) m uid) arr) B). lia.
Qed.
Lemma new_left_le uids nu : nu < w32 -> nu <= new_left uids nu /\ new_left uids nu < w32.
Proof. apply load_left_le. Qed.
Lemma load_left_ok l : forall used nu r nu' r', ir_load l used nu r = Ok (nu', r') -> load_left l used nu r = nu'.
Proof.
  induction l as [|[m uid] l IH]; intros used nu r nu' r' H; cbn [ir_load load_left] in *; [congruence|].
  destruct (uid =? INVALID_UID); [discriminate|]. destruct (existsb _ used); [discriminate|].
  destruct (mfind (ir_map r) m); [discriminate|]. destruct (da_add _ _ _) as [arr| | |]; cbn [rbind] in H; try discriminate. eapply IH; exact H.
Qed.

Section Decoder.
Context (nu1 : N) (r1 : instreg).
Notation inv := (binv nu1 r1).
Lemma inv_nu P b : inv P b -> nu1 <= b_nu b /\ b_nu b < w32.
Proof. intros [_ G]. split; [exact (gr_le _ _ _ _ _ G)|exact (gr_lt _ _ _ _ _ G)]. Qed.
Lemma overlay_left_le P b mn o r : inv P b -> nu1 <= overlay_left b mn o r /\ overlay_left b mn o r < w32.
Proof.
  intros I. pose proof (inv_nu P b I) as B. unfold overlay_left. destruct (overlay_parse o) as [[[base mask] v]| | |]; [|exact B..].
  destruct (mfind (b_metas b) base) as [bm|]; [|exact B]. destruct (meta_overrides _ _ bm); [|exact B..].
  destruct (register_inst b mn) as [[b' uid]| | |] eqn:E; [|exact B..]. apply reg_inst in E. destruct I as [N G].
  assert (G2 : grows (expanded P) (b_nu b) (b_inst b) (b_nu b') (b_inst b')) by (eapply grows_register; [lia|apply G|exact E]).
  pose proof (gr_le _ _ _ _ _ G2). pose proof (gr_lt _ _ _ _ _ G2). lia.
Qed.
Lemma leaf_left_own b fm mn st fl fname xp x m c c' nu' : leaf_left b fm mn st fl fname xp x m c = Ok (c', nu') ->
  exists m' b1 b2 i, (b1 = b \/ b1 = set_metas b (madd (b_metas b) mn m')) /\ bld b1 mn fname xp st m' = Ok (b2, i) /\ nu' = b_nu b2.
Proof.
  unfold leaf_left. match goal with |- rbind ?q _ = _ -> _ => destruct q as [y| | |]; cbn [rbind]; try discriminate end.
  destruct c as [? ? ?|tab d]; [discriminate|].
  match goal with |- rbind ?q _ = _ -> _ => destruct q as [tab'| | |]; cbn [rbind]; try discriminate end.
  match goal with |- rbind (bld ?b1 _ _ _ _ ?m1) _ = _ -> _ => destruct (bld b1 mn fname xp st m1) as [[b2 i]| | |] eqn:E; cbn [rbind]; try discriminate; intros H; exists m1, b1, b2, i end.
  split; [destruct fl; auto|]. split; [exact E|]. congruence.
Qed.
Lemma parse_left_le P r mn s : r_mn r = Some mn -> inv P (fst s) -> nu1 <= parse_left s r mn /\ parse_left s r mn < w32.
Proof.
  intros M I. pose proof (inv_nu P _ I) as B. unfold parse_left.
  match goal with |- context [match ?q with Ok _ => _ | Throw _ => _ | AssertFail => _ | UB => _ end] => destruct q as [x| | |]; [|exact B..] end.
  destruct (r_overlay r) as [o|] eqn:EO; [now apply (overlay_left_le P)|].
  match goal with |- context [rbind ?q _] => destruct q as [fm| | |] eqn:EF; cbn [rbind]; [|exact B..] end.
  destruct (make_inst_meta (fst s) mn _ _ _) as [[b m]| | |] eqn:E; cbn [rbind]; [|exact B..].
  destruct (build_tree _ _ _ _ (snd s)) as [[t nu']| | |] eqn:T; [|exact B..].
  apply build_tree_leaf in T as (c & c' & T). apply leaf_left_own in T as (m' & b1 & b2 & i & E1 & E2 & ->).
  apply (inv_nu (P ++ [r])). eapply (binv_bld nu1 r1 P b1); [split; [exact M|exact EO]| |exact E2].
  assert (I0 : inv P b).
  { unfold make_inst_meta in E. destruct (make_meta _ _ _) as [m0| | |]; cbn [rbind] in E; try discriminate.
    destruct (mfind (b_metas (fst s)) mn); [discriminate|]. match type of E with Ok (?y, _) = _ => assert (b = y) as -> by congruence end. now apply binv_metas. }
  destruct E1 as [->| ->]; [exact I0|now apply binv_metas].
Qed.
Lemma configure_left_le incl excl recs : forall P s, inv P (fst s) -> nu1 <= configure_left incl excl recs s /\ configure_left incl excl recs s < w32.
Proof.
  induction recs as [|r recs IH]; intros P s I; cbn [configure_left]; [exact (inv_nu P _ I)|].
  destruct (r_mn r) as [mn|] eqn:M.
  - destruct (tag_filter _ _ _); [|exact (IH P s I)].
    destruct (parse_inst s r mn) as [s1| | |] eqn:E; [|exact (parse_left_le P r mn s M I)..].
    apply (IH (P ++ [r])%list). exact (parse_keep inv (binv_metas nu1 r1) (binv_bld nu1 r1) (binv_overlay nu1 r1) P r mn s s1 M I E).
  - destruct (r_pseudo r); [exact (IH P s I)|exact (inv_nu P _ I)].
Qed.
End Decoder.

(** The counter that a record leaves when it is accepted. *)
Lemma descend_probe {A B} ign st (leaf : node -> res (node * A)) (probe : node -> res (node * B)) (f : A -> B) :
  (forall c c' a, leaf c = Ok (c', a) -> exists c'', probe c = Ok (c'', f a)) ->
  forall fs c c' a, descend ign st leaf fs c = Ok (c', a) -> exists c'', descend ign st probe fs c = Ok (c'', f a).
Proof.
  intros L. induction fs as [|fd fs IH]; intros c c' a H; cbn [descend] in *; [discriminate|].
  destruct c as [g tab d|]; [|discriminate]. destruct (negb _); [discriminate|].
  destruct fs as [|f2 fs]; destruct (is_ignored _ _); cbv beta zeta iota in *;
    match type of H with rbind ?e _ = _ => destruct e as [[n y]| | |] eqn:E; cbn [rbind] in H; try discriminate end;
    [apply L in E as [n' E]|apply L in E as [n' E]|apply IH in E as [n' E]|apply IH in E as [n' E]];
    rewrite E; cbn [rbind]; assert (y = a) as -> by congruence; eauto.
Qed.
Lemma tree_probe {A B} fm ign st (leaf : node -> res (node * A)) (probe : node -> res (node * B)) (f : A -> B) t t' a :
  (forall c c' a, leaf c = Ok (c', a) -> exists c'', probe c = Ok (c'', f a)) ->
  build_tree fm ign st leaf t = Ok (t', a) -> exists t'', build_tree fm ign st probe t = Ok (t'', f a).
Proof.
  intros L. unfold build_tree. destruct (fm_ocfields fm) as [|f0 fr]; [discriminate|]. destruct (root_class st) as [c|]; [|discriminate].
  destruct (descend ign st leaf _ _) as [[n y]| | |] eqn:E; cbn [rbind]; try discriminate. intros H. assert (y = a) as -> by congruence.
  destruct (descend_probe ign st leaf probe f L _ _ _ _ E) as [n' ->]. cbn [rbind]. eauto.
Qed.
Lemma leaf_probe b fm mn st fl fname xp x m c c' a : build_leaf b fm mn st fl fname xp x m None c = Ok (c', a) ->
  exists c'', leaf_left b fm mn st fl fname xp x m c = Ok (c'', b_nu (fst (fst a))).
Proof.
  unfold build_leaf, leaf_left. match goal with |- rbind ?q _ = _ -> _ => destruct q as [y| | |]; cbn [rbind]; try discriminate end.
  destruct c as [? ? ?|tab d]; [discriminate|].
  match goal with |- rbind ?q _ = _ -> _ => destruct q as [tab'| | |]; cbn [rbind]; try discriminate end.
  match goal with |- rbind ?q _ = _ -> _ => destruct q as [[b2 i]| | |]; cbn [rbind]; try discriminate end.
  destruct (sp_place _ _ _ _ _) as [[p al]| | |]; cbn [rbind]; try discriminate. intros H.
  assert (a = (b2, i, al)) as -> by congruence. eauto.
Qed.
Lemma aliases_nu fm mn fl ign fname xp x m i sts : forall s s', build_aliases fm mn fl ign fname xp x m i sts s = Ok s' -> b_nu (fst s') = b_nu (fst s).
Proof.
  induction sts as [|st sts IH]; intros [b t] s' H; cbn [build_aliases fst snd] in H; [assert (s' = (b, t)) as -> by congruence; reflexivity|].
  destruct (build_tree _ _ _ _ t) as [[t1 [[b1 i1] al]]| | |] eqn:E; cbn [rbind] in H; try discriminate.
  apply build_tree_leaf in E as (c & c' & E). apply leaf_shared in E. assert (K : b_nu b1 = b_nu b) by (destruct E as [->|(m' & ->)]; reflexivity).
  destruct al; [assert (s' = (b1, t1)) as -> by congruence; exact K|]. rewrite (IH _ _ H). exact K.
Qed.
Lemma parse_left_ok s r mn s' : parse_inst s r mn = Ok s' -> parse_left s r mn = b_nu (fst s').
Proof.
  unfold parse_inst, parse_left. match goal with |- rbind ?q _ = _ -> _ => destruct q as [x| | |]; cbn [rbind]; try discriminate end.
  destruct (r_overlay r) as [o|].
  - destruct (build_overlay (fst s) mn o r x) as [b| | |] eqn:E; cbn [rbind]; try discriminate. intros H.
    assert (s' = (b, snd s)) as -> by congruence. cbn [fst]. unfold build_overlay, overlay_left in *.
    destruct (overlay_parse o) as [[[base mask] v]| | |]; cbn [rbind] in E; try discriminate.
    destruct (mfind (b_metas (fst s)) base) as [bm|]; [|discriminate].
    destruct (meta_overrides _ _ bm) as [m| | |]; cbn [rbind] in E; try discriminate.
    destruct (register_inst (fst s) mn) as [[b1 uid]| | |]; cbn [rbind] in E; try discriminate.
    destruct (_ && _)%bool; [discriminate|]. destruct (find_ifact b1 base) as [i|]; [|discriminate]. apply upd_inst in E as [N _]. now rewrite N.
  - destruct (r_form r) as [fn|]; [|discriminate]. destruct (get_form fn) as [fm| | |]; cbn [rbind]; try discriminate.
    destruct (make_inst_meta (fst s) mn _ _ _) as [[b m]| | |]; cbn [rbind]; try discriminate.
    match goal with |- rbind ?q _ = _ -> _ => destruct q as [[t1 [[b1 i1] al]]| | |] eqn:E; cbn [rbind]; try discriminate end.
    intros H. set (fname := match r_factory r with None => mn | Some f => f end) in *.
    destruct (tree_probe _ _ _ _ (leaf_left b fm mn (r_stencil r) (r_fixed r) fname (r_expand r) x m) (fun a => b_nu (fst (fst a))) _ _ _ (leaf_probe _ _ _ _ _ _ _ _ _) E) as [t' ->].
    cbn [fst].
    destruct al; [assert (s' = (b1, t1)) as -> by congruence; reflexivity|]. now rewrite (aliases_nu _ _ _ _ _ _ _ _ _ _ _ _ H).
Qed.
Lemma configure_left_ok incl excl recs : forall s s', configure incl excl recs s = Ok s' -> configure_left incl excl recs s = b_nu (fst s').
Proof.
  induction recs as [|r recs IH]; intros s s' H; cbn [configure configure_left] in *; [congruence|]. destruct (r_mn r) as [mn|].
  - destruct (tag_filter _ _ _); [|exact (IH s s' H)]. destruct (parse_inst s r mn) as [s1| | |]; cbn [rbind] in H; try discriminate. exact (IH s1 s' H).
  - destruct (r_pseudo r); [exact (IH s s' H)|discriminate].
Qed.
Lemma pconfigure_left_ok recs : forall b b', pconfigure recs b = Ok b' -> pconfigure_left recs b = pb_nu b'.
Proof.
  induction recs as [|r recs IH]; intros b b' H; cbn [pconfigure pconfigure_left] in *; [congruence|].
  destruct (ppseudo b r) as [b1| | |]; cbn [rbind] in H; try discriminate. exact (IH b1 b' H).
Qed.

(** ** The context *)
Lemma builder_inv uids annos nu b : 0 < nu < w32 -> builder_new uids annos nu = Ok b -> exists nu1 r1, nu <= nu1 /\ binv nu1 r1 [] b.
Proof.
  intros N E. unfold builder_new in E. destruct (ir_new uids nu) as [[nu1 r1]| | |] eqn:EN; cbn [rbind] in E; try discriminate.
  apply new_grows in EN as (L1 & L2 & R & U); [|exact N]. set (bb := mkB _ _ _ _ _ _ _) in E.
  assert (R' : reg_ok (expanded []) nu1 r1) by (eapply reg_ok_weaken; [|apply N.le_refl|exact R]; intros ? []).
  assert (B0 : binv nu1 r1 [] bb) by (split; [lia|]; apply grows_refl; [exact L2|exact R']).
  assert (CU : forall b mn ty b', binv nu1 r1 [] b -> add_custom b mn ty = Ok b' -> binv nu1 r1 [] b').
  { intros b1 mn ty b' [N0 G] C. split; [auto|]. apply custom_inst in C as (uid & C). eapply grows_trans; [exact G|].
    pose proof (gr_le _ _ _ _ _ G). pose proof (gr_lt _ _ _ _ _ G). eapply grows_register; [lia|apply G|exact C]. }
  destruct (add_custom bb "nop" _) as [b1| | |] eqn:E1; cbn [rbind] in E; try discriminate.
  apply CU in E1; [|exact B0]. apply CU in E; [|exact E1]. exists nu1, r1. split; [lia|exact E].
Qed.
Lemma pconfigure_left_le uids annos nu recs pb : 0 < nu < w32 -> pbuilder_new uids annos nu = Ok pb -> nu <= pconfigure_left recs pb /\ pconfigure_left recs pb < w32.
Proof.
  intros N H. assert (K : forall done todo b, make_pseudos uids annos nu done = Ok b -> nu <= pconfigure_left todo b /\ pconfigure_left todo b < w32).
  2:{ apply (K [] recs pb). unfold make_pseudos. rewrite H. reflexivity. }
  assert (APP : forall l l' b, pconfigure (l ++ l') b = let* b' := pconfigure l b in pconfigure l' b').
  { induction l as [|r l IH]; intros l' b; cbn [app pconfigure rbind]; [reflexivity|]. destruct (ppseudo b r); cbn [rbind]; auto. }
  intros done todo. revert done. induction todo as [|r todo IH]; intros done b M; cbn [pconfigure_left].
  - destruct (pseudos_fresh _ _ _ _ _ N M) as (A & B & _). lia.
  - destruct (ppseudo b r) as [b'| | |] eqn:E; [apply (IH (done ++ [r])%list)|destruct (pseudos_fresh _ _ _ _ _ N M) as (A & B & _); lia..].
    unfold make_pseudos in *. destruct (pbuilder_new uids annos nu) as [b0| | |]; cbn [rbind] in *; try discriminate.
    rewrite APP, M. cbn [rbind pconfigure]. rewrite E. reflexivity.
Qed.
Lemma context_left_le c nu : 0 < nu < w32 -> nu <= context_left c nu /\ context_left c nu < w32.
Proof.
  intros N. pose proof (new_left_le (c_uids c) nu (proj2 N)) as L. unfold context_left. destruct (anno_files _ _ _) as [annos| | |]; [|exact L..].
  destruct (builder_new _ _ _) as [b| | |] eqn:EB; [|exact L..]. pose proof (builder_inv _ _ _ _ N EB) as (nu1 & r1 & L1 & I).
  pose proof (configure_left_le nu1 r1 (c_incl c) (c_excl c) (map fst (c_recs c)) [] (b, tree_new) I) as L2.
  destruct (configure _ _ _ _) as [s| | |] eqn:EC; [|lia..]. rewrite (configure_left_ok _ _ _ _ _ EC) in L2.
  assert (N2 : 0 < b_nu (fst s) < w32) by lia. pose proof (new_left_le (c_uids c) _ (proj2 N2)) as L3. cbv zeta.
  destruct (anno_files _ _ _) as [pannos| | |]; [|lia..]. destruct (pbuilder_new _ _ _) as [pb| | |] eqn:EP; [|lia..].
  pose proof (pconfigure_left_le _ _ _ (c_recs c) _ N2 EP). lia.
Qed.
(** It is the counter after a construction that succeeds. *)
Lemma context_left_ok {A U} c nu (x : ctxt A U) nu' : make_context c nu = Ok (x, nu') -> context_left c nu = nu'.
Proof.
  unfold make_context, context_left, make_decoder, make_pseudos. destruct (ir_new (c_uids c) nu); cbn [rbind]; try discriminate.
  destruct (anno_files _ _ _) as [annos| | |]; cbn [rbind]; try discriminate. destruct (builder_new _ _ _) as [b| | |]; cbn [rbind]; try discriminate.
  destruct (configure _ _ _ _) as [s| | |]; cbn [rbind]; try discriminate. destruct (ir_new (c_uids c) (b_nu (fst s))); cbn [rbind]; try discriminate.
  destruct (anno_files _ _ _) as [pannos| | |]; cbn [rbind]; try discriminate. destruct (pbuilder_new _ _ _) as [pb| | |]; cbn [rbind]; try discriminate.
  destruct (pconfigure _ _) as [pb'| | |] eqn:E; cbn [rbind]; try discriminate. intros H. rewrite (pconfigure_left_ok _ _ _ E). congruence.
Qed.

(** ** Programs *)
Section Programs.
Context {A U : Type} (u0 : U).
Notation mavis := (mavis A U).
Notation gop := (gop A U).
(** The same program, the counters being filled in. *)
Definition filled (g : mavis) (o : gop) : gop := match o with GMake n c _ => GMake n c (context_left c (mv_nu g)) | _ => o end.
Fixpoint fill (g : mavis) (ops : list gop) : list gop :=
  match ops with [] => [] | o :: r => filled g o :: fill (fst (mstep u0 g o)) r end.
Lemma mrun_fill ops : forall g, mrun u0 g ops = grun u0 g (fill g ops).
Proof.
  induction ops as [|o ops IH]; intros g; cbn [mrun fill grun]; [reflexivity|].
  assert (P : mstep u0 g o = gstep u0 g (filled g o)) by reflexivity. rewrite !P.
  destruct (gstep u0 g (filled g o)) as [g' a]. cbn [fst]. rewrite IH. reflexivity.
Qed.
Lemma fill_in n c : forall ops g (l : list (res (gans A U))) nu', In (GMake n c nu', Ok GDone) (combine ops l) -> exists nu2, In (GMake n c nu2, Ok GDone) (combine (fill g ops) l).
Proof.
  induction ops as [|o ops IH]; intros g l nu' H; [destruct H|]. destruct l as [|a l]; [destruct H|]. cbn [fill combine] in *.
  destruct H as [H|H].
  - assert (o = GMake n c nu') as -> by congruence. assert (a = Ok GDone) as -> by congruence. eexists. left. reflexivity.
  - destruct (IH (fst (mstep u0 g o)) l nu' H) as [nu2 K]. exists nu2. right. exact K.
Qed.
Lemma fill_kept ops : forall K (g : mavis), ginv K g -> Forall goes_on (snd (grun u0 g (fill g ops))) -> counter_kept u0 g (fill g ops).
Proof.
  induction ops as [|o ops IH]; intros K g G GO; cbn [fill counter_kept grun] in *; [exact I|].
  assert (KP : match filled g o with GMake _ _ nu' => mv_nu g <= nu' < 2 ^ 32 | _ => True end).
  { destruct o; cbn [filled]; auto. exact (context_left_le c (mv_nu g) (gi_nu _ _ G)). }
  split; [exact KP|]. pose proof (gstep_ginv u0 K g (filled g o) G KP) as S. assert (P : mstep u0 g o = gstep u0 g (filled g o)) by reflexivity. rewrite !P in *. clear P.
  destruct (gstep u0 g (filled g o)) as [g1 a]. cbn [fst snd] in *.
  assert (GA : goes_on a) by (destruct a; cbn [snd] in GO; [exact I|exact I|inversion GO; auto|inversion GO; auto]).
  destruct (S GA) as (K1 & G1 & _). apply (IH K1 g1 G1).
  destruct a; try contradiction GA; destruct (grun u0 g1 (fill g1 ops)); cbn [snd] in *; now inversion GO.
Qed.
Lemma left_uids_lemma (c0 : config) nu0 (g0 : mavis) (ops : list gop) : 0 < nu0 < 2 ^ 32 -> mavis_new c0 nu0 = Ok g0 ->
  let g := fst (mrun u0 g0 ops) in let answers := snd (mrun u0 g0 ops) in
  Forall goes_on answers ->
  forall X c w m X' c' w' m' u, made_with c0 (combine ops answers) X c -> made_with c0 (combine ops answers) X' c' ->
  library_chose c w m -> library_chose c' w' m' -> u <> INVALID_UID ->
  says u0 g X w m u -> says u0 g X' w' m' u -> X = X' /\ w = w' /\ m = m'.
Proof.
  intros N H g answers GO X c w m X' c' w' m' u M M'. unfold g, answers in *. rewrite mrun_fill in *.
  assert (G0 : ginv (kset (fun _ => None) "BASE" c0) g0).
  { unfold mavis_new in H. destruct (make_context c0 nu0) as [[x nu]| | |] eqn:E; cbn [rbind] in H; try discriminate.
    assert (g0 = mkMV nu [("BASE"%string, x)] "BASE") as -> by congruence.
    apply (make_ginv (fun _ => None) (mkMV nu0 [] "BASE") "BASE" c0 x nu); [|reflexivity|exact E].
    constructor; cbn; try discriminate; [exact N|]. intros _. split; reflexivity. }
  assert (KM : forall Y d, made_with c0 (combine ops (snd (grun u0 g0 (fill g0 ops)))) Y d -> made_with c0 (combine (fill g0 ops) (snd (grun u0 g0 (fill g0 ops)))) Y d).
  { intros Y d [Q|(nu' & I)]; [left; exact Q|right]. exact (fill_in Y d ops g0 _ nu' I). }
  exact (program_uids_lemma u0 c0 nu0 g0 (fill g0 ops) N H (fill_kept ops _ g0 G0 GO) GO X c w m X' c' w' m' u (KM _ _ M) (KM _ _ M')).
Qed.
End Programs.
