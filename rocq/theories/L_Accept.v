(** Lemmas: which instruction tables are accepted (C56). *)
From Coq Require Import NArith ZArith Arith List Bool String Lia ZifyBool ZifyN.
From Verif Require Import M_Base M_Field M_Forms M_Meta M_Extract M_Decoded M_Registry M_Trie M_Builder M_DTable.
From Verif Require Import S_Bits S_Maps S_Trie S_Table S_Meta S_Accept L_Bits L_Cache L_Registry L_Uids L_UserList L_Trie L_Table L_Ids L_IsaClause L_CtxUids L_TraceRecord L_AcceptTree.
Import ListNotations.
Local Open Scope N_scope.

Lemma settles_accepts {T} (r : res T) P : accepts r P -> settles r P.
Proof. intros [[[v ->] H]|[[e ->] H]]; exact H. Qed.
Lemma make_meta_settles j c t : (forall d, jm_data j = Some d -> d < 2 ^ 32) -> settles (make_meta j c t) (record_ok j).
Proof.
  intros L. destruct (record_accepted_lemma j c t L) as [H1 H2]. destruct (make_meta j c t); cbn [settles].
  - apply H1. eauto.
  - apply H2. eauto.
  - intros Q. apply H1 in Q as [m Q]. discriminate Q.
  - assert (NN : ~ ~ record_ok j) by (intros Q; apply H2 in Q as [x Q]; discriminate Q). apply NN. intros Q. apply H1 in Q as [m Q]. discriminate Q.
Qed.
Lemma overrides_settles j t m : (forall d, jm_data j = Some d -> d < 2 ^ 32) ->
  settles (meta_overrides j t m) (known_types (jm_type j) /\ forall d, jm_data j = Some d -> good_size d).
Proof.
  intros L. unfold meta_overrides. eapply settles_iff;
    [|eapply settles_bind; [apply settles_accepts, types_accepted|intros m1 _ _; eapply settles_bind; [apply settles_accepts, data_accepted, L|intros m2 _ _; exact (settles_ret _ True I)]]].
  tauto.
Qed.
Lemma get_form_settles fn : settles (get_form fn) (exists fm, get_form fn = Ok fm).
Proof. unfold get_form. destruct (find _ _); cbn [settles]; [eauto|]. intros [x H]. discriminate H. Qed.
Lemma get_extractor_settles n : settles (get_extractor n) (exists c, get_extractor n = Ok c).
Proof. unfold get_extractor. destruct (find _ ext_registry) as [[a c]|]; cbn [settles]; [eauto|]. intros [x H]. discriminate H. Qed.

(** ** The builder *)
Section Builder.
Context (uids : list (string * N)) (annos : list (string * anno)).
Record holding (n : nat) (P : list irec) (b : builder) : Prop := mkHolding {
  hd_nu : 0 < b_nu b /\ b_nu b + N.of_nat n + 150 < 2 ^ 32;
  hd_reg : reg_ok (fun _ => True) (b_nu b) (b_inst b);
  hd_up : da_up (ir_arr (b_inst b)) = DEFAULT_UP_SIZE;
  hd_ids : forall x, mfind (ir_map (b_inst b)) x <> None <-> numbered uids P x;
  hd_made : forall x, find_ifact b x <> None <-> made P x;
  hd_idx : forall x i, find_ifact b x = Some i -> nth_error (b_facts b) i <> None;
  hd_annos : b_annos b = annos }.
Definition metas_of (P : list irec) (b : builder) : Prop :=
  forall x, mfind (b_metas b) x <> None <-> exists r, In r P /\ is_inst r x.
Lemma holding_metas n P b v : holding n P b -> holding n P (set_metas b v).
Proof. intros [H1 H2 H3 H4 H5 H6 H7]. constructor; assumption. Qed.

Lemma register_total nu r m : 0 < nu -> nu + 100 < 2 ^ 32 -> reg_ok (fun _ => True) nu r -> da_up (ir_arr r) = DEFAULT_UP_SIZE ->
  exists nu' r' uid, ir_register r m nu = Ok (nu', r', uid).
Proof.
  intros N0 L R U. unfold ir_register. destruct (mfind _ m); [eauto|]. cbn [advance_uid].
  destruct (da_add_ok (ir_arr r) nu m (ro_arr _ _ _ R)) as (a & ->); [rewrite U; exact L|rewrite U; reflexivity|]. cbn [rbind]. eauto.
Qed.
Lemma register_holds nu r m nu' r' uid n : 0 < nu -> nu + N.of_nat (S n) + 150 < 2 ^ 32 -> reg_ok (fun _ => True) nu r -> da_up (ir_arr r) = DEFAULT_UP_SIZE ->
  ir_register r m nu = Ok (nu', r', uid) ->
  (0 < nu' /\ nu' + N.of_nat n + 150 < 2 ^ 32) /\ reg_ok (fun _ => True) nu' r' /\ da_up (ir_arr r') = DEFAULT_UP_SIZE /\
  forall x, mfind (ir_map r') x <> None <-> mfind (ir_map r) x <> None \/ x = m.
Proof.
  intros N0 L R U H. pose proof (register_up _ _ _ _ _ _ H) as U'. pose proof H as H0.
  apply (register_ok (fun _ => True)) in H; [|unfold w32; lia|exact N0|exact R]. destruct H as (H1 & H2 & H3 & H4 & H5 & H6).
  assert (nu' <= nu + 1).
  { unfold ir_register in H0. destruct (mfind (ir_map r) m); [apply (f_equal (fun q => match q with Ok v => fst (fst v) | _ => 0 end)) in H0; cbn [fst] in H0; lia|]. cbn [advance_uid] in H0.
    destruct (da_add _ _ _); cbn [rbind] in H0; try discriminate. apply (f_equal (fun q => match q with Ok v => fst (fst v) | _ => 0 end)) in H0. cbn [fst] in H0. rewrite <- H0. unfold u32. apply N.mod_le. discriminate. }
  split; [lia|]. split; [exact H3|]. split; [congruence|]. intros x. split.
  - intros Q. destruct (mfind (ir_map r') x) as [u|] eqn:E; [|congruence]. apply H6 in E as [E|[-> _]]; [left; congruence|auto].
  - intros [Q| ->]; [|congruence]. destruct (mfind (ir_map r) x) as [u|] eqn:E; [|congruence]. apply H5 in E. congruence.
Qed.

Lemma numbered_snoc P r mn x : r_mn r = Some mn -> (numbered uids (P ++ [r]) x <-> numbered uids P x \/ x = mn).
Proof.
  intros M. unfold numbered. split.
  - intros [H|[H|(r' & I & E)]]; [tauto..|]. apply in_app_iff in I as [I|[<-|[]]]; [left; eauto|]. right. congruence.
  - intros [[H|[H|(r' & I & E)]]| ->]; [tauto|tauto| |]; right; right; [exists r'|exists r]; rewrite in_app_iff; cbn [In]; auto.
Qed.
Lemma made_snoc P r mn x : is_inst r mn ->
  (made (P ++ [r]) x <-> made P x \/ (r_expand r = ""%string /\ (x = mn \/ x = fname_of r mn))).
Proof.
  intros M. unfold made. split.
  - intros [H|(r' & mn' & I & J & E & Q)]; [tauto|]. apply in_app_iff in I as [I|[<-|[]]]; [left; right; eauto 10|]. right.
    assert (mn' = mn) as -> by (destruct J, M; congruence). auto.
  - intros [[H|(r' & mn' & I & Q)]|[E Q]]; [tauto| |]; right; [exists r', mn'|exists r, mn]; rewrite in_app_iff; cbn [In]; auto 8.
Qed.
Lemma made_overlay P r mn o x : r_mn r = Some mn -> r_overlay r = Some o -> (made (P ++ [r]) x <-> made P x).
Proof.
  intros M O. unfold made. split.
  - intros [H|(r' & mn' & I & J & E & Q)]; [tauto|]. apply in_app_iff in I as [I|[<-|[]]]; [right; eauto 10|]. destruct J. congruence.
  - intros [H|(r' & mn' & I & Q)]; [tauto|]. right. exists r', mn'. rewrite in_app_iff. auto.
Qed.

Lemma upd_total b i g : nth_error (b_facts b) i <> None -> exists b', upd_fact b i g = Ok b' /\ b' = set_facts b (b_facts b') /\
  (forall j, nth_error (b_facts b) j <> None -> nth_error (b_facts b') j <> None).
Proof.
  intros H. unfold upd_fact, get_fact. destruct (nth_error (b_facts b) i) as [f|] eqn:E; [|congruence]. cbn [rbind].
  eexists. split; [reflexivity|]. split; [reflexivity|]. intros j Q. cbn [set_facts b_facts]. rewrite nth_set_nth. destruct (Nat.eqb i j); [rewrite E; discriminate|exact Q].
Qed.
Lemma find_set_facts b v x : find_ifact (set_facts b v) x = find_ifact b x.
Proof. reflexivity. Qed.
Lemma alias_settles nu r mn xp : reg_ok (fun _ => True) nu r ->
  settles (ir_alias r mn (ir_uid r xp) nu) (mfind (ir_map r) xp <> None).
Proof.
  intros R. unfold ir_alias, ir_uid, INVALID_UID. destruct (mfind (ir_map r) xp) as [u|] eqn:E.
  - destruct (ro_bound _ _ _ R _ _ E) as [B1 B2]. replace (negb (u =? 0) && (u <? nu)) with true by lia. cbn [rassert rbind].
    destruct (mfind (ir_map r) mn); [cbn; discriminate|]. destruct (ro_slot _ _ _ R _ _ E) as [m0 S]. unfold da_contains. rewrite S, andb_true_r.
    destruct (ro_arr _ _ _ R) as [_ A]. replace (u <? da_size (ir_arr r)) with true by (symmetry; apply N.ltb_lt; exact (A _ _ S)). cbn. discriminate.
  - cbn. congruence.
Qed.
Lemma bld_settles n P b r mn st m : is_inst r mn -> holding (S n) P b ->
  settles (bld b mn (fname_of r mn) (r_expand r) st m) (r_expand r = ""%string \/ (made P (r_expand r) /\ numbered uids P (r_expand r))) /\
  forall b' i, bld b mn (fname_of r mn) (r_expand r) st m = Ok (b', i) -> holding n (P ++ [r]) b' /\ b_metas b' = b_metas b.
Proof.
  intros J H. pose proof H as [[N0 NL] HR HU HI HM HX HA]. split.
  - destruct (String.eqb_spec (r_expand r) "") as [E|NE].
    + enough (exists v, bld b mn (fname_of r mn) (r_expand r) st m = Ok v) as [v ->] by (left; exact E).
      rewrite E. unfold bld. change (String.eqb "" "") with true. cbv zeta iota.
      assert (exists b1 i1, (match find_ifact b (fname_of r mn) with
                  | Some i => (b, i)
                  | None => let (b, i) := new_fact b (fact_new (fname_of r mn) st m) in
                            (set_reg b (madd (b_reg b) (fname_of r mn) i), i)
                  end) = (b1, i1) /\ nth_error (b_facts b1) i1 <> None /\ b_inst b1 = b_inst b /\ b_nu b1 = b_nu b) as (b1 & i1 & -> & F1 & I1 & N1).
      { destruct (find_ifact b (fname_of r mn)) as [i|] eqn:F.
        - exists b, i. split; [reflexivity|]. split; [eauto|]. auto.
        - cbn [new_fact]. eexists _, _. split; [reflexivity|]. cbn [set_reg set_facts b_facts b_inst b_nu]. rewrite nth_app_last. split; [discriminate|auto]. }
      set (b2 := if String.eqb mn (fname_of r mn) then b1 else _).
      assert (nth_error (b_facts b2) i1 <> None /\ b_inst b2 = b_inst b /\ b_nu b2 = b_nu b) as (F2 & I2 & N2).
      { unfold b2. destruct (String.eqb _ _); auto. }
      clearbody b2. destruct (upd_total b2 i1 (fact_add_anno mn (match find_anno b (fname_of r mn) with Some a => Some a | None => find_anno b mn end)) F2) as (b3 & -> & E3 & F3).
      cbn [rbind]. unfold register_inst. rewrite E3. cbn [set_facts b_inst b_nu]. rewrite I2, N2.
      destruct (register_total (b_nu b) (b_inst b) mn N0 ltac:(lia) HR HU) as (nu' & r' & uid & ->). cbn [rbind fst snd].
      edestruct (upd_total (set_inst (set_facts b2 (b_facts b3)) nu' r') i1 (fact_add_uid mn uid)) as (b4 & -> & _); [|cbn [rbind]; eauto].
      cbn [set_inst set_facts b_facts]. apply F3, F2.
    + unfold bld. rewrite (proj2 (String.eqb_neq _ _) NE). specialize (HM (r_expand r)).
      destruct (find_ifact b (r_expand r)) as [i|] eqn:F.
      2: { cbn. intros [Q|[Q _]]; [congruence|]. apply HM in Q. congruence. }
      assert (made P (r_expand r)) as MD by (apply HM; discriminate).
      eapply settles_iff; [|eapply settles_bind; [apply (alias_settles _ _ mn (r_expand r) HR)|intros ir _ _]].
      * rewrite HI. instantiate (1 := True). tauto.
      * apply (HX _ _) in F. edestruct (upd_total (set_inst b (b_nu b) ir) i (fact_add_uid mn (ir_uid (b_inst b) (r_expand r)))) as (b1 & -> & E1 & F1); [exact F|].
        cbn [rbind]. edestruct (upd_total b1 i (fact_merge_meta mn m)) as (b2 & -> & _); [apply F1; exact F|]. cbn [rbind settles]. exact I.
  - intros b' i E. pose proof (bld_inst _ _ _ _ _ _ _ _ E) as Q. destruct Q as [(X & uid & Q)|(X & Q1 & uid & Q)].
    + rewrite X in E. apply bld_normal_inv in E as [(f0 & u & B1 & B2 & B3) BO BR BM BL].
      destruct (register_holds _ _ _ _ _ _ _ N0 NL HR HU Q) as (R1 & R2 & R3 & R4).
      split; [|exact BM]. constructor; [exact R1|exact R2|exact R3| | | |].
      * intros x. rewrite R4, HI, (numbered_snoc _ _ _ _ (proj1 J)). tauto.
      * intros x. rewrite BR, (made_snoc _ _ _ x J). destruct (String.eqb_spec mn x) as [->|N1]; cbn [orb]; [|destruct (String.eqb_spec (fname_of r mn) x) as [->|N2]].
        -- split; [auto|discriminate].
        -- split; [auto|discriminate].
        -- rewrite HM. split; [auto|]. intros [Q'|[_ [-> | ->]]]; [auto|congruence|congruence].
      * intros x j. rewrite BR. assert (nth_error (b_facts b') i <> None) as V by congruence.
        destruct (_ || _)%bool; [intros K; assert (j = i) as -> by congruence; exact V|]. intros K. destruct (Nat.eq_dec j i) as [->|NE]; [exact V|]. rewrite BO by exact NE. eapply HX. exact K.
      * rewrite (bl_annos _ _ BL). exact HA.
    + apply bld_expand_inv in E as [(f0 & u & B1 & B2 & B3 & B4 & B5) BO BR BM BL]; [|exact X].
      pose proof (alias_up _ _ _ _ _ Q) as AU. pose proof (alias_ok (fun _ => True) _ _ _ _ _ I HR Q) as (A1 & A2 & A3 & A4).
      split; [|exact BM]. constructor.
      * rewrite Q1. lia.
      * rewrite Q1. exact A1.
      * congruence.
      * intros x. rewrite (numbered_snoc _ _ _ _ (proj1 J)), <- HI. split.
        -- intros K. destruct (mfind (ir_map (b_inst b')) x) as [v|] eqn:E; [|congruence]. apply A3 in E as [E|[-> _]]; [left; congruence|auto].
        -- intros [K| ->].
           ++ destruct (mfind (ir_map (b_inst b)) x) as [v|] eqn:E; [|congruence]. apply A2 in E. congruence.
           ++ destruct (mfind (ir_map (b_inst b)) mn) as [v|] eqn:E; [apply A2 in E; congruence|]. rewrite A4 by reflexivity. discriminate.
      * intros x. unfold find_ifact. rewrite BR. fold (find_ifact b x). rewrite HM, (made_snoc _ _ _ x J). split; [auto|]. intros [K|[K _]]; [auto|congruence].
      * intros x j. unfold find_ifact. rewrite BR. intros K. destruct (Nat.eq_dec j i) as [->|NE]; [congruence|]. rewrite BO by exact NE. exact (HX x j K).
      * rewrite (bl_annos _ _ BL). exact HA.
Qed.

Lemma overlay_parse_settles o : settles (overlay_parse o) (exists base mask value, jo_base o = Some base /\ jo_match o = Some [mask; value]).
Proof.
  unfold overlay_parse. destruct (jo_base o) as [base|]; [|cbn; intros (? & ? & ? & Q & _); discriminate Q].
  destruct (jo_match o) as [[|m [|v [|w l]]]|]; cbn [settles]; try (intros (? & ? & ? & _ & Q); discriminate Q). eauto 6.
Qed.
Lemma overlay_settles n P b r mn o x : r_mn r = Some mn -> r_overlay r = Some o -> (forall d, jm_data (r_meta r) = Some d -> d < 2 ^ 32) ->
  xform_known r -> holding (S n) P b -> metas_of P b ->
  settles (build_overlay b mn o r x) (overlay_acceptable annos P r mn o) /\
  forall b', build_overlay b mn o r x = Ok b' -> holding n (P ++ [r]) b' /\ metas_of (P ++ [r]) b'.
Proof.
  intros M O D XK H HT. pose proof H as [[N0 NL] HR HU HI HM HX HA]. split.
  - unfold build_overlay, overlay_acceptable. pose proof (overlay_parse_settles o) as S.
    destruct (overlay_parse o) as [[[base mask] v]| | |] eqn:EP; cbn [settles rbind] in *; [| | |tauto].
    2-3: intros (_ & ba & ma & va & Q1 & Q2 & _); apply S; eauto.
    assert (jo_base o = Some base /\ jo_match o = Some [mask; v]) as [J1 J2].
    { unfold overlay_parse in EP. destruct S as (ba & ma & va & Q1 & Q2). rewrite Q1, Q2 in *. split; congruence. }
    destruct (mfind (b_metas b) base) as [bm|] eqn:EB.
    2: { cbn. intros (_ & ba & ma & va & Q1 & Q2 & Q3 & _). assert (ba = base) as -> by congruence. apply HT in Q3. congruence. }
    assert (exists r', In r' P /\ is_inst r' base) as BI by (apply HT; congruence).
    pose proof (overrides_settles (r_meta r) (r_tags r) bm D) as SO.
    destruct (meta_overrides (r_meta r) (r_tags r) bm) as [m| | |]; cbn [settles rbind] in *; [| | |tauto].
    2-3: intros (_ & ba & ma & va & _ & _ & _ & _ & Q1 & Q2 & _); apply SO; auto.
    unfold register_inst. destruct (register_total (b_nu b) (b_inst b) mn N0 ltac:(lia) HR HU) as (nu' & r' & uid & ->). cbn [rbind fst snd].
    set (b1 := set_inst b nu' r'). unfold find_anno. cbn [b1 set_inst b_annos]. rewrite HA.
    assert (AN : (match (match mfind annos mn with Some a => Some a | None => mfind annos base end) with None => true | Some _ => false end &&
                  match annos with [] => false | _ => true end)%bool = true <->
                 ~ (annos = [] \/ In mn (map fst annos) \/ In base (map fst annos))).
    { pose proof (mfind_in annos mn) as M1. pose proof (mfind_in annos base) as M2. destruct annos as [|a0 al] eqn:EA.
      - rewrite andb_false_r. split; [discriminate|]. intros Q. exfalso. apply Q. auto.
      - rewrite andb_true_r. rewrite <- EA in *. assert (annos <> []) by (rewrite EA; discriminate).
        destruct (mfind annos mn) as [a|] eqn:F1.
        + split; [discriminate|]. intros Q. exfalso. apply Q. right. left. destruct (in_dec string_dec mn (map fst annos)) as [Y|Y]; [exact Y|]. apply M1 in Y. discriminate Y.
        + destruct (mfind annos base) as [a|] eqn:F2.
          * split; [discriminate|]. intros Q. exfalso. apply Q. right. right. destruct (in_dec string_dec base (map fst annos)) as [Y|Y]; [exact Y|]. apply M2 in Y. discriminate Y.
          * split; [|auto]. intros _ [Q|[Q|Q]]; [congruence|now apply M1|now apply M2]. }
    match goal with |- context [if ?c then Throw _ else _] => destruct c eqn:EC end.
    + cbn. intros (_ & ba & ma & va & Q1 & _ & _ & _ & _ & _ & Q). assert (ba = base) as -> by congruence. exact (proj1 AN eq_refl Q).
    + destruct (find_ifact b1 base) as [i|] eqn:F.
      2: { cbn. intros (_ & ba & ma & va & Q1 & _ & _ & Q & _). assert (ba = base) as -> by congruence. apply HM in Q. exact (Q F). }
      assert (made P base) by (apply HM; change (find_ifact b base) with (find_ifact b1 base); congruence).
      edestruct (upd_total b1 i) as (b2 & -> & _); [exact (HX _ _ F)|]. cbn [settles].
      split; [exact XK|]. exists base, mask, v. split; [exact J1|]. split; [exact J2|]. split; [exact BI|]. split; [assumption|]. split; [apply SO|]. split; [apply SO|].
      destruct annos as [|a0 al] eqn:EA; [auto|]. rewrite <- EA in *. right.
      destruct (in_dec string_dec mn (map fst annos)) as [Y|Y]; [auto|]. destruct (in_dec string_dec base (map fst annos)) as [Z|Z]; [auto|].
      exfalso. assert (false = true) as Y'; [|discriminate Y']. apply AN. intros [Q|[Q|Q]]; [congruence|auto|auto].
  - intros b' E. pose proof (overlay_inst _ _ _ _ _ _ E) as [uid Q]. apply build_overlay_inv in E as [(base & mask & v & bm & m & u & i & f & B1 & B2 & B3 & B4 & B5 & B6 & B7) BR BM BL].
    destruct (register_holds _ _ _ _ _ _ _ N0 NL HR HU Q) as (R1 & R2 & R3 & R4). split.
    + constructor; [exact R1|exact R2|exact R3| | | |].
      * intros y. rewrite R4, HI, (numbered_snoc _ _ _ _ M). tauto.
      * intros y. unfold find_ifact. rewrite BR. fold (find_ifact b y). rewrite HM, (made_overlay _ _ _ _ y M O). tauto.
      * intros y j. unfold find_ifact. rewrite BR. intros K. cbv zeta in B7. rewrite B7, nth_set_nth. specialize (HX y j K). destruct (Nat.eqb i j); [rewrite B5; discriminate|exact HX].
      * rewrite (bl_annos _ _ BL). exact HA.
    + intros y. rewrite BM. unfold metas_of in HT. rewrite (HT y). split; intros (r' & I & K).
      * exists r'. rewrite in_app_iff. auto.
      * apply in_app_iff in I as [I|[<-|[]]]; [eauto|]. destruct K. congruence.
Qed.

(** ** Leaf nodes and the instruction they are for *)
Lemma leaf_settles (b : builder) (e : enc) fname xp x m shared (Cc Bc : Prop) (W : builder * nat * bool -> Prop) :
  form_ok (en_form e) -> few (en_form e) = true ->
  settles (match x with Some c => Ok c | None => get_extractor (fm_name (en_form e)) end) Cc ->
  (forall b1 m1, b1 = b \/ b1 = set_metas b (madd (b_metas b) (en_mn e) m1) ->
     settles (match shared with None => bld b1 (en_mn e) fname xp (en_stencil e) m1 | Some i => Ok (b1, i) end) Bc /\
     forall b2 i al, match shared with None => bld b1 (en_mn e) fname xp (en_stencil e) m1 | Some i => Ok (b1, i) end = Ok (b2, i) -> W (b2, i, al)) ->
  let leaf := build_leaf b (en_form e) (en_mn e) (en_stencil e) (en_fixed e) fname xp x m shared in
  (forall g t d, settles (leaf (Dense g t d)) False) /\
  (forall tab d L, (rep (Special tab d) L \/ (L = [] /\ tab = [] /\ d = None)) ->
     settles (leaf (Special tab d)) ((Cc /\ fixed_known e /\ Bc) /\ forall y, In y L -> again (snd y) e -> en_mn (snd y) = en_mn e) /\
     forall n a, leaf (Special tab d) = Ok (n, a) -> rep n (L ++ [([], e)]) /\ W a).
Proof.
  intros F FW SC SB leaf. unfold leaf, build_leaf. split.
  - intros g t d. destruct (match x with Some c => Ok c | None => _ end); cbn [settles rbind] in *; tauto.
  - intros tab d L AT.
    assert (HO : holds tab L /\ forall y, In y L -> fst y = []).
    { destruct AT as [R|(-> & -> & ->)]; [inversion R; subst; auto|]. split; [split; [constructor|split; intros ? []]|intros ? []]. }
    destruct HO as [HO SH].
    destruct (match x with Some c => Ok c | None => _ end) as [c| | |]; cbn [settles rbind] in *; [|split; [tauto|discriminate]..|tauto].
    assert (TB : settles (match en_fixed e with [] => Ok tab | _ => add_special (en_form e) (en_mn e) (en_stencil e) (en_fixed e) tab end)
                   (fixed_known e /\ forall y, In y L -> again (snd y) e -> en_mn (snd y) = en_mn e) /\
                 forall tab', match en_fixed e with [] => Ok tab | _ => add_special (en_form e) (en_mn e) (en_stencil e) (en_fixed e) tab end = Ok tab' ->
                   holds tab' (L ++ [([], e)])).
    { destruct (en_fixed e) as [|n0 fl] eqn:EF.
      - split.
        + cbn. split; [intros ? Q; rewrite EF in Q; destruct Q|]. intros y _ (_ & Q & _). congruence.
        + intros tab' Q. assert (tab' = tab) as -> by congruence. now apply holds_plain.
      - rewrite <- EF. apply add_special_settles; auto. congruence. }
    destruct TB as [TB TB'].
    destruct (match en_fixed e with [] => Ok tab | _ => _ end) as [tab1| | |]; cbn [settles rbind] in *; [|split; [tauto|discriminate]..|tauto].
    specialize (TB' _ eq_refl).
    set (m1 := match en_fixed e with [] => m | _ => _ end). set (b1 := match en_fixed e with [] => b | _ => _ end).
    destruct (SB b1 m1) as [SB1 SB2]; [unfold b1; destruct (en_fixed e); auto|].
    destruct (match shared with None => bld b1 _ _ _ _ m1 | Some _ => _ end) as [[b2 i]| | |]; cbn [settles rbind] in *; [|split; [tauto|discriminate]..|tauto].
    destruct (place_total (en_mn e) (en_stencil e) (mkPay i c 0) tab1 d _ TB') as (tab2 & d2 & al & -> & H2). cbn [rbind settles fst snd].
    split; [tauto|]. intros n a Q. assert (n = Special tab2 d2) as -> by congruence. assert (a = (b2, i, al)) as -> by congruence.
    split; [|apply SB2; reflexivity]. constructor; [destruct L; discriminate| |exact H2].
    intros y I. apply in_app_iff in I as [I|[<-|[]]]; [auto|reflexivity].
Qed.

(** ** One record *)
Definition inv (n : nat) (P : list irec) (E : list enc) (s : builder * tree) : Prop :=
  holding n P (fst s) /\ metas_of P (fst s) /\ Forall (fun e => form_ok (en_form e)) E /\ stands (snd s) E.
Lemma aliases_accept n P E fm mn fl ign fname xp x m i (Cc : Prop) sts : form_ok fm -> few fm = true ->
  settles (match x with Some c => Ok c | None => get_extractor (fm_name fm) end) Cc -> Cc -> (exists r, In r P /\ is_inst r mn) ->
  forall s E0, inv n P (E ++ E0) s ->
  let encs := map (fun st => mkEnc mn fm ign st fl) sts in
  build_aliases fm mn fl ign fname xp x m i sts s <> UB /\
  (Forall fixed_known encs -> ForallOrdPairs beside encs -> (forall e' e, In e' (E ++ E0) -> In e encs -> beside e' e) -> exists s', build_aliases fm mn fl ign fname xp x m i sts s = Ok s') /\
  (forall s', build_aliases fm mn fl ign fname xp x m i sts s = Ok s' -> exists E', incl E' encs /\ inv n P (E ++ E0 ++ E') s').
Proof.
  intros F FW SC C0 RI. induction sts as [|st sts IH]; intros s E0 INV.
  - cbn [build_aliases map]. split; [discriminate|]. split; [eauto|]. intros s' H. assert (s' = s) as -> by congruence. exists []. split; [intros ? []|]. rewrite app_nil_r. exact INV.
  - pose proof INV as (HH & HT & FE & ST). cbn [build_aliases map]. set (e := mkEnc mn fm ign st fl).
    assert (LF := leaf_settles (fst s) e fname xp x m (Some i) Cc True (fun a => holding n P (fst (fst a)) /\ metas_of P (fst (fst a))) F FW SC).
    cbn beta iota in LF. destruct LF as [LD LS].
    { intros b1 m1 B. split; [exact I|]. intros b2 j al Q. assert (b2 = b1) as -> by congruence. cbn [fst]. destruct B as [->| ->]; [auto|].
      split; [now apply holding_metas|]. intros y. cbn [set_metas b_metas]. rewrite mfind_madd. cbn [en_mn e]. destruct (String.eqb_spec mn y) as [<-|]; [|apply HT].
      split; [intros _; exact RI|discriminate]. }
    destruct (build_tree_settles e _ (Cc /\ fixed_known e /\ True) _ (snd s) (E ++ E0) F FE ST LD LS) as [S PO].
    cbn [en_form en_ign en_stencil en_mn en_fixed e] in S, PO.
    destruct (build_tree fm ign st _ (snd s)) as [[t [[b1 j] al]]|ex| |]; cbn [settles rbind] in S |- *; [| | |contradiction].
    + destruct (PO _ _ eq_refl) as [ST' [H1 H2]]. cbn [fst snd] in H1, H2.
      assert (INV' : inv n P (E ++ (E0 ++ [e])) (b1, t)).
      { rewrite app_assoc. split; [exact H1|]. split; [exact H2|]. split; [|exact ST']. apply Forall_app. split; [exact FE|]. constructor; [exact F|constructor]. }
      destruct al.
      * split; [discriminate|]. split; [eauto|]. intros s' H. assert (s' = (b1, t)) as -> by congruence. exists [e]. split; [intros y [<-|[]]; now left|exact INV'].
      * destruct (IH (b1, t) (E0 ++ [e])%list INV') as (I1 & I2 & I3). split; [exact I1|]. split.
        -- intros K1 K2 K3. inversion K1; inversion K2; subst. apply I2; [assumption|assumption|]. intros e' e1 Q1 Q2. rewrite app_assoc in Q1. apply in_app_iff in Q1 as [Q1|[<-|[]]].
           ++ apply K3; [exact Q1|now right].
           ++ rewrite Forall_forall in *. auto.
        -- intros s' H. destruct (I3 s' H) as (E' & J1 & J2). exists (e :: E'). split; [intros y [<-|Q]; [now left|right; auto]|].
           rewrite <- app_assoc in J2. exact J2.
    + split; [discriminate|]. split; [|discriminate]. intros K1 K2 K3. exfalso. apply S. split; [|split; [exact C0|split; [|exact I]]].
      * intros e' Q. apply K3; [exact Q|now left].
      * inversion K1; assumption.
    + split; [discriminate|]. split; [|discriminate]. intros K1 K2 K3. exfalso. apply S. split; [|split; [exact C0|split; [|exact I]]].
      * intros e' Q. apply K3; [exact Q|now left].
      * inversion K1; assumption.
Qed.
Lemma xform_settles r : settles (match r_xform r with None => Ok None | Some n => let* c := get_extractor n in Ok (Some c) end) (xform_known r).
Proof.
  unfold xform_known. destruct (r_xform r) as [n|]; [|cbn; discriminate].
  eapply settles_iff; [|eapply settles_bind; [apply get_extractor_settles|intros c _ _; exact (settles_ret _ True I)]].
  split; [intros [H _] n' [= <-]; exact H|]. intros H. split; [apply H; reflexivity|exact I].
Qed.
Lemma parse_accept n P E r mn s : r_mn r = Some mn -> (forall d, jm_data (r_meta r) = Some d -> d < 2 ^ 32) -> inv (S n) P E s ->
  parse_inst s r mn <> UB /\
  (acceptable uids annos P r -> Forall fixed_known (rec_encs r) -> ForallOrdPairs beside (rec_encs r) ->
     (forall e' e, In e' E -> In e (rec_encs r) -> beside e' e) -> exists s', parse_inst s r mn = Ok s') /\
  (forall s', parse_inst s r mn = Ok s' -> acceptable uids annos P r /\
     (forall e, In e (firstn 1 (rec_encs r)) -> fixed_known e /\ forall e', In e' E -> beside e' e) /\
     exists E', incl (firstn 1 (rec_encs r)) E' /\ incl E' (rec_encs r) /\ inv n (P ++ [r]) (E ++ E') s').
Proof.
  intros M D (HH & HT & FE & ST). unfold parse_inst. pose proof (xform_settles r) as SX.
  assert (XC : forall c, r_overlay r = None -> acceptable uids annos P r -> rec_class r = Ok c -> xform_known r).
  { intros c O _ Q n0 E0. unfold rec_class in Q. rewrite E0 in Q. eauto. }
  assert (XA : acceptable uids annos P r -> xform_known r).
  { intros A. specialize (A mn M). destruct (r_overlay r) as [o|] eqn:EO; [exact (proj1 A)|]. destruct A as (_ & [c A] & _).
    intros n0 E0. unfold rec_class in A. rewrite E0 in A. eauto. }
  destruct (match r_xform r with None => Ok None | Some n => _ end) as [x| | |] eqn:EX; cbn [settles rbind] in *;
    [|split; [discriminate|]; split; [intros A; exfalso; auto|discriminate]..|contradiction].
  destruct (r_overlay r) as [o|] eqn:EO.
  - assert (NE : rec_encs r = []) by (unfold rec_encs; rewrite M, EO; reflexivity). rewrite NE. cbn [firstn].
    destruct (overlay_settles n P (fst s) r mn o x M EO D SX HH HT) as [S PO].
    assert (AQ : acceptable uids annos P r <-> overlay_acceptable annos P r mn o).
    { unfold acceptable. rewrite EO. split; [intros A; apply A, M|]. intros A mn' M'. assert (mn' = mn) as -> by congruence. exact A. }
    destruct (build_overlay (fst s) mn o r x) as [b| | |]; cbn [settles rbind] in *; [| | |contradiction].
    + split; [discriminate|]. split; [eauto|]. intros s' H. assert (s' = (b, snd s)) as -> by congruence. split; [tauto|]. split; [intros ? []|].
      exists []. split; [intros ? []|]. split; [intros ? []|]. rewrite app_nil_r. destruct (PO _ eq_refl) as [PO1 PO2]. split; [exact PO1|]. split; [exact PO2|]. split; [exact FE|exact ST].
    + split; [discriminate|]. split; [|discriminate]. tauto.
    + split; [discriminate|]. split; [|discriminate]. tauto.
  - assert (AQ : acceptable uids annos P r <-> inst_acceptable uids P r mn).
    { unfold acceptable. rewrite EO. split; [intros A; apply A, M|]. intros A mn' M'. assert (mn' = mn) as -> by congruence. exact A. }
    destruct (r_form r) as [fn|] eqn:EF.
    2: { split; [discriminate|]. split; [|discriminate]. intros A. apply AQ in A as ((? & ? & Q & _) & _). congruence. }
    destruct (get_form fn) as [fm|ex| |] eqn:EG; cbn [rbind].
    2-4: (split; [unfold get_form in EG; destruct (find _ _) in EG; discriminate|]; split; [|discriminate]; intros A; apply AQ in A as ((fn' & ? & Q & Q') & _); exfalso; congruence).
    assert (F : form_ok fm) by (eapply registry_ok; eauto). assert (FW : few fm = true) by (eapply registry_few; eauto).
    assert (RE : rec_encs r = map (fun st => mkEnc mn fm (r_ignore r) st (r_fixed r)) (r_stencil r :: r_alias r)).
    { unfold rec_encs. rewrite M, EO, EF, EG. reflexivity. }
    rewrite RE. cbn [map firstn]. set (e := mkEnc mn fm (r_ignore r) (r_stencil r) (r_fixed r)). set (als := map _ (r_alias r)).
    unfold make_inst_meta. pose proof (make_meta_settles (r_meta r) (negb (String.eqb (r_expand r) "")) (r_tags r) D) as SM.
    destruct (make_meta _ _ _) as [m| | |]; cbn [settles rbind] in *; [| | |contradiction].
    2-3: (split; [discriminate|]; split; [|discriminate]; intros A; apply AQ in A as (_ & _ & Q & _); exfalso; auto).
    assert (DUP : mfind (b_metas (fst s)) mn = None <-> forall r', In r' P -> ~ is_inst r' mn).
    { split.
      - intros Q r' I' J. assert (mfind (b_metas (fst s)) mn <> None) by (apply HT; eauto). congruence.
      - intros Q. destruct (mfind (b_metas (fst s)) mn) eqn:K; [|reflexivity]. exfalso. assert (mfind (b_metas (fst s)) mn <> None) as K' by congruence.
        apply HT in K' as (r' & I' & J). exact (Q r' I' J). }
    destruct (mfind (b_metas (fst s)) mn) as [mm|] eqn:EM; cbn [rbind].
    { split; [discriminate|]. split; [|discriminate]. intros A. apply AQ in A as (_ & _ & _ & Q & _). apply DUP in Q. discriminate Q. }
    set (b0 := set_metas (fst s) (madd (b_metas (fst s)) mn m)).
    assert (J : is_inst r mn) by (split; auto).
    assert (SC : settles (match x with Some c => Ok c | None => get_extractor (fm_name fm) end) (exists c, rec_class r = Ok c)).
    { unfold rec_class. rewrite EF, EG. destruct (r_xform r) as [n0|].
      - destruct (get_extractor n0) as [c| | |]; cbn [rbind] in EX; try discriminate. assert (x = Some c) as -> by congruence. cbn. eauto.
      - assert (x = None) as -> by congruence. apply get_extractor_settles. }
    assert (MT : forall b', b_metas b' = b_metas b0 \/ (exists m1, b_metas b' = madd (b_metas b0) mn m1) -> metas_of (P ++ [r]) b').
    { intros b' Q y. assert (mfind (b_metas b') y <> None <-> mfind (b_metas (fst s)) y <> None \/ y = mn) as ->.
      { destruct Q as [->|[m1 ->]]; cbn [b0 set_metas b_metas]; rewrite ?mfind_madd; destruct (String.eqb_spec mn y) as [<-|]; try (split; [auto|discriminate]); split; auto; intros [K|K]; congruence. }
      unfold metas_of in HT. rewrite (HT y). split.
      - intros [(r' & I' & J')| ->]; [exists r'|exists r]; rewrite in_app_iff; cbn [In]; auto.
      - intros (r' & I' & J'). apply in_app_iff in I' as [I'|[<-|[]]]; [left; eauto|]. right. destruct J, J'. congruence. }
    assert (LF := leaf_settles b0 e (fname_of r mn) (r_expand r) x m None (exists c, rec_class r = Ok c)
      (r_expand r = ""%string \/ (made P (r_expand r) /\ numbered uids P (r_expand r)))
      (fun a => holding n (P ++ [r]) (fst (fst a)) /\ metas_of (P ++ [r]) (fst (fst a))) F FW SC).
    cbn beta iota in LF. destruct LF as [LD LS].
    { intros b1 m1 B. assert (H1 : holding (S n) P b1) by (destruct B as [->| ->]; repeat apply holding_metas; exact HH).
      destruct (bld_settles n P b1 r mn (en_stencil e) m1 J H1) as [S1 S2]. split; [exact S1|]. intros b2 j al Q. destruct (S2 _ _ Q) as [Q1 Q2]. cbn [fst].
      split; [exact Q1|]. apply MT. destruct B as [->| ->]; [left; exact Q2|right; exists m1; exact Q2]. }
    destruct (build_tree_settles e _ _ _ (snd s) E F FE ST LD LS) as [S PO].
    cbn [en_form en_ign en_stencil en_mn en_fixed e] in S, PO.
    change (match r_factory r with None => mn | Some f => f end) with (fname_of r mn).
    assert (AQ' : inst_acceptable uids P r mn <-> (exists c, rec_class r = Ok c) /\ (r_expand r = ""%string \/ (made P (r_expand r) /\ numbered uids P (r_expand r)))).
    { unfold inst_acceptable. split; [tauto|]. intros [Q1 Q2]. split; [eauto|]. split; [exact Q1|]. split; [exact SM|]. split; [apply DUP; reflexivity|exact Q2]. }
    destruct (build_tree fm (r_ignore r) (r_stencil r) _ (snd s)) as [[t [[b1 j] al]]|ex| |]; cbn [settles rbind] in S |- *; [| | |contradiction].
    + destruct (PO _ _ eq_refl) as [ST' [H1 H2]]. cbn [fst snd] in H1, H2. destruct S as (S1 & S2 & S3 & S4).
      assert (ACC : acceptable uids annos P r) by (apply AQ, AQ'; auto).
      assert (INV' : inv n (P ++ [r]) (E ++ [e]) (b1, t)).
      { split; [exact H1|]. split; [exact H2|]. split; [|exact ST']. apply Forall_app. split; [exact FE|]. constructor; [exact F|constructor]. }
      assert (OWN : forall e0, In e0 [e] -> fixed_known e0 /\ (forall e', In e' E -> beside e' e0)) by (intros e0 [<-|[]]; auto).
      destruct al.
      * split; [discriminate|]. split; [eauto|]. intros s' H. assert (s' = (b1, t)) as -> by congruence. split; [exact ACC|]. split; [exact OWN|].
        exists [e]. split; [apply incl_refl|]. split; [intros y [<-|[]]; now left|exact INV'].
      * destruct (aliases_accept n (P ++ [r]) E fm mn (r_fixed r) (r_ignore r) (fname_of r mn) (r_expand r) x m j _ (r_alias r) F FW SC S2
          (ex_intro _ r (conj (in_elt r P []) J)) (b1, t) [e] INV') as (I1 & I2 & I3).
        split; [exact I1|]. split.
        -- intros _ K1 K2 K3. inversion K1; inversion K2; subst. apply I2; [assumption|assumption|]. intros e' e1 Q1 Q2. apply in_app_iff in Q1 as [Q1|[<-|[]]].
           ++ apply K3; [exact Q1|now right].
           ++ rewrite Forall_forall in *. auto.
        -- intros s' H. destruct (I3 _ H) as (E' & J1 & J2). split; [exact ACC|]. split; [exact OWN|]. exists (e :: E').
           split; [intros y [<-|[]]; now left|]. split; [intros y [<-|Q]; [now left|right; apply J1, Q]|]. exact J2.
    + split; [discriminate|]. split; [|discriminate]. intros A K1 K2 K3. exfalso. apply AQ, AQ' in A as [A1 A2]. apply S.
      split; [intros e' Q; apply K3; [exact Q|now left]|]. split; [exact A1|]. split; [inversion K1; assumption|exact A2].
    + split; [discriminate|]. split; [|discriminate]. intros A K1 K2 K3. exfalso. apply AQ, AQ' in A as [A1 A2]. apply S.
      split; [intros e' Q; apply K3; [exact Q|now left]|]. split; [exact A1|]. split; [inversion K1; assumption|exact A2].
Qed.

(** ** All records *)
Lemma encodings_app K L : encodings (K ++ L) = (encodings K ++ encodings L)%list.
Proof. apply flat_map_app. Qed.
Lemma stencils_app K L : stencils (K ++ L) = (stencils K ++ stencils L)%list.
Proof. apply flat_map_app. Qed.
Lemma fop_app {T} (R : T -> T -> Prop) K L : ForallOrdPairs R (K ++ L) <->
  ForallOrdPairs R K /\ ForallOrdPairs R L /\ forall a b, In a K -> In b L -> R a b.
Proof.
  induction K as [|a K IH]; cbn [app]; split.
  - intros H. split; [constructor|]. split; [exact H|]. intros ? ? [].
  - tauto.
  - inversion 1 as [|? ? H1 H2]; subst. apply IH in H2 as (H2 & H3 & H4). apply Forall_app in H1 as [H1 H1']. rewrite Forall_forall in H1'.
    split; [constructor; auto|]. split; [exact H3|]. intros x y [<-|I'] J; auto.
  - intros (H1 & H2 & H3). inversion H1; subst. constructor.
    + apply Forall_app. split; [assumption|]. apply Forall_forall. intros y J. apply H3; [now left|exact J].
    + apply IH. split; [assumption|]. split; [exact H2|]. intros x y I' J. apply H3; [now right|exact J].
Qed.
Lemma configure_accept incl0 excl0 recs : sizes32 recs -> forall P E s, inv (List.length (read incl0 excl0 recs)) P E s ->
  incl E (encodings P) -> incl (stencils P) E ->
  configure incl0 excl0 recs s <> UB /\
  (named_all recs -> (forall Q r R, read incl0 excl0 recs = (Q ++ r :: R)%list -> acceptable uids annos (P ++ Q) r) ->
     Forall fixed_known (encodings (read incl0 excl0 recs)) -> ForallOrdPairs beside (encodings (P ++ read incl0 excl0 recs)) ->
     exists s', configure incl0 excl0 recs s = Ok s') /\
  (forall s', configure incl0 excl0 recs s = Ok s' -> named_all recs /\
     (forall Q r R, read incl0 excl0 recs = (Q ++ r :: R)%list -> acceptable uids annos (P ++ Q) r) /\
     Forall fixed_known (stencils (read incl0 excl0 recs)) /\
     (ForallOrdPairs beside (stencils P) -> ForallOrdPairs beside (stencils (P ++ read incl0 excl0 recs)))).
Proof.
  intros SZ. induction recs as [|r recs IH]; intros P E s INV IE IS; cbn [configure].
  - cbn. split; [discriminate|]. split; [eauto|]. intros s' _. split; [intros ? []|]. split; [intros [|]; discriminate|]. split; [constructor|]. rewrite app_nil_r. auto.
  - assert (SZ' : sizes32 recs) by (intros r' d I'; apply SZ; now right). specialize (IH SZ').
    destruct (r_mn r) as [mn|] eqn:EM.
    + rewrite C18_filter_lemma. destruct (wantedb incl0 excl0 (r_tags r)) eqn:EW.
      * assert (RD : read incl0 excl0 (r :: recs) = r :: read incl0 excl0 recs).
        { unfold read, kept. cbn [filter]. rewrite EW. cbn [filter]. unfold has_name at 1. rewrite EM. reflexivity. }
        rewrite RD in *. cbn [List.length] in INV.
        destruct (parse_accept _ P E r mn s EM (fun d Q => SZ r d (or_introl eq_refl) Q) INV) as (P1 & P2 & P3).
        destruct (parse_inst s r mn) as [s1| | |] eqn:EP; cbn [rbind]; [| | |congruence].
        -- destruct (P3 _ eq_refl) as (A & O & E' & J1 & J2 & INV').
           assert (IE' : incl (E ++ E') (encodings (P ++ [r]))).
           { rewrite encodings_app. cbn [encodings flat_map]. rewrite app_nil_r. intros y Q. apply in_app_iff in Q as [Q|Q]; apply in_app_iff; [left; apply IE, Q|right; apply J2, Q]. }
           assert (IS' : incl (stencils (P ++ [r])) (E ++ E')).
           { rewrite stencils_app. cbn [stencils flat_map]. rewrite app_nil_r. intros y Q. apply in_app_iff in Q as [Q|Q]; apply in_app_iff; [left; apply IS, Q|right; apply J1, Q]. }
           destruct (IH _ _ _ INV' IE' IS') as (C1 & C2 & C3). split; [exact C1|]. split.
           ++ intros K1 K2 K3 K4. apply C2.
              ** intros r' I'. apply K1. now right.
              ** intros Q r' R0 Q'. rewrite <- app_assoc. apply (K2 (r :: Q) r' R0). cbn [app]. congruence.
              ** cbn [encodings flat_map] in K3. apply Forall_app in K3. apply K3.
              ** rewrite <- app_assoc. exact K4.
           ++ intros s' H. destruct (C3 _ H) as (D1 & D2 & D3 & D4). split; [intros r' [<-|I']; [congruence|auto]|]. split; [|split].
              ** intros [|r1 Q] r' R0 Q'; cbn [app] in Q'.
                 --- assert (r' = r) as -> by congruence. rewrite app_nil_r. exact A.
                 --- assert (r1 = r) as -> by congruence. specialize (D2 Q r' R0 ltac:(congruence)). rewrite <- app_assoc in D2. exact D2.
              ** cbn [stencils flat_map]. apply Forall_app. split; [|exact D3]. apply Forall_forall. intros y Q. apply O, Q.
              ** intros K. rewrite <- app_assoc in D4. apply D4. rewrite stencils_app. apply fop_app. split; [exact K|]. cbn [stencils flat_map]. rewrite app_nil_r. split.
                 --- destruct (rec_encs r); cbn [firstn]; repeat constructor.
                 --- intros a c Qa Qc. apply (O c Qc). apply IS, Qa.
        -- split; [discriminate|]. split; [|discriminate]. intros K1 K2 K3 K4. exfalso. destruct P2 as [s' Q]; [| | | |discriminate Q].
           ++ specialize (K2 [] r _ eq_refl). rewrite app_nil_r in K2. exact K2.
           ++ cbn [encodings flat_map] in K3. apply Forall_app in K3. apply K3.
           ++ rewrite encodings_app in K4. cbn [encodings flat_map] in K4. apply fop_app in K4 as (_ & K4 & _). apply fop_app in K4. apply K4.
           ++ intros e' e0 Q1 Q2. rewrite encodings_app in K4. cbn [encodings flat_map] in K4. apply fop_app in K4 as (_ & _ & K4). apply K4; [apply IE, Q1|]. apply in_app_iff. auto.
        -- split; [discriminate|]. split; [|discriminate]. intros K1 K2 K3 K4. exfalso. destruct P2 as [s' Q]; [| | | |discriminate Q].
           ++ specialize (K2 [] r _ eq_refl). rewrite app_nil_r in K2. exact K2.
           ++ cbn [encodings flat_map] in K3. apply Forall_app in K3. apply K3.
           ++ rewrite encodings_app in K4. cbn [encodings flat_map] in K4. apply fop_app in K4 as (_ & K4 & _). apply fop_app in K4. apply K4.
           ++ intros e' e0 Q1 Q2. rewrite encodings_app in K4. cbn [encodings flat_map] in K4. apply fop_app in K4 as (_ & _ & K4). apply K4; [apply IE, Q1|]. apply in_app_iff. auto.
      * assert (RD : read incl0 excl0 (r :: recs) = read incl0 excl0 recs) by (unfold read, kept; cbn [filter]; rewrite EW; reflexivity).
        rewrite RD in *. destruct (IH _ _ _ INV IE IS) as (C1 & C2 & C3). split; [exact C1|]. split.
        -- intros K1. apply C2. intros r' I'. apply K1. now right.
        -- intros s' H. destruct (C3 _ H) as (D1 & D2). split; [intros r' [<-|I']; [congruence|auto]|exact D2].
    + assert (RD : read incl0 excl0 (r :: recs) = read incl0 excl0 recs).
      { unfold read, kept. cbn [filter]. destruct (wantedb _ _ _); [|reflexivity]. cbn [filter]. unfold has_name at 1. rewrite EM. reflexivity. }
      rewrite RD in *. destruct (r_pseudo r) as [ps|] eqn:EPS.
      * destruct (IH _ _ _ INV IE IS) as (C1 & C2 & C3). split; [exact C1|]. split.
        -- intros K1. apply C2. intros r' I'. apply K1. now right.
        -- intros s' H. destruct (C3 _ H) as (D1 & D2). split; [intros r' [<-|I']; [congruence|auto]|exact D2].
      * split; [discriminate|]. split; [|discriminate]. intros K1. exfalso. exact (K1 r (or_introl eq_refl) EM EPS).
Qed.
(** ** The start *)
Lemma load_nu l B : forall used nu r nu' r', nu <= B -> (forall u, In u (map snd l) -> u + 1 <= B) -> ir_load l used nu r = Ok (nu', r') -> nu' <= B.
Proof.
  induction l as [|[m uid] l IH]; intros used nu r nu' r' L H; cbn [ir_load]; [intros Q; assert (nu' = nu) as -> by congruence; exact L|].
  destruct (uid =? INVALID_UID); [discriminate|]. destruct (existsb _ _); [discriminate|]. destruct (mfind (ir_map r) m); [discriminate|].
  destruct (da_add _ _ _); cbn [rbind]; try discriminate. intros Q. eapply IH; [|intros u I'; apply H; now right|exact Q].
  unfold allocate_uid. specialize (H uid (or_introl eq_refl)). assert (u32 (uid + 1) <= uid + 1) by (apply N.mod_le; discriminate). lia.
Qed.
Record starting (n : nat) (names : list string) (b : builder) : Prop := mkStarting {
  sg_nu : 0 < b_nu b /\ b_nu b + N.of_nat n + 150 < 2 ^ 32;
  sg_reg : reg_ok (fun _ => True) (b_nu b) (b_inst b);
  sg_up : da_up (ir_arr (b_inst b)) = DEFAULT_UP_SIZE;
  sg_ids : forall x, mfind (ir_map (b_inst b)) x <> None <-> In x names \/ In x (map fst uids);
  sg_made : forall x, find_ifact b x <> None <-> In x names;
  sg_idx : forall x i, find_ifact b x = Some i -> nth_error (b_facts b) i <> None;
  sg_annos : b_annos b = annos;
  sg_metas : b_metas b = [] }.
Lemma custom_starts n names b mn types : starting (S n) names b -> exists b', add_custom b mn types = Ok b' /\ starting n (mn :: names) b'.
Proof.
  intros [[G1 G1'] G2 G3 G4 G5 G6 G7 G8]. unfold add_custom, new_fact. cbn beta iota zeta. set (f := fact_add_anno _ _ _). unfold register_inst. cbn [set_reg set_facts b_inst b_nu].
  destruct (register_total (b_nu b) (b_inst b) mn G1 ltac:(lia) G2 G3) as (nu' & r' & uid & R). rewrite R. cbn [rbind fst snd].
  destruct (register_holds _ _ _ _ _ _ n G1 G1' G2 G3 R) as (H1 & H2 & H3 & H4).
  match goal with |- exists b', upd_fact ?bb ?i ?g = _ /\ _ => destruct (upd_total bb i g) as (b' & U & EB & KEEP) end.
  { cbn [set_inst set_reg set_facts b_facts]. rewrite nth_error_app2 by lia. rewrite Nat.sub_diag. discriminate. }
  rewrite U. exists b'. split; [reflexivity|]. cbn [set_inst set_reg set_facts b_facts] in *.
  assert (FI : forall x, find_ifact b' x = if String.eqb mn x then Some (List.length (b_facts b)) else find_ifact b x).
  { intros x. rewrite EB. unfold find_ifact. cbn [set_facts set_inst set_reg b_reg]. apply mfind_madd. }
  constructor.
  - rewrite EB. exact H1.
  - rewrite EB. exact H2.
  - rewrite EB. exact H3.
  - intros x. rewrite EB. cbn [set_facts set_inst b_inst]. rewrite H4, G4. cbn [In]. intuition congruence.
  - intros x. rewrite FI. cbn [In]. destruct (String.eqb_spec mn x) as [Q|Q]; [split; [auto|discriminate]|]. rewrite G5. intuition congruence.
  - intros x i. rewrite FI. destruct (String.eqb_spec mn x) as [Q|Q].
    + intros [= <-]. apply KEEP. rewrite nth_error_app2 by lia. rewrite Nat.sub_diag. discriminate.
    + intros K. apply KEEP. apply G6 in K. rewrite nth_error_app1; [exact K|]. now apply nth_error_Some.
  - rewrite EB. exact G7.
  - rewrite EB. exact G8.
Qed.
Lemma new_settles nu n : room uids nu n -> settles (builder_new uids annos nu) (uids_ok uids) /\
  forall b, builder_new uids annos nu = Ok b -> inv n [] [] (b, tree_new).
Proof.
  intros [N0 RM]. unfold builder_new, ir_new. set (r0 := mkIR [] _).
  assert (R0 : reg_ok (fun _ => False) nu r0).
  { split; try (cbn; discriminate). apply da_new_ok. reflexivity. }
  pose proof (load_checked uids [] nu r0 (ro_arr _ _ _ R0) eq_refl) as C.
  specialize (C ltac:(intros m u Q; assert (Q' : In u (map snd uids)) by (apply in_map_iff; exists (m, u); auto); specialize (RM u (or_intror Q')); unfold w32, DEFAULT_UP_SIZE; lia)).
  assert (B : forall u, In u (map snd uids) -> u + 1 <= 2 ^ 32 - N.of_nat n - 200) by (intros u Q; specialize (RM u (or_intror Q)); lia).
  specialize (RM nu (or_introl eq_refl)) as RN.
  cbv zeta in C. destruct (ir_load uids [] nu r0) as [[nu1 r1]|ex| |] eqn:L; cbn [rbind].
  - pose proof (load_nu uids (2 ^ 32 - N.of_nat n - 200) [] nu r0 nu1 r1 ltac:(lia) B L) as LN. pose proof (load_up _ _ _ _ _ _ L) as LU.
    destruct (load_ok uids [] nu r0 nu1 r1 ltac:(unfold w32; lia) R0 ltac:(cbn; discriminate) L) as (L1 & L2 & L3 & L4 & L5 & L6).
    set (b0 := mkB _ _ _ _ _ _ _).
    assert (S0 : starting (S (S n)) [] b0).
    { constructor; cbn [b0 b_nu b_inst b_annos b_metas b_facts].
      - split; lia.
      - eapply reg_ok_weaken; [|reflexivity|exact L3]. tauto.
      - rewrite LU. reflexivity.
      - intros x. cbn [In]. split.
        + intros Q. right. destruct (mfind (ir_map r1) x) as [u|] eqn:K; [|congruence]. apply L4 in K as [K|K]; [discriminate K|]. apply in_map_iff. exists (x, u). auto.
        + intros [[]|Q]. apply in_map_iff in Q as ([y u] & E1 & Q). cbn in E1. subst y. rewrite (L6 _ _ Q). discriminate.
      - intros x. unfold find_ifact. cbn. split; [congruence|tauto].
      - intros x i. unfold find_ifact. cbn. discriminate.
      - reflexivity.
      - reflexivity. }
    destruct (custom_starts _ _ _ "nop" [IT_INT; IT_ARITH] S0) as (b1 & E1 & S1). rewrite E1. cbn [rbind].
    destruct (custom_starts _ _ _ "cmov" [IT_CONDITIONAL; IT_MOVE] S1) as (b2 & E2 & S2). rewrite E2. cbn [settles]. split.
    + unfold uids_ok. destruct C as (C1 & C2 & C3 & _). auto.
    + intros b Q. assert (b = b2) as -> by congruence. destruct S2 as [G1 G2 G3 G4 G5 G6 G7 G8]. split; [|split; [|split; [constructor|apply stands_new]]].
      * constructor; auto.
        -- intros x. rewrite G4. unfold numbered, custom. cbn [In]. split; [intuition auto|]. intros [Q1|[Q1|(? & [] & _)]]; intuition auto.
        -- intros x. rewrite G5. unfold made, custom. cbn [In]. split; [intuition auto|]. intros [Q1|(? & ? & [] & _)]; intuition auto.
      * intros x. cbn [fst]. rewrite G8. cbn. split; [congruence|]. intros (? & [] & _).
  - cbn [settles]. split; [|discriminate]. intros (C1 & C2 & C3). apply C. split; [exact C1|]. split; [exact C2|]. split; [exact C3|]. split; [auto|]. cbn. auto.
  - contradiction.
  - contradiction.
Qed.

(** ** Tables *)
Lemma accept_lemma nu incl0 excl0 recs : sizes32 recs -> room uids nu (List.length (read incl0 excl0 recs)) ->
  let K := read incl0 excl0 recs in
  make_decoder uids annos nu incl0 excl0 recs <> UB /\
  (named_all recs -> uids_ok uids -> in_order uids annos K -> fitting (encodings K) -> exists s, make_decoder uids annos nu incl0 excl0 recs = Ok s) /\
  (forall s, make_decoder uids annos nu incl0 excl0 recs = Ok s -> named_all recs /\ uids_ok uids /\ in_order uids annos K /\ fitting (stencils K)).
Proof.
  intros SZ RM K. destruct (new_settles nu _ RM) as [S1 S2]. unfold make_decoder.
  destruct (builder_new uids annos nu) as [b| | |]; cbn [settles rbind] in *; [| | |contradiction].
  - destruct (configure_accept incl0 excl0 recs SZ [] [] (b, tree_new) (S2 _ eq_refl)) as (C1 & C2 & C3); [intros ? []|intros ? []|].
    split; [exact C1|]. split.
    + intros N1 _ O1 [F1 F2]. apply C2; [exact N1|exact O1|exact F1|exact F2].
    + intros s Q. destruct (C3 _ Q) as (D1 & D2 & D3 & D4). split; [exact D1|]. split; [exact S1|]. split; [exact D2|]. split; [exact D3|]. apply D4. constructor.
  - split; [discriminate|]. split; [|discriminate]. intros _ U. contradiction.
  - split; [discriminate|]. split; [|discriminate]. intros _ U. contradiction.
Qed.
End Builder.
