(** Lemmas about the decode tree: invariant, insertion, selection. *)
From Coq Require Import NArith List Bool String Lia Permutation Sorted ZifyBool ZifyN.
From Verif Require Import M_Base M_Field M_Forms M_Extract M_Trie S_Bits S_Trie L_Bits.
Import ListNotations.
Local Open Scope N_scope.

(** ** Root *)
Lemma slice_land lo len w : 0 < len -> N.land w (N.shiftl (N.ones len) lo) = N.shiftl (slice lo len w) lo.
Proof.
  intros Hl. apply N.bits_inj. intros i. rewrite N.land_spec, !shl_testbit, slice_testbit, ones_testbit.
  destruct (lo <=? i) eqn:E; cbn; [|apply andb_false_r].
  replace (lo + (i - lo)) with i by lia. rewrite andb_comm. reflexivity.
Qed.
Lemma slice_lt lo len w : slice lo len w < 2 ^ len.
Proof. unfold slice. apply N.mod_lt. apply N.pow_nonzero. lia. Qed.
Lemma slice_family ic lo len : lo + len <= 16 -> slice lo len (f_extract family_field ic) = slice lo len ic.
Proof.
  intros H. apply N.bits_inj. intros i. rewrite !slice_testbit.
  destruct (i <? len) eqn:E; [|reflexivity]. cbn [andb].
  rewrite f_extract_testbit by (unfold fok; cbn; lia). cbn [f_len f_rpos family_field].
  replace (0 + (lo + i)) with (lo + i) by lia. replace (lo + i <? 16) with true by lia. reflexivity.
Qed.
Lemma land_mod x m n : m < 2 ^ n -> N.land (x mod 2 ^ n) m = N.land x m.
Proof.
  intros H. apply N.bits_inj. intros i. rewrite !N.land_spec, <- N.land_ones, N.land_spec, ones_testbit.
  destruct (i <? n) eqn:E; [now rewrite andb_true_r|].
  rewrite (high_testbit m n i) by lia. now rewrite !andb_false_r.
Qed.
Lemma slice_mod lo len x n : lo + len <= n -> slice lo len (x mod 2 ^ n) = slice lo len x.
Proof.
  intros H. apply N.bits_inj. intros i. rewrite !slice_testbit, <- N.land_ones, N.land_spec, ones_testbit.
  destruct (i <? len) eqn:E; [cbn|reflexivity]. replace (lo + i <? n) with true by lia. apply andb_true_r.
Qed.
Lemma nseq_In from len x : In x (nseq from len) <-> from <= x < from + N.of_nat len.
Proof.
  revert from. induction len as [|k IH]; intros from; cbn [nseq In]; [lia|]. rewrite IH. lia.
Qed.
Definition class_ok (y : N) : bool :=
  forallb (fun p => Bool.eqb (fst p y) (length_class y =? snd p)) (combine root_matchers (nseq 0 6)) &&
  (length_class y <? 6).
Lemma class_ok_all : forallb class_ok (nseq 0 (N.to_nat 32768)) = true.
Proof. vm_compute. reflexivity. Qed.
Lemma length_class_mod x : length_class (x mod 2 ^ 15) = length_class x.
Proof. unfold length_class. rewrite !slice_mod by (vm_compute; discriminate). reflexivity. Qed.
Lemma family_class ic : length_class (f_extract family_field ic) = length_class ic.
Proof. unfold length_class. rewrite !slice_family by (vm_compute; discriminate). reflexivity. Qed.
Lemma matcher_mod m x : In m root_matchers -> m (x mod 2 ^ 15) = m x.
Proof.
  intros H. cbn [root_matchers In] in H.
  repeat destruct H as [<-|H]; [..|contradiction]; rewrite !(land_mod _ _ 15) by reflexivity; reflexivity.
Qed.
Lemma matcher_class i m ic : nth_error root_matchers i = Some m ->
  m (f_extract family_field ic) = (length_class ic =? N.of_nat i).
Proof.
  intros H. set (x := f_extract family_field ic).
  assert (Hy : class_ok (x mod 2 ^ 15) = true).
  { pose proof class_ok_all as A. rewrite forallb_forall in A. apply A.
    apply nseq_In. rewrite N2Nat.id. pose proof (N.mod_lt x (2 ^ 15)). change (2 ^ 15) with 32768 in *. lia. }
  unfold class_ok in Hy. apply andb_true_iff in Hy as [Hy _].
  rewrite length_class_mod in Hy. unfold x in Hy at 2. rewrite family_class in Hy.
  rewrite <- (matcher_mod m) by (eapply nth_error_In; eauto).
  rewrite forallb_forall in Hy. specialize (Hy (m, N.of_nat i)). cbn [fst snd] in Hy.
  apply eqb_prop. apply Hy.
  do 6 (destruct i as [|i]; [cbn in H; injection H as <-; cbn; tauto|]).
  cbn in H. destruct i; discriminate.
Qed.
Lemma length_class_lt ic : length_class ic < 6.
Proof. unfold length_class. repeat match goal with |- context [if ?b then _ else _] => destruct b end; lia. Qed.
Lemma root_class_spec ic : root_class ic = Some (length_class ic).
Proof.
  unfold root_class.
  assert (M := fun i m => matcher_class i m ic). unfold root_matchers in *. cbn [first_match].
  rewrite (M 0%nat _ eq_refl), (M 1%nat _ eq_refl), (M 2%nat _ eq_refl), (M 3%nat _ eq_refl),
          (M 4%nat _ eq_refl), (M 5%nat _ eq_refl).
  pose proof (length_class_lt ic).
  repeat match goal with |- context [if ?b then _ else _] => destruct b eqn:? end;
    f_equal; cbn; lia.
Qed.
Lemma C01_matchers_lemma ic i m : nth_error root_matchers i = Some m ->
  (m (f_extract family_field ic) = true <-> length_class ic = N.of_nat i).
Proof. intros H. rewrite (matcher_class i m ic H). apply N.eqb_eq. Qed.

(** ** Forms *)
Definition fokb (f : field) : bool := (0 <? f_len f) && (f_len f <? 32) && (f_rpos f + f_len f <=? 64).
Definition form_okb (fm : form) : bool :=
  forallb fokb (fm_fields fm) && forallb fokb (fm_ocfields fm) &&
  forallb (fun p => match get_field fm (fst p) with
                    | Ok f => match nth_error (fm_fields fm) (snd p) with
                              | Some g => (f_rpos f =? f_rpos g) && (f_len f =? f_len g)
                              | None => false
                              end
                    | _ => false
                    end) (fm_names fm) &&
  match fm_ocfields fm with [] => false | _ => true end.
Definition form_ok (fm : form) : Prop := form_okb fm = true.
Lemma registry_ok : forall n fm, get_form n = Ok fm -> form_ok fm.
Proof.
  assert (A : forallb form_okb form_registry = true) by (vm_compute; reflexivity).
  intros n fm H. unfold get_form in H. destruct (find _ form_registry) as [g|] eqn:E; [|discriminate].
  apply find_some in E as [E _]. rewrite forallb_forall in A. unfold form_ok.
  assert (g = fm) by congruence. subst g. auto.
Qed.
Lemma fokb_fok f : fokb f = true -> fok f /\ f_rpos f + f_len f <= 64.
Proof. unfold fokb, fok. intros H. lia. Qed.
Lemma form_ok_oc fm : form_ok fm -> Forall fok (fm_ocfields fm).
Proof.
  unfold form_ok, form_okb. intros H. rewrite !andb_true_iff in H. destruct H as [[[_ H] _] _].
  rewrite forallb_forall in H. apply Forall_forall. intros f Hf. now apply fokb_fok, H.
Qed.
Lemma form_ok_oc_nonnil fm : form_ok fm -> fm_ocfields fm <> [].
Proof.
  unfold form_ok, form_okb. intros H. rewrite !andb_true_iff in H. destruct H as [_ H].
  intros E. rewrite E in H. discriminate.
Qed.
Lemma get_field_in fm n f : get_field fm n = Ok f -> In f (fm_fields fm) /\ named fm n f.
Proof.
  unfold get_field, get_field_index. intros H.
  destruct (find _ (fm_names fm)) as [[n' i]|] eqn:E; cbn in H; [|discriminate].
  destruct (nth_error (fm_fields fm) i) as [g|] eqn:E2; [|discriminate]. assert (g = f) by congruence. subst g.
  apply find_some in E as [E E']. cbn in E'. apply String.eqb_eq in E'. subst n'.
  split; [eapply nth_error_In; eauto|exists i; auto].
Qed.
Lemma named_get fm n f : form_ok fm -> named fm n f ->
  exists g, get_field fm n = Ok g /\ f_rpos g = f_rpos f /\ f_len g = f_len f.
Proof.
  unfold form_ok, form_okb. intros H (i & Hi & Hn). rewrite !andb_true_iff in H. destruct H as [[_ H] _].
  rewrite forallb_forall in H. specialize (H _ Hi). cbn [fst snd] in H. rewrite Hn in H.
  destruct (get_field fm n) as [g| | |]; try discriminate. exists g. split; [reflexivity|]. lia.
Qed.
Lemma form_ok_field fm f : form_ok fm -> In f (fm_fields fm) -> fok f /\ f_rpos f + f_len f <= 64.
Proof.
  unfold form_ok, form_okb. intros H Hf. rewrite !andb_true_iff in H. destruct H as [[[H _] _] _].
  rewrite forallb_forall in H. now apply fokb_fok, H.
Qed.

(** ** Fixed-field mask *)
Lemma agree_on_bits f a b : agree_on f a b <->
  forall i, i < f_len f -> N.testbit a (f_rpos f + i) = N.testbit b (f_rpos f + i).
Proof.
  unfold agree_on. split.
  - intros H i Hi. assert (H' := f_equal (fun x => N.testbit x i) H). cbn in H'.
    rewrite !slice_testbit in H'. replace (i <? f_len f) with true in H' by lia. exact H'.
  - intros H. apply N.bits_inj. intros i. rewrite !slice_testbit. destruct (i <? f_len f) eqn:E; [|reflexivity].
    cbn. apply H. lia.
Qed.
Lemma agree_on_extract f a b : fok f -> (agree_on f a b <-> f_extract f a = f_extract f b).
Proof. intros H. unfold agree_on. now rewrite !f_extract_slice. Qed.
Lemma smask_agree f a b : fok f -> f_rpos f + f_len f <= 64 ->
  (N.land a (f_smask f) = N.land b (f_smask f) <-> agree_on f a b).
Proof.
  intros F L. rewrite agree_on_bits. split.
  - intros H i Hi. assert (H' := f_equal (fun x => N.testbit x (f_rpos f + i)) H). cbn in H'.
    rewrite !N.land_spec, f_smask_testbit in H' by auto.
    match type of H' with _ && ?c = _ => replace c with true in H' by lia end.
    now rewrite !andb_true_r in H'.
  - intros H. apply N.bits_inj. intros i. rewrite !N.land_spec, f_smask_testbit by auto.
    match goal with |- _ && ?c = _ => destruct c eqn:E end; [|now rewrite !andb_false_r].
    rewrite !andb_true_r. replace i with (f_rpos f + (i - f_rpos f)) by lia. apply H. lia.
Qed.
Lemma land_lor_eq a b m n : N.land a (N.lor m n) = N.land b (N.lor m n) <->
  N.land a m = N.land b m /\ N.land a n = N.land b n.
Proof.
  split.
  - intros H. split; apply N.bits_inj; intros i; assert (H' := f_equal (fun x => N.testbit x i) H); cbn in H';
      rewrite !N.land_spec, N.lor_spec in H'; rewrite !N.land_spec;
      destruct (N.testbit m i), (N.testbit n i), (N.testbit a i), (N.testbit b i); cbn in *; congruence.
  - intros [H1 H2]. now rewrite !N.land_lor_distr_r, H1, H2.
Qed.
Lemma fixed_mask_agree fm fl m a b : form_ok fm -> fixed_mask fm fl = Ok m ->
  (N.land a m = N.land b m <-> forall n f, In n fl -> named fm n f -> agree_on f a b).
Proof.
  intros F. revert m. induction fl as [|n fl IH]; intros m H; cbn [fixed_mask] in H.
  - assert (m = 0) by congruence. subst m. rewrite !N.land_0_r. split; [intros _ ? ? []|reflexivity].
  - destruct (get_field fm n) as [f| | |] eqn:E; cbn in H; try discriminate.
    destruct (fixed_mask fm fl) as [m'| | |] eqn:E'; cbn in H; try discriminate.
    assert (m = N.lor (f_smask f) m') by congruence. subst m.
    rewrite land_lor_eq, (IH m' eq_refl).
    destruct (get_field_in _ _ _ E) as [Hin Hnm]. destruct (form_ok_field _ _ F Hin) as [Hf Hl].
    rewrite smask_agree by auto. split.
    + intros [H1 H2] n0 f0 [->|H0] N0; [|eauto].
      destruct (named_get _ _ _ F N0) as (g & G & G1 & G2). rewrite E in G.
      assert (g = f) by congruence. subst g. unfold agree_on in *. now rewrite <- G1, <- G2.
    + intros H0. split; [eapply H0; [now left|eauto]|]. intros n0 f0 I0 N0. eapply H0; [right|]; eauto.
Qed.

(** ** Leaf (special-case) nodes *)
Definition item := (enc * pay)%type.
Definition has_fixed (x : item) : bool := match en_fixed (fst x) with [] => false | _ => true end.
Definition final_pay (x : item) (q : pay) : Prop :=
  if has_fixed x
  then exists m, fixed_mask (en_form (fst x)) (en_fixed (fst x)) = Ok m /\
                 q = mkPay (pay_fact (snd x)) (clone_cls (pay_cls (snd x))) m
  else q = snd x.
Definition entry_is (x : item) (s : sentry) : Prop :=
  se_mn s = en_mn (fst x) /\
  fixed_mask (en_form (fst x)) (en_fixed (fst x)) = Ok (se_mask s) /\
  se_value s = N.land (en_stencil (fst x)) (se_mask s) /\
  se_nfixed s = N.of_nat (nfixed (fst x)) /\
  se_pay s = Some (mkPay (pay_fact (snd x)) (clone_cls (pay_cls (snd x))) (se_mask s)).
Definition fewer (a b : sentry) : Prop := se_nfixed b <= se_nfixed a.
Definition leaf_ok (tab : list sentry) (d : option (string * pay)) (X : list item) : Prop :=
  Forall (fun x => form_ok (en_form (fst x))) X /\
  map (fun x : item => (en_mn (fst x), snd x)) (filter (fun x => negb (has_fixed x)) X) =
    (match d with None => [] | Some q => [q] end) /\
  (exists X', Permutation (filter has_fixed X) X' /\ Forall2 entry_is X' tab) /\
  StronglySorted fewer tab.
(** [e'], added to a leaf that has [e], can be told from it. *)
Definition clear_leaf (e e' : enc) : Prop :=
  ~ (en_fixed e = [] /\ en_fixed e' = []) /\
  (en_fixed e <> [] -> en_fixed e' <> [] -> (nfixed e' <= nfixed e)%nat -> ~ fixed_agree e (en_stencil e')).

Lemma hit_agree x s ic : form_ok (en_form (fst x)) -> entry_is x s ->
  (se_hit ic s = true <-> fixed_agree (fst x) ic).
Proof.
  intros F (_ & M & V & _). unfold se_hit. rewrite V, N.eqb_eq.
  rewrite (fixed_mask_agree _ _ _ ic (en_stencil (fst x)) F M). reflexivity.
Qed.
Lemma sp_insert_split s tab : exists l1 l2, tab = (l1 ++ l2)%list /\
  (forall s', se_nfixed s' = se_nfixed s -> sp_insert s' tab = (l1 ++ s' :: l2)%list) /\
  Forall (fun a => se_nfixed s <= se_nfixed a) l1 /\
  (StronglySorted fewer tab -> Forall (fun a => se_nfixed a <= se_nfixed s) l2).
Proof.
  induction tab as [|a r IH].
  - exists [], []. repeat split; auto.
  - destruct (se_nfixed a <? se_nfixed s) eqn:E.
    + exists [], (a :: r). split; [reflexivity|]. split; [|split; [constructor|]].
      * intros s' Hs. cbn. rewrite Hs, E. reflexivity.
      * intros H. apply StronglySorted_inv in H as [_ H]. constructor; [lia|].
        eapply Forall_impl; [|exact H]. unfold fewer. intros b. lia.
    + destruct IH as (l1 & l2 & -> & H1 & H2 & H3). exists (a :: l1), l2.
      split; [reflexivity|]. split; [|split].
      * intros s' Hs. cbn. rewrite Hs, E, H1 by auto. reflexivity.
      * constructor; [lia|auto].
      * intros H. apply StronglySorted_inv in H as [H _]. auto.
Qed.
Lemma sorted_mid s l1 l2 : StronglySorted fewer (l1 ++ l2) ->
  Forall (fun a => se_nfixed s <= se_nfixed a) l1 -> Forall (fun a => se_nfixed a <= se_nfixed s) l2 ->
  StronglySorted fewer (l1 ++ s :: l2).
Proof.
  intros H H1 H2. induction l1 as [|a l1 IH]; cbn in *.
  - constructor; auto.
  - apply StronglySorted_inv in H as [H H0]. inversion H1; subst. constructor; auto.
    apply Forall_app in H0 as [H0 H0']. apply Forall_app. split; auto.
Qed.
Lemma sp_set_first_mid p st l1 s l2 : Forall (fun a => se_hit st a = false) l1 -> se_hit st s = true ->
  sp_set_first p st (l1 ++ s :: l2) =
  Some (l1 ++ mkSE (se_mn s) (se_mask s) (se_fset s) (se_value s) (se_nfixed s)
                   (Some (mkPay (pay_fact p) (clone_cls (pay_cls p)) (se_mask s))) :: l2)%list.
Proof.
  intros H Hs. induction l1 as [|a l1 IH]; cbn.
  - now rewrite Hs.
  - inversion H; subst. rewrite H2, IH by auto. reflexivity.
Qed.
Lemma find_mid {A} (f : A -> bool) l1 s l2 : Forall (fun a => f a = false) l1 -> f s = true ->
  find f (l1 ++ s :: l2) = Some s.
Proof. intros H Hs. induction l1 as [|a l1 IH]; cbn; [now rewrite Hs|]. inversion H; subst. rewrite H2. auto. Qed.

Lemma leaf_ok_new : leaf_ok [] None [].
Proof. split; [constructor|]. split; [reflexivity|]. split; [exists []; split; constructor|constructor]. Qed.
Lemma Forall2_in_r {A B} (R : A -> B -> Prop) l l' b : Forall2 R l l' -> In b l' -> exists a, In a l /\ R a b.
Proof. induction 1; intros []; [subst; eexists; split; [now left|auto]|]. destruct IHForall2 as (a & ? & ?); auto. exists a. split; [now right|auto]. Qed.
Lemma Forall2_in_l {A B} (R : A -> B -> Prop) l l' a : Forall2 R l l' -> In a l -> exists b, In b l' /\ R a b.
Proof. induction 1; intros []; [subst; eexists; split; [now left|auto]|]. destruct IHForall2 as (b & ? & ?); auto. exists b. split; [now right|auto]. Qed.

(** Everything buildLeaf_ does to a leaf node. *)
Definition leaf_add (e : enc) (p : pay) (tab : list sentry) (d : option (string * pay))
  : res (list sentry * option (string * pay) * bool) :=
  let* tab1 := match en_fixed e with
               | [] => Ok tab
               | _ => add_special (en_form e) (en_mn e) (en_stencil e) (en_fixed e) tab
               end in
  sp_place (en_mn e) (en_stencil e) p tab1 d.

Lemma leaf_add_ok tab d X e p tab' d' al :
  leaf_ok tab d X -> form_ok (en_form e) -> Forall (fun x => clear_leaf (fst x) e) X ->
  leaf_add e p tab d = Ok (tab', d', al) ->
  al = false /\ leaf_ok tab' d' (X ++ [(e, p)]).
Proof.
  intros (LF & LD & (X' & LP & L2) & LS) F C H. unfold leaf_add in H.
  destruct (en_fixed e) as [|n0 fl0] eqn:EF.
  - (* no fixed fields *)
    cbn [rbind] in H.
    assert (d = None) as ->.
    { destruct d as [q|]; [|reflexivity]. exfalso.
      assert (In q (map (fun x : item => (en_mn (fst x), snd x)) (filter (fun x => negb (has_fixed x)) X)))
        by (rewrite LD; now left).
      apply in_map_iff in H0 as (x & _ & Hx). apply filter_In in Hx as [Hx Hf].
      rewrite Forall_forall in C. destruct (C x Hx) as [C1 _]. apply C1. split; [|auto].
      unfold has_fixed in Hf. destruct (en_fixed (fst x)); [reflexivity|discriminate]. }
    assert (tab' = tab /\ d' = Some (en_mn e, p) /\ al = false) as (-> & -> & ->).
    { unfold sp_place in H. unfold sp_get_node in H. destruct (find (se_hit (en_stencil e)) tab) as [s|] eqn:E.
      - assert (exists q, se_pay s = Some q) as [q Hq].
        { apply find_some in E as [E _]. destruct (Forall2_in_r _ _ _ _ L2 E) as (x & _ & Hx).
          destruct Hx as (_ & _ & _ & _ & Hp). eauto. }
        rewrite Hq in H. cbn in H. split; [congruence|split; congruence].
      - cbn [option_map] in H. unfold sp_add in H.
        assert (sp_set_first p (en_stencil e) tab = None) as R.
        { clear - E. induction tab as [|a r IH]; cbn in *; [reflexivity|].
          destruct (se_hit _ a); [discriminate|]. now rewrite IH. }
        rewrite R in H. cbn in H. split; [congruence|split; congruence]. }
    split; [reflexivity|]. split; [|split; [|split]].
    + apply Forall_app. split; auto.
    + rewrite filter_app. cbn. unfold has_fixed at 2. cbn. rewrite EF. cbn. rewrite map_app, LD. reflexivity.
    + exists X'. split; [|auto]. rewrite filter_app. cbn. unfold has_fixed at 2. cbn. rewrite EF. cbn.
      now rewrite app_nil_r.
    + auto.
  - (* fixed fields *)
    rewrite <- EF in H. unfold add_special in H.
    destruct (fixed_mask (en_form e) (en_fixed e)) as [m| | |] eqn:EM; cbn [rbind] in H; try discriminate.
    destruct (get_field_id_set (en_form e) (en_fixed e)) as [fs| | |] eqn:ES; cbn [rbind] in H; try discriminate.
    match type of H with context [sp_insert ?s tab] => set (s0 := s) in * end.
    destruct (rassert _) eqn:EA; cbn [rbind] in H; try discriminate. clear EA a.
    destruct (sp_insert_split s0 tab) as (l1 & l2 & -> & I1 & I2 & I3).
    rewrite (I1 s0 eq_refl) in H. specialize (I3 LS).
    apply Forall2_app_inv_r in L2 as (X1 & X2 & L2a & L2b & ->).
    assert (XF : forall x, In x (X1 ++ X2)%list -> In x X /\ en_fixed (fst x) <> []).
    { intros x Hx. apply (Permutation_in _ (Permutation_sym LP)) in Hx. apply filter_In in Hx as [Hx Hf].
      split; [auto|]. unfold has_fixed in Hf. destruct (en_fixed (fst x)); [discriminate|congruence]. }
    assert (HN : Forall (fun a => se_hit (en_stencil e) a = false) l1).
    { apply Forall_forall. intros a Ha. destruct (Forall2_in_r _ _ _ _ L2a Ha) as (x & Hx & Ex).
      destruct (XF x (in_or_app _ _ _ (or_introl Hx))) as [HX Hne].
      destruct (se_hit (en_stencil e) a) eqn:E; [|reflexivity]. exfalso.
      rewrite Forall_forall in C, LF. destruct (C x HX) as [_ C2].
      apply C2; [auto|congruence| |apply (hit_agree x a (en_stencil e) (LF x HX) Ex); exact E].
      rewrite Forall_forall in I2. specialize (I2 a Ha). cbn [se_nfixed s0] in I2.
      destruct Ex as (_ & _ & _ & Nf & _). rewrite Nf in I2. unfold nfixed. unfold nfixed in I2. lia. }
    assert (H0 : se_hit (en_stencil e) s0 = true) by (unfold se_hit; cbn; apply N.eqb_refl).
    unfold sp_place, sp_get_node, sp_add in H.
    rewrite (find_mid _ l1 s0 l2 HN H0), (sp_set_first_mid p _ l1 s0 l2 HN H0) in H. cbn [se_pay s0 rbind] in H.
    match type of H with Ok (?t, _, _) = _ => assert (tab' = t) as -> by congruence end.
    assert (d' = d) as -> by congruence. assert (al = false) as -> by congruence.
    assert (HFx : has_fixed (e, p) = true) by (unfold has_fixed; cbn; rewrite EF; reflexivity).
    split; [reflexivity|]. split; [|split; [|split]].
    + apply Forall_app. split; auto.
    + rewrite filter_app. cbn [filter]. rewrite HFx. cbn. rewrite app_nil_r. exact LD.
    + exists (X1 ++ (e, p) :: X2)%list. split.
      * rewrite filter_app. cbn [filter]. rewrite HFx.
        eapply Permutation_trans; [|apply Permutation_cons_app, Permutation_refl].
        eapply Permutation_trans; [apply Permutation_app_comm|]. cbn. now apply perm_skip.
      * apply Forall2_app; [auto|]. constructor; [|auto].
        repeat split; cbn; auto.
    + apply sorted_mid; auto.
Qed.

Lemma leaf_sel tab d X ic : leaf_ok tab d X ->
  match tsel (Special tab d) ic with
  | Ok (mn, q) => exists x, In x X /\ mn = en_mn (fst x) /\ final_pay x q /\ fixed_agree (fst x) ic /\
      forall y, In y X -> fixed_agree (fst y) ic -> (nfixed (fst y) <= nfixed (fst x))%nat
  | Throw EUnknownOpcode => forall x, In x X -> ~ fixed_agree (fst x) ic
  | _ => False
  end.
Proof.
  intros (LF & LD & (X' & LP & L2) & LS). rewrite Forall_forall in LF. cbn [tsel].
  assert (XF : forall x, In x X' <-> In x X /\ has_fixed x = true).
  { intros x. rewrite <- filter_In. split; [apply Permutation_in, Permutation_sym; auto|apply Permutation_in; auto]. }
  assert (NF : forall x, has_fixed x = false -> en_fixed (fst x) = []).
  { intros x. unfold has_fixed. destruct (en_fixed (fst x)); [reflexivity|discriminate]. }
  destruct (find (se_hit ic) tab) as [s|] eqn:E.
  - assert (exists l1 l2, tab = (l1 ++ s :: l2)%list /\ Forall (fun a => se_hit ic a = false) l1 /\ se_hit ic s = true)
      as (l1 & l2 & -> & HN & Hs).
    { clear - E. induction tab as [|a r IH]; cbn in E; [discriminate|].
      destruct (se_hit ic a) eqn:Ea.
      - assert (a = s) by congruence. subst. exists [], r. repeat split; auto.
      - destruct (IH E) as (l1 & l2 & -> & ? & ?). exists (a :: l1), l2. repeat split; auto. }
    apply Forall2_app_inv_r in L2 as (X1 & X2' & L2a & L2b & ->).
    inversion L2b as [|x s' X2 l2' Ex L2c E1 E2]; subst.
    assert (Hx : In x X /\ has_fixed x = true) by (apply XF, in_or_app; right; now left).
    pose proof Ex as (Mn & Fm & Va & Nf & Pa). rewrite Pa. exists x.
    split; [tauto|]. split; [exact Mn|]. split; [|split].
    + unfold final_pay. destruct Hx as [_ ->]. eauto.
    + apply (hit_agree x s); auto. apply LF; tauto.
    + intros y Hy Ay. destruct (has_fixed y) eqn:Fy.
      * assert (Hy' : In y (X1 ++ x :: X2)%list) by (apply XF; auto).
        apply in_app_or in Hy' as [Hy'|[<-|Hy']]; [|lia|].
        -- destruct (Forall2_in_l _ _ _ _ L2a Hy') as (a & Ha & Ey). exfalso.
           rewrite Forall_forall in HN. specialize (HN a Ha).
           apply (hit_agree y a ic (LF y Hy) Ey) in Ay. congruence.
        -- destruct (Forall2_in_l _ _ _ _ L2c Hy') as (a & Ha & Ey).
           assert (fewer s a).
           { clear - LS Ha. induction l1 as [|b l1 IH]; cbn in LS; apply StronglySorted_inv in LS as [LS LF0].
             - rewrite Forall_forall in LF0. auto.
             - auto. }
           unfold fewer in H. destruct Ey as (_ & _ & _ & Ny & _). rewrite Ny, Nf in H. lia.
      * unfold nfixed. rewrite (NF y Fy). cbn. lia.
  - destruct d as [[mn q]|].
    + assert (In (mn, q) (map (fun x : item => (en_mn (fst x), snd x)) (filter (fun x => negb (has_fixed x)) X)))
        by (rewrite LD; now left).
      apply in_map_iff in H as (x & Hxq & Hx). apply filter_In in Hx as [Hx Hf]. apply negb_true_iff in Hf.
      exists x. split; [auto|]. split; [congruence|]. split; [|split].
      * unfold final_pay. rewrite Hf. congruence.
      * intros n f Hn. rewrite (NF x Hf) in Hn. destruct Hn.
      * intros y Hy Ay. destruct (has_fixed y) eqn:Fy.
        -- exfalso. assert (Hy' : In y X') by (apply XF; auto).
           destruct (Forall2_in_l _ _ _ _ L2 Hy') as (a & Ha & Ey).
           apply (hit_agree y a ic (LF y Hy) Ey) in Ay. pose proof (find_none _ _ E a Ha). congruence.
        -- unfold nfixed. rewrite (NF y Fy). cbn. lia.
    + intros x Hx Ax. destruct (has_fixed x) eqn:Fx.
      * assert (Hx' : In x X') by (apply XF; auto).
        destruct (Forall2_in_l _ _ _ _ L2 Hx') as (a & Ha & Ex).
        apply (hit_agree x a ic (LF x Hx) Ex) in Ax. pose proof (find_none _ _ E a Ha). congruence.
      * assert (In (en_mn (fst x), snd x) (map (fun x : item => (en_mn (fst x), snd x)) (filter (fun x => negb (has_fixed x)) X))).
        { apply in_map_iff. exists x. split; [reflexivity|]. apply filter_In. rewrite Fx. auto. }
        rewrite LD in H. destruct H.
Qed.

(** ** Inner nodes *)
Definition path := list (field * bool).      (* opcode field, ignored? *)
Definition titem := (path * item)%type.
Definition st_of (t : titem) : N := en_stencil (fst (snd t)).
Fixpoint sub (i : N) (E : list titem) : list titem :=
  match E with
  | [] => []
  | ((f, false) :: r, x) :: E' =>
      if f_extract f (en_stencil (fst x)) =? i then (r, x) :: sub i E' else sub i E'
  | _ :: E' => sub i E'
  end.
Fixpoint subd (E : list titem) : list titem :=
  match E with
  | [] => []
  | ((_, true) :: r, x) :: E' => (r, x) :: subd E'
  | _ :: E' => subd E'
  end.
Inductive repr : node -> list titem -> Prop :=
| rp_dense f tab d E :
    Forall (fun t => exists g b r, fst t = (g, b) :: r /\ f_equiv f g = true) E ->
    (forall i, tab i = None -> sub i E = []) ->
    (forall i c, tab i = Some c -> repr c (sub i E)) ->
    (d = None -> subd E = []) ->
    (forall c, d = Some c -> repr c (subd E)) ->
    repr (Dense f tab d) E
| rp_special tab d E :
    Forall (fun t => fst t = []) E -> leaf_ok tab d (map snd E) -> repr (Special tab d) E.

Lemma equiv_extract f g ic : f_equiv f g = true -> f_extract f ic = f_extract g ic.
Proof.
  unfold f_equiv, f_extract, f_mask. intros H. apply andb_true_iff in H as [H1 H2].
  apply N.eqb_eq in H1, H2. now rewrite H1, H2.
Qed.
Lemma sub_app i E E' : sub i (E ++ E') = (sub i E ++ sub i E')%list.
Proof.
  induction E as [|[[|[f b] r] x] E IH]; cbn; auto. destruct b; [auto|]. destruct (_ =? i); cbn; now rewrite IH.
Qed.
Lemma subd_app E E' : subd (E ++ E') = (subd E ++ subd E')%list.
Proof. induction E as [|[[|[f b] r] x] E IH]; cbn; auto. destruct b; cbn; now rewrite IH. Qed.
Lemma sub_in i E r x : In (r, x) (sub i E) <->
  exists f, In ((f, false) :: r, x) E /\ f_extract f (en_stencil (fst x)) = i.
Proof.
  induction E as [|[[|[f b] r'] y] E IH]; cbn.
  - split; [tauto|intros (f & [] & _)].
  - rewrite IH. split; intros (g & H & H'); exists g; (split; [|auto]); [now right|destruct H; [discriminate|auto]].
  - destruct b.
    + rewrite IH. split; intros (g & H & H'); exists g; (split; [|auto]); [now right|destruct H; [discriminate|auto]].
    + destruct (f_extract f (en_stencil (fst y)) =? i) eqn:Q; cbn; rewrite IH.
      * apply N.eqb_eq in Q. split.
        -- intros [H|(g & H & H')]; [|exists g; auto]. assert (r' = r) by congruence. assert (y = x) by congruence. subst.
           exists f. auto.
        -- intros (g & [H|H] & H'); [left; inversion H; reflexivity|right; eauto].
      * apply N.eqb_neq in Q. split.
        -- intros (g & H & H'). exists g. auto.
        -- intros (g & [H|H] & H'); [|eauto]. exfalso. apply Q. inversion H; subst; reflexivity.
Qed.
Lemma subd_in E r x : In (r, x) (subd E) <-> exists f, In ((f, true) :: r, x) E.
Proof.
  induction E as [|[[|[f b] r'] y] E IH]; cbn.
  - split; [tauto|intros (f & [])].
  - rewrite IH. split; intros (g & H); exists g; [now right|destruct H; [discriminate|auto]].
  - destruct b; cbn; rewrite IH.
    + split.
      * intros [H|(g & H)]; [|exists g; auto]. exists f. left. inversion H; reflexivity.
      * intros (g & [H|H]); [left; inversion H; reflexivity|right; eauto].
    + split; intros (g & H); exists g; [now right|destruct H; [discriminate|auto]].
Qed.

Lemma repr_dense_new f : repr (dense_new f) [].
Proof. constructor; intros; cbn in *; auto; discriminate. Qed.
Lemma repr_special_new : repr special_new [].
Proof. constructor; [constructor|apply leaf_ok_new]. Qed.

(** Same remaining path. *)
Definition same_path (p : path) (st : N) (p' : path) (st' : N) : Prop :=
  Forall2 (fun a b => f_equiv (fst a) (fst b) = true /\ snd a = snd b /\
                      (snd a = false -> f_extract (fst a) st = f_extract (fst b) st')) p p'.

Definition leaf_adds {A} (e : enc) (Q : A -> pay -> Prop) (leaf : node -> res (node * A)) : Prop :=
  forall n n' a, leaf n = Ok (n', a) ->
  exists tab d tab' d' p al, n = Special tab d /\ n' = Special tab' d' /\ leaf_add e p tab d = Ok (tab', d', al) /\ Q a p.

Definition mkpath (ign : list string) (fs : list field) : path :=
  map (fun f => (f, existsb (String.eqb (f_name f)) ign)) fs.

Lemma f_equiv_sym f g : f_equiv f g = f_equiv g f.
Proof. unfold f_equiv. now rewrite (N.eqb_sym (f_rpos f)), (N.eqb_sym (f_len f)). Qed.
Lemma f_equiv_trans f g h : f_equiv f g = true -> f_equiv g h = true -> f_equiv f h = true.
Proof. unfold f_equiv. intros H1 H2. lia. Qed.

(** Inserting [e] below a node.  The payload comes from the leaf. *)
Lemma descend_ok {A} (e : enc) (Q : A -> pay -> Prop) (leaf : node -> res (node * A)) fs :
  form_ok (en_form e) -> leaf_adds e Q leaf ->
  forall n E n' a, repr n E ->
  (forall p x, In (p, x) E -> same_path p (en_stencil (fst x)) (mkpath (en_ign e) fs) (en_stencil e) ->
     clear_leaf (fst x) e) ->
  descend (en_ign e) (en_stencil e) leaf fs n = Ok (n', a) ->
  exists n0 n0' p tab d tab' d', leaf n0 = Ok (n0', a) /\ n0 = Special tab d /\ n0' = Special tab' d' /\
    leaf_add e p tab d = Ok (tab', d', false) /\ Q a p /\
    repr n' (E ++ [(mkpath (en_ign e) fs, (e, p))]).
Proof.
  intros F LA. induction fs as [|f rest IH]; intros n E n' a R C H; [discriminate|].
  cbn [descend] in H. destruct n as [g tab d|tab d]; [|discriminate].
  destruct (f_equiv g f) eqn:EQ; cbn [negb] in H; [|discriminate].
  inversion R as [g' tab' d' E' R1 R2 R3 R4 R5|]; subst.
  set (fresh := match rest with [] => special_new | f2 :: _ => dense_new f2 end) in *.
  set (below := fun child => match rest with [] => leaf child | _ :: _ => descend (en_ign e) (en_stencil e) leaf rest child end) in *.
  assert (RF : repr fresh []) by (unfold fresh; destruct rest; [apply repr_special_new|apply repr_dense_new]).
  (* the step below, for a child representing E0 *)
  assert (B : forall child E0 child', repr child E0 ->
     (forall p x, In (p, x) E0 -> same_path p (en_stencil (fst x)) (mkpath (en_ign e) rest) (en_stencil e) -> clear_leaf (fst x) e) ->
     below child = Ok (child', a) ->
     exists n0 n0' p tab d tab' d', leaf n0 = Ok (n0', a) /\ n0 = Special tab d /\ n0' = Special tab' d' /\
       leaf_add e p tab d = Ok (tab', d', false) /\ Q a p /\
       repr child' (E0 ++ [(mkpath (en_ign e) rest, (e, p))])).
  { intros child E0 child' Rc Cc Hc. unfold below in Hc. destruct rest as [|f2 rest'].
    - destruct (LA _ _ _ Hc) as (t & dd & t' & dd' & p & al & -> & -> & Hl & HQ).
      inversion Rc as [|t0 d0 E1 Rn Rl]; subst.
      assert (K : al = false /\ leaf_ok t' dd' (map snd E0 ++ [(e, p)])).
      { eapply leaf_add_ok; eauto. apply Forall_forall. intros x Hx. apply in_map_iff in Hx as ([q y] & <- & Hq).
        apply (Cc q y Hq). rewrite Forall_forall in Rn. specialize (Rn _ Hq). cbn in Rn. subst q. constructor. }
      destruct K as [-> K].
      exists (Special t dd), (Special t' dd'), p, t, dd, t', dd'. repeat split; auto.
      constructor; [apply Forall_app; split; auto|]. rewrite map_app. exact K.
    - eapply IH; eauto. }
  assert (HF : forall x : item, Forall (fun t : titem => exists g0 b r, fst t = (g0, b) :: r /\ f_equiv g g0 = true)
                 (E ++ [(mkpath (en_ign e) (f :: rest), x)])).
  { intros x. apply Forall_app. split; [auto|]. constructor; [|constructor]. cbn. eauto. }
  cbn [descend] in H. unfold is_ignored in H.
  destruct (existsb (String.eqb (f_name f)) (en_ign e)) eqn:EI.
  - assert (H1 : (let* (child', a0) := below (match d with None => fresh | Some c => c end) in
                  Ok (Dense g tab (Some child'), a0)) = Ok (n', a)) by exact H. clear H. rename H1 into H.
    destruct (below (match d with None => fresh | Some c => c end)) as [[child' a']| | |] eqn:EB; cbn [rbind] in H; try discriminate.
    assert (a' = a) by congruence. subst a'. assert (n' = Dense g tab (Some child')) as -> by congruence.
    assert (RC : repr (match d with None => fresh | Some c => c end) (subd E)).
    { destruct d as [c|]; [auto|]. rewrite (R4 eq_refl). exact RF. }
    destruct (B _ _ child' RC) as (n0 & n0' & p & t & dd & t' & dd' & L1 & L2 & L3 & L4 & LQ & L5); [|exact EB|].
    { intros p x Hp Sp. apply subd_in in Hp as (f' & Hp). apply (C _ _ Hp).
      cbn [mkpath map]. constructor; [|exact Sp]. cbn. split; [|split; [auto|discriminate]].
      rewrite Forall_forall in R1. destruct (R1 _ Hp) as (g0 & b0 & r0 & E0 & Qe). cbn in E0.
      assert (g0 = f') by (inversion E0; reflexivity). subst g0. rewrite f_equiv_sym in Qe. eapply f_equiv_trans; eauto. }
    exists n0, n0', p, t, dd, t', dd'. repeat split; auto.
    assert (S1 : forall i, sub i (E ++ [(mkpath (en_ign e) (f :: rest), (e, p))]) = sub i E).
    { intros i. rewrite sub_app. cbn. rewrite EI. apply app_nil_r. }
    assert (S2 : subd (E ++ [(mkpath (en_ign e) (f :: rest), (e, p))]) = (subd E ++ [(mkpath (en_ign e) rest, (e, p))])%list).
    { rewrite subd_app. cbn. rewrite EI. reflexivity. }
    constructor; auto.
    + intros i Hi. rewrite S1. auto.
    + intros i c Hi. rewrite S1. auto.
    + discriminate.
    + intros c Hc. assert (c = child') by congruence. subst c. rewrite S2. exact L5.
  - set (i := f_extract g (en_stencil e)) in *.
    assert (H1 : (let* (child', a0) := below (match tab i with None => fresh | Some c => c end) in
                  Ok (Dense g (upd_tab tab i child') d, a0)) = Ok (n', a)) by exact H. clear H. rename H1 into H.
    destruct (below (match tab i with None => fresh | Some c => c end)) as [[child' a']| | |] eqn:EB; cbn [rbind] in H; try discriminate.
    assert (a' = a) by congruence. subst a'. assert (n' = Dense g (upd_tab tab i child') d) as -> by congruence.
    assert (RC : repr (match tab i with None => fresh | Some c => c end) (sub i E)).
    { destruct (tab i) as [c|] eqn:Et; [auto|]. rewrite (R2 _ Et). exact RF. }
    destruct (B _ _ child' RC) as (n0 & n0' & p & t & dd & t' & dd' & L1 & L2 & L3 & L4 & LQ & L5); [|exact EB|].
    { intros p x Hp Sp. apply sub_in in Hp as (f' & Hp & Hi). apply (C _ _ Hp).
      rewrite Forall_forall in R1. destruct (R1 _ Hp) as (g0 & b0 & r0 & E0 & Qe). cbn in E0.
      assert (g0 = f') by (inversion E0; reflexivity). subst g0.
      cbn [mkpath map]. constructor; [|exact Sp]. cbn. split; [|split; [auto|]].
      - rewrite f_equiv_sym in Qe. eapply f_equiv_trans; eauto.
      - intros _. rewrite Hi. unfold i. now apply equiv_extract. }
    exists n0, n0', p, t, dd, t', dd'. repeat split; auto.
    assert (Ef : f_extract f (en_stencil e) = i) by (unfold i; symmetry; now apply equiv_extract).
    assert (S1 : forall j, sub j (E ++ [(mkpath (en_ign e) (f :: rest), (e, p))]) =
                 if i =? j then (sub j E ++ [(mkpath (en_ign e) rest, (e, p))])%list else sub j E).
    { intros j. rewrite sub_app. cbn. rewrite EI. cbn [fst]. rewrite Ef. destruct (i =? j); [reflexivity|apply app_nil_r]. }
    assert (S2 : subd (E ++ [(mkpath (en_ign e) (f :: rest), (e, p))]) = subd E).
    { rewrite subd_app. cbn. rewrite EI. apply app_nil_r. }
    constructor; auto.
    + intros j Hj. unfold upd_tab in Hj. rewrite S1. rewrite (N.eqb_sym i j). destruct (j =? i) eqn:J; [discriminate|auto].
    + intros j c Hj. unfold upd_tab in Hj. rewrite S1. rewrite (N.eqb_sym i j). destruct (j =? i) eqn:J; [|auto].
      apply N.eqb_eq in J. subst j. assert (c = child') by congruence. subst c. exact L5.
    + intros Hd. rewrite S2. auto.
    + intros c Hc. rewrite S2. auto.
Qed.

(** Selection below a node. *)
Definition pmatch (p : path) (st ic : N) : Prop :=
  Forall (fun a => snd a = false -> f_extract (fst a) ic = f_extract (fst a) st) p.
Definition flags (p : path) : list bool := map (fun a => negb (snd a)) p.
Definition better (p : path) (x : item) (q : path) (y : item) : Prop :=
  earlier_specified (flags p) (flags q) \/
  (flags p = flags q /\ (nfixed (fst y) < nfixed (fst x))%nat).

Lemma earlier_cons b p q : earlier_specified (b :: p) (b :: q) <-> earlier_specified p q.
Proof.
  split.
  - intros (c & r & r' & H1 & H2). destruct c as [|b' c]; cbn in *; [congruence|].
    exists c, r, r'. split; congruence.
  - intros (c & r & r' & -> & ->). exists (b :: c), r, r'. auto.
Qed.
Lemma better_cons f g b p q x y : better ((f, b) :: p) x ((g, b) :: q) y -> better p x q y.
Proof.
  intros [H|[H H']]; cbn in *.
  - left. eapply earlier_cons. exact H.
  - right. split; [inversion H; auto|auto].
Qed.
Lemma better_ign f g p q x y : ~ better ((f, true) :: p) x ((g, false) :: q) y.
Proof.
  intros [(c & r & r' & H1 & H2)|[H H']]; cbn in *; [|congruence].
  destruct c as [|b c]; cbn in *; congruence.
Qed.

Lemma repr_sel n E ic : repr n E ->
  match tsel n ic with
  | Ok (mn, q) => exists p x, In (p, x) E /\ mn = en_mn (fst x) /\ final_pay x q /\
      pmatch p (en_stencil (fst x)) ic /\ fixed_agree (fst x) ic /\
      forall p' y, In (p', y) E -> pmatch p' (en_stencil (fst y)) ic -> fixed_agree (fst y) ic ->
        ~ better p' y p x
  | Throw EUnknownOpcode => forall p x, In (p, x) E -> pmatch p (en_stencil (fst x)) ic -> ~ fixed_agree (fst x) ic
  | _ => False
  end.
Proof.
  intros R. induction R as [f tab d E R1 R2 R3 IH3 R4 R5 IH5|tab d E R1 R2].
  - rewrite Forall_forall in R1.
    (* where a matching item sits *)
    assert (W : forall p x, In (p, x) E -> pmatch p (en_stencil (fst x)) ic ->
       exists r, pmatch r (en_stencil (fst x)) ic /\
       ((exists g, p = (g, true) :: r /\ In (r, x) (subd E)) \/
        (exists g, p = (g, false) :: r /\ In (r, x) (sub (f_extract f ic) E)))).
    { intros p x Hin Hm. destruct (R1 _ Hin) as (g & b & r & E0 & Q). cbn in E0. subst p.
      inversion Hm as [|a l Ha Hr]; subst. exists r. split; [exact Hr|]. destruct b.
      - left. exists g. split; [reflexivity|]. apply subd_in. eauto.
      - right. exists g. split; [reflexivity|]. apply sub_in. exists g. split; [exact Hin|].
        cbn in Ha. rewrite <- Ha by reflexivity. symmetry. now apply equiv_extract. }
    (* fall back to the default child *)
    assert (D : (forall r x, In (r, x) (sub (f_extract f ic) E) -> pmatch r (en_stencil (fst x)) ic -> ~ fixed_agree (fst x) ic) ->
       match match d with Some dn => tsel dn ic | None => Throw EUnknownOpcode end with
       | Ok (mn, q) => exists p x, In (p, x) E /\ mn = en_mn (fst x) /\ final_pay x q /\
           pmatch p (en_stencil (fst x)) ic /\ fixed_agree (fst x) ic /\
           forall p' y, In (p', y) E -> pmatch p' (en_stencil (fst y)) ic -> fixed_agree (fst y) ic ->
             ~ better p' y p x
       | Throw EUnknownOpcode => forall p x, In (p, x) E -> pmatch p (en_stencil (fst x)) ic -> ~ fixed_agree (fst x) ic
       | _ => False
       end).
    { intros NS. destruct d as [dn|].
      - specialize (IH5 dn eq_refl). destruct (tsel dn ic) as [[mn q]|ex| |]; [|destruct ex; try exact IH5| |]; try exact IH5.
        + destruct IH5 as (r & x & Hin & Mn & Fp & Pm & Fa & Best). apply subd_in in Hin as (g & Hin).
          exists ((g, true) :: r), x. repeat split; auto.
          * constructor; [cbn; discriminate|exact Pm].
          * intros p' y Hy Py Ay. destruct (W _ _ Hy Py) as (r' & Pr & [(g' & -> & Hr)|(g' & -> & Hr)]).
            -- intros B. apply better_cons in B. exact (Best _ _ Hr Pr Ay B).
            -- exfalso. exact (NS _ _ Hr Pr Ay).
        + intros p x Hin Pm Fa. destruct (W _ _ Hin Pm) as (r & Pr & [(g & -> & Hr)|(g & -> & Hr)]).
          * exact (IH5 _ _ Hr Pr Fa).
          * exact (NS _ _ Hr Pr Fa).
      - intros p x Hin Pm Fa. destruct (W _ _ Hin Pm) as (r & Pr & [(g & -> & Hr)|(g & -> & Hr)]).
        + rewrite (R4 eq_refl) in Hr. destruct Hr.
        + exact (NS _ _ Hr Pr Fa). }
    cbn [tsel]. destruct (tab (f_extract f ic)) as [c|] eqn:Et.
    + specialize (IH3 _ _ Et). destruct (tsel c ic) as [[mn q]|ex| |]; [|destruct ex; try contradiction| |]; try contradiction.
      * destruct IH3 as (r & x & Hin & Mn & Fp & Pm & Fa & Best). apply sub_in in Hin as (g & Hin & Hi).
        exists ((g, false) :: r), x. repeat split; auto.
        -- constructor; [cbn; intros _|exact Pm]. rewrite Hi. symmetry.
           destruct (R1 _ Hin) as (g0 & b & r0 & E0 & Q). cbn in E0. assert (g0 = g) by (inversion E0; reflexivity). subst. now apply equiv_extract.
        -- intros p' y Hy Py Ay. destruct (W _ _ Hy Py) as (r' & Pr & [(g' & -> & Hr)|(g' & -> & Hr)]).
           ++ apply better_ign.
           ++ intros B. apply better_cons in B. exact (Best _ _ Hr Pr Ay B).
      * apply D. intros r x Hr Pm. exact (IH3 _ _ Hr Pm).
    + apply D. intros r x Hr. rewrite (R2 _ Et) in Hr. destruct Hr.
  - rewrite Forall_forall in R1. pose proof (leaf_sel tab d (map snd E) ic R2) as L.
    destruct (tsel (Special tab d) ic) as [[mn q]|ex| |]; [|destruct ex; try contradiction| |]; try contradiction.
    + destruct L as (x & Hx & Mn & Fp & Fa & Best). apply in_map_iff in Hx as ([p x'] & E0 & Hin). cbn in E0. subst x'.
      exists p, x. assert (p = []) by exact (R1 _ Hin). subst p. repeat split; auto.
      * constructor.
      * intros p' y Hy _ Ay. assert (p' = []) by exact (R1 _ Hy). subst p'.
        assert (In y (map snd E)) by (apply in_map_iff; exists ([], y); auto).
        specialize (Best y H Ay). intros [(c & r & r' & B & _)|[_ B]]; [destruct c; discriminate|lia].
    + intros p x Hin _. apply L. apply in_map_iff. exists (p, x). auto.
Qed.

(** ** The whole tree *)
Definition tpath (e : enc) : path := mkpath (en_ign e) (fm_ocfields (en_form e)).
Definition ti (x : item) : titem := (tpath (fst x), x).
Definition cls (c : N) (X : list item) : list item :=
  filter (fun x => length_class (en_stencil (fst x)) =? c) X.
Definition tree_ok (t : tree) (X : list item) : Prop :=
  Forall (fun x => form_ok (en_form (fst x))) X /\
  forall c, (t c = None -> cls c X = []) /\ (forall n, t c = Some n -> repr n (map ti (cls c X))).

Lemma tree_ok_new : tree_ok tree_new [].
Proof. split; [constructor|]. intros c. split; [reflexivity|discriminate]. Qed.
Lemma ignored_In f ign : existsb (String.eqb (f_name f)) ign = true <-> In (f_name f) ign.
Proof.
  rewrite existsb_exists. split.
  - intros (s & H & E). apply String.eqb_eq in E. now subst.
  - intros H. exists (f_name f). split; [auto|apply String.eqb_refl].
Qed.
Lemma pmatch_matches e ic : form_ok (en_form e) ->
  (pmatch (tpath e) (en_stencil e) ic <->
   forall f, In f (fm_ocfields (en_form e)) -> ~ ignores e f -> agree_on f ic (en_stencil e)).
Proof.
  intros F. pose proof (form_ok_oc _ F) as Fo. rewrite Forall_forall in Fo.
  unfold pmatch, tpath, mkpath. rewrite Forall_map, Forall_forall. cbn. unfold ignores. split.
  - intros H f Hf Hi. apply agree_on_extract; [auto|]. apply H; [auto|].
    destruct (existsb _ _) eqn:E; [|reflexivity]. apply ignored_In in E. contradiction.
  - intros H f Hf Hi. apply agree_on_extract; [auto|]. apply H; [auto|]. rewrite <- ignored_In. congruence.
Qed.
Lemma flags_specified e : flags (tpath e) = specified e.
Proof. unfold flags, tpath, mkpath, specified. rewrite map_map. reflexivity. Qed.
Lemma same_path_cell e e' : form_ok (en_form e) -> form_ok (en_form e') ->
  length_class (en_stencil e) = length_class (en_stencil e') ->
  same_path (tpath e) (en_stencil e) (tpath e') (en_stencil e') -> same_cell e e'.
Proof.
  intros F F' L S. split; [exact L|].
  pose proof (form_ok_oc _ F) as Fo. pose proof (form_ok_oc _ F') as Fo'.
  unfold same_path, tpath in S. revert Fo Fo' S.
  generalize (fm_ocfields (en_form e)) (fm_ocfields (en_form e')).
  induction l as [|f l IH]; intros [|f' l'] Fo Fo' S; cbn in S; inversion S; subst; constructor.
  - cbn in H2. destruct H2 as (Q & B & X).
    inversion Fo; inversion Fo'; subst. unfold f_equiv in Q. apply andb_true_iff in Q as [Q1 Q2].
    apply N.eqb_eq in Q1, Q2. repeat split; auto.
    + unfold ignores. rewrite <- !ignored_In. congruence.
    + unfold ignores. rewrite <- !ignored_In. congruence.
    + intros Hi. unfold agree_on. unfold ignores in Hi. rewrite <- ignored_In in Hi.
      rewrite <- f_extract_slice by auto. rewrite X by (destruct (existsb _ _); congruence).
      rewrite f_extract_slice by auto. now rewrite Q1, Q2.
  - inversion Fo; inversion Fo'; subst. auto.
Qed.
Lemma cls_app c X x : cls c (X ++ [x]) =
  if length_class (en_stencil (fst x)) =? c then (cls c X ++ [x])%list else cls c X.
Proof. unfold cls. rewrite filter_app. cbn. destruct (_ =? c); [reflexivity|apply app_nil_r]. Qed.

Lemma build_tree_ok {A} (e : enc) (Q : A -> pay -> Prop) (leaf : node -> res (node * A)) t X t' a :
  form_ok (en_form e) -> leaf_adds e Q leaf -> tree_ok t X ->
  Forall (fun x => clear (fst x) e) X ->
  build_tree (en_form e) (en_ign e) (en_stencil e) leaf t = Ok (t', a) ->
  exists n0 n0' p tab d tab' d', leaf n0 = Ok (n0', a) /\ n0 = Special tab d /\ n0' = Special tab' d' /\
    leaf_add e p tab d = Ok (tab', d', false) /\ Q a p /\ tree_ok t' (X ++ [(e, p)]).
Proof.
  intros F LA [TF T] C H. unfold build_tree in H.
  destruct (fm_ocfields (en_form e)) as [|f0 fr] eqn:EF; [discriminate|].
  rewrite root_class_spec in H. set (c := length_class (en_stencil e)) in *.
  rewrite <- EF in H.
  destruct (descend _ _ leaf _ _) as [[n a']| | |] eqn:ED; cbn [rbind] in H; try discriminate.
  assert (a' = a) by congruence. subst a'. assert (t' = upd_tab t c n) as -> by congruence. clear H.
  destruct (T c) as [T1 T2].
  assert (R : repr (match t c with None => dense_new f0 | Some n => n end) (map ti (cls c X))).
  { destruct (t c) as [n1|] eqn:Et; [auto|]. rewrite (T1 eq_refl). apply repr_dense_new. }
  rewrite Forall_forall in C, TF.
  destruct (descend_ok e Q leaf (fm_ocfields (en_form e)) F LA _ _ n a R) as (n0 & n0' & p & tab & d & tab' & d' & L1 & L2 & L3 & L4 & LQ & L5); [|exact ED|].
  { intros p x Hp Sp. apply in_map_iff in Hp as (y & E0 & Hy). unfold ti in E0.
    assert (y = x) by congruence. subst y. assert (p = tpath (fst x)) by congruence. subst p.
    apply filter_In in Hy as [Hy Hc]. apply N.eqb_eq in Hc.
    apply (C x Hy). apply same_path_cell; auto. }
  exists n0, n0', p, tab, d, tab', d'. repeat split; auto.
  - apply Forall_app. split; [apply Forall_forall; auto|constructor; auto].
  - intros H. unfold upd_tab in H. rewrite cls_app. cbn [fst]. fold c. rewrite (N.eqb_sym c c0).
    destruct (c0 =? c) eqn:J; [discriminate|]. now apply (T c0).
  - intros n1 H. unfold upd_tab in H. rewrite cls_app. cbn [fst]. fold c. rewrite (N.eqb_sym c c0).
    destruct (c0 =? c) eqn:J.
    + apply N.eqb_eq in J. subst c0. assert (n1 = n) by congruence. subst n1. rewrite map_app. exact L5.
    + now apply (T c0).
Qed.

Lemma tree_sel_ok t X ic : tree_ok t X ->
  match tree_sel t ic with
  | Ok (mn, q) => exists x, In x X /\ mn = en_mn (fst x) /\ final_pay x q /\ matches (fst x) ic /\
      forall y, In y X -> matches (fst y) ic -> ~ more_specific (fst y) (fst x)
  | Throw EUnknownOpcode => forall x, In x X -> ~ matches (fst x) ic
  | _ => False
  end.
Proof.
  intros [TF T]. rewrite Forall_forall in TF. unfold tree_sel. rewrite root_class_spec. set (c := length_class ic).
  destruct (T c) as [T1 T2].
  assert (CL : forall x, In x X -> matches (fst x) ic -> In x (cls c X)).
  { intros x Hx (L & _). apply filter_In. split; [auto|]. apply N.eqb_eq. symmetry. exact L. }
  destruct (t c) as [n|] eqn:Et.
  - pose proof (repr_sel n _ ic (T2 n eq_refl)) as R.
    destruct (tsel n ic) as [[mn q]|ex| |]; [|destruct ex; try contradiction| |]; try contradiction.
    + destruct R as (p & x & Hin & Mn & Fp & Pm & Fa & Best).
      apply in_map_iff in Hin as (y & E0 & Hy). unfold ti in E0. assert (y = x) by congruence. subst y.
      assert (p = tpath (fst x)) by congruence. subst p. clear E0.
      apply filter_In in Hy as [Hy Hc]. apply N.eqb_eq in Hc. exists x. repeat split; auto.
      * apply pmatch_matches; auto.
      * intros y Hy' My. specialize (CL y Hy' My). destruct My as (_ & My & Ay).
        specialize (Best (tpath (fst y)) y). intros MS. apply Best; auto.
        -- apply in_map_iff. exists y. auto.
        -- apply pmatch_matches; auto.
        -- unfold better. rewrite !flags_specified. exact MS.
    + intros x Hx Mx. specialize (CL x Hx Mx). destruct Mx as (_ & Mx & Ax).
      apply (R (tpath (fst x)) x); auto.
      * apply in_map_iff. exists x. auto.
      * apply pmatch_matches; auto.
  - intros x Hx Mx. specialize (CL x Hx Mx). rewrite (T1 eq_refl) in CL. destruct CL.
Qed.

Lemma C01_root_lemma ic : root_class ic = Some (length_class ic) /\ length_class ic < 6.
Proof. split; [apply root_class_spec|apply length_class_lt]. Qed.
Lemma C01_own_lemma (t t' : tree) ic :
  t (length_class ic) = t' (length_class ic) -> tree_sel t ic = tree_sel t' ic.
Proof. intro H. unfold tree_sel. rewrite root_class_spec, H. reflexivity. Qed.
