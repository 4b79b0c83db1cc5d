(** Lemmas: which encodings can be put into the decode tree (C56). *)
From Coq Require Import NArith List Bool String Lia ZifyBool ZifyN.
From Verif Require Import M_Base M_Field M_Forms M_Extract M_Trie S_Bits S_Trie S_Table S_Accept L_Bits L_Trie L_Table.
Import ListNotations.
Local Open Scope N_scope.

(** [r] succeeds exactly if [P]; it never is undefined. *)
Definition settles {T} (r : res T) (P : Prop) : Prop :=
  match r with Ok _ => P | UB => False | Throw _ | AssertFail => ~ P end.
Lemma settles_iff {T} (r : res T) P Q : (P <-> Q) -> settles r P -> settles r Q.
Proof. unfold settles. destruct r; tauto. Qed.
Lemma settles_bind {T V} (r : res T) (f : T -> res V) P Q : settles r P -> (forall v, r = Ok v -> P -> settles (f v) Q) ->
  settles (let* v := r in f v) (P /\ Q).
Proof.
  unfold settles. destruct r as [v| | |]; cbn [rbind]; intros H K; [|tauto..]. specialize (K v eq_refl H).
  destruct (f v); tauto.
Qed.
Lemma settles_ok {T} (r : res T) P : settles r P -> P -> exists v, r = Ok v.
Proof. destruct r; cbn; intros; try tauto. eauto. Qed.
Lemma settles_assert b : settles (rassert b) (b = true).
Proof. destruct b; cbn; [reflexivity|discriminate]. Qed.
Lemma settles_ret {T} (v : T) (P : Prop) : P -> settles (Ok v) P.
Proof. auto. Qed.

(** ** Fixed fields *)
Lemma get_field_named fm n : form_ok fm -> settles (get_field fm n) (exists f, named fm n f).
Proof.
  intros F. destruct (get_field fm n) as [f| e | |] eqn:E; cbn [settles].
  - apply get_field_in in E. exists f. tauto.
  - intros [f H]. destruct (named_get _ _ _ F H) as (g & G & _). congruence.
  - intros [f H]. destruct (named_get _ _ _ F H) as (g & G & _). congruence.
  - unfold get_field, get_field_index in E. destruct (find _ (fm_names fm)) as [[n' i]|] eqn:E1; cbn in E; [|discriminate].
    destruct (nth_error (fm_fields fm) i) as [f|] eqn:E2; [discriminate|].
    apply find_some in E1 as [E1 _]. unfold form_ok, form_okb in F. rewrite !andb_true_iff in F. destruct F as [[_ F] _].
    rewrite forallb_forall in F. specialize (F _ E1). cbn [fst snd] in F. rewrite E2 in F. destruct (get_field fm n'); discriminate.
Qed.
Lemma fixed_mask_settles fm fl : form_ok fm -> settles (fixed_mask fm fl) (forall n, In n fl -> exists f, named fm n f).
Proof.
  intros F. induction fl as [|n fl IH]; cbn [fixed_mask]; [intros ? []|].
  eapply settles_iff; [|eapply settles_bind; [apply (get_field_named _ n F)|intros f _ _; eapply settles_bind; [exact IH|intros m _ _; apply (settles_ret _ True I)]]].
  cbn [In]. split; [intros (H1 & H2 & _) n' [<-|J]; auto|]. intros H. split; [apply H; auto|]. split; auto.
Qed.
Definition few (fm : form) : bool := forallb (fun p => N.of_nat (snd p) <? 32) (fm_names fm).
Lemma registry_few : forall n fm, get_form n = Ok fm -> few fm = true.
Proof.
  assert (A : forallb few form_registry = true) by (vm_compute; reflexivity).
  intros n fm H. unfold get_form in H. destruct (find _ form_registry) as [g|] eqn:E; [|discriminate].
  apply find_some in E as [E _]. rewrite forallb_forall in A. assert (g = fm) by congruence. subst g. auto.
Qed.
Lemma field_ids_ok fm fl m : few fm = true -> fixed_mask fm fl = Ok m -> exists s, get_field_id_set fm fl = Ok s.
Proof.
  intros F. revert m. induction fl as [|n fl IH]; intros m H; cbn [fixed_mask get_field_id_set] in *; [eauto|].
  unfold get_field in H. destruct (get_field_index fm n) as [i| | |] eqn:E; cbn [rbind] in H |- *; try discriminate.
  destruct (nth_error (fm_fields fm) i); cbn [rbind] in H; [|discriminate].
  destruct (fixed_mask fm fl) as [m'| | |]; cbn [rbind] in H; try discriminate. destruct (IH _ eq_refl) as [s ->]. cbn [rbind].
  unfold get_field_index in E. destruct (find _ (fm_names fm)) as [[n' i']|] eqn:E1; [|discriminate].
  apply find_some in E1 as [E1 _]. unfold few in F. rewrite forallb_forall in F. specialize (F _ E1). cbn [snd] in F.
  assert (i' = i) as -> by congruence. replace (32 <=? N.of_nat i) with false by lia. eauto.
Qed.
Lemma smask_bit f i : fok f -> f_rpos f + f_len f <= 64 -> (N.testbit (f_smask f) i = true <-> f_rpos f <= i < f_rpos f + f_len f).
Proof. intros F L. rewrite f_smask_testbit by auto. lia. Qed.
Lemma fixed_mask_bits fm fl m i : form_ok fm -> fixed_mask fm fl = Ok m ->
  (N.testbit m i = true <-> exists n f, In n fl /\ named fm n f /\ f_rpos f <= i < f_rpos f + f_len f).
Proof.
  intros F. revert m. induction fl as [|n fl IH]; intros m H; cbn [fixed_mask] in H.
  - assert (m = 0) as -> by congruence. rewrite N.bits_0. split; [discriminate|]. intros (? & ? & [] & _).
  - destruct (get_field fm n) as [f| | |] eqn:E; cbn in H; try discriminate.
    destruct (fixed_mask fm fl) as [m'| | |] eqn:E'; cbn in H; try discriminate.
    assert (m = N.lor (f_smask f) m') as -> by congruence. rewrite N.lor_spec, orb_true_iff, (IH _ eq_refl).
    destruct (get_field_in _ _ _ E) as [Hin Hnm]. destruct (form_ok_field _ _ F Hin) as [Hf Hl].
    rewrite smask_bit by auto. split.
    + intros [H1|(n' & f' & I & N' & B)]; [exists n, f|exists n', f']; cbn; auto.
    + intros (n' & f' & [<-|I] & N' & B); [left|right; eauto].
      destruct (named_get _ _ _ F N') as (g & G & G1 & G2). assert (g = f) as -> by congruence. lia.
Qed.
Lemma fixed_mask_eq e e' m m' : form_ok (en_form e) -> form_ok (en_form e') ->
  fixed_mask (en_form e) (en_fixed e) = Ok m -> fixed_mask (en_form e') (en_fixed e') = Ok m' ->
  (m = m' <-> forall i, fixed_bit e i <-> fixed_bit e' i).
Proof.
  intros F F' H H'. unfold fixed_bit. split.
  - intros -> i. rewrite <- (fixed_mask_bits _ _ _ i F H), <- (fixed_mask_bits _ _ _ i F' H'). tauto.
  - intros Q. apply N.bits_inj. intros i. apply eq_true_iff_eq.
    rewrite (fixed_mask_bits _ _ _ i F H), (fixed_mask_bits _ _ _ i F' H'). apply Q.
Qed.

(** ** Leaf nodes *)
Local Notation path := (list ((N * N) * option N)).
Local Notation entry := (list ((N * N) * option N) * enc)%type.
Definition sdata (e : enc) (s : sentry) : Prop :=
  se_mn s = en_mn e /\ fixed_mask (en_form e) (en_fixed e) = Ok (se_mask s) /\ se_value s = N.land (en_stencil e) (se_mask s).
Definition holds (tab : list sentry) (L : list entry) : Prop :=
  Forall (fun x => form_ok (en_form (snd x))) L /\
  (forall x, In x L -> en_fixed (snd x) <> [] -> exists s, In s tab /\ sdata (snd x) s) /\
  (forall s, In s tab -> exists x, In x L /\ en_fixed (snd x) <> [] /\ sdata (snd x) s).
(** [e'] repeats [e], given that both are in one leaf node. *)
Definition again (e e' : enc) : Prop :=
  en_fixed e <> [] /\ en_fixed e' <> [] /\ (forall i, fixed_bit e i <-> fixed_bit e' i) /\ fixed_agree e (en_stencil e').
Lemma sp_insert_in e tab s : In s (sp_insert e tab) <-> s = e \/ In s tab.
Proof.
  induction tab as [|a r IH]; cbn [sp_insert In]; [intuition|]. destruct (_ <? _); cbn [In]; [intuition|]. rewrite IH. intuition.
Qed.
Lemma sp_insert_nonnil e tab : sp_insert e tab <> [].
Proof. destruct tab; cbn; [discriminate|]. destruct (_ <? _); discriminate. Qed.
Lemma hit_spec e s ic : form_ok (en_form e) -> sdata e s -> (se_hit ic s = true <-> fixed_agree e ic).
Proof.
  intros F (_ & M & V). unfold se_hit. rewrite V, N.eqb_eq. rewrite (fixed_mask_agree _ _ _ ic (en_stencil e) F M). reflexivity.
Qed.
Lemma add_special_settles tab L e : holds tab L -> form_ok (en_form e) -> few (en_form e) = true -> en_fixed e <> [] ->
  settles (add_special (en_form e) (en_mn e) (en_stencil e) (en_fixed e) tab)
    (fixed_known e /\ forall x, In x L -> again (snd x) e -> en_mn (snd x) = en_mn e) /\
  forall tab', add_special (en_form e) (en_mn e) (en_stencil e) (en_fixed e) tab = Ok tab' -> holds tab' (L ++ [([], e)]).
Proof.
  intros (HF & H1 & H2) F FW NE. unfold add_special.
  pose proof (fixed_mask_settles (en_form e) (en_fixed e) F) as SM. fold (fixed_known e) in SM.
  destruct (fixed_mask (en_form e) (en_fixed e)) as [m| | |] eqn:EM; cbn [rbind settles] in SM |- *; [|split; [tauto|discriminate]..|tauto].
  destruct (field_ids_ok _ _ _ FW EM) as [fs ->]. cbn [rbind].
  set (s0 := mkSE _ _ _ _ _ _). set (tab' := sp_insert s0 tab).
  assert (S0 : sdata e s0) by (split; [reflexivity|]; split; [exact EM|reflexivity]).
  split.
  - eapply settles_iff; [|eapply settles_bind; [apply settles_assert|intros _ _ _; exact (settles_ret _ True I)]].
    rewrite orb_true_iff. rewrite forallb_forall. split.
    + intros [H _]. split; [exact SM|]. intros x Ix (A1 & A2 & A3 & A4). destruct (H1 x Ix A1) as (s & Is & Ds).
      rewrite Forall_forall in HF. specialize (HF x Ix).
      assert (se_mask s = m) as EQ by (destruct Ds as (_ & D & _); apply (fixed_mask_eq _ _ _ _ HF F D EM), A3).
      destruct H as [H|H].
      * assert (tab' = [s0]) as T.
        { destruct tab as [|a r]; [reflexivity|]. exfalso.
          unfold tab' in H. cbn [sp_insert] in H. destruct (_ <? _); cbn [List.length] in H; [lia|].
          pose proof (sp_insert_nonnil s0 r). destruct (sp_insert s0 r); [congruence|]. cbn [List.length] in H. lia. }
        assert (In s tab') as J by (apply sp_insert_in; auto). rewrite T in J. destruct J as [<-|[]].
        destruct Ds as (D & _). symmetry. exact D.
      * specialize (H s (proj2 (sp_insert_in _ _ _) (or_intror Is))).
        rewrite (proj2 (hit_spec _ _ _ HF Ds) A4), EQ, N.eqb_refl in H. cbn [andb negb] in H. rewrite negb_involutive in H.
        apply String.eqb_eq in H. destruct Ds as (D & _). congruence.
    + intros [_ H]. split; [|exact I]. right. intros s Is. apply sp_insert_in in Is as [->|Is].
      * cbn [se_mn s0]. rewrite String.eqb_refl, andb_false_r. reflexivity.
      * destruct (H2 s Is) as (x & Ix & Nx & Ds). rewrite Forall_forall in HF. specialize (HF x Ix).
        destruct (se_hit (en_stencil e) s) eqn:Q; [|reflexivity]. destruct (N.eqb_spec m (se_mask s)) as [EQ|]; [|reflexivity].
        cbn [andb]. rewrite negb_involutive. apply String.eqb_eq. destruct Ds as (D & D' & D''). rewrite D. symmetry. apply H; [exact Ix|].
        split; [exact Nx|]. split; [exact NE|]. split; [apply (fixed_mask_eq _ _ _ _ HF F D' EM); congruence|].
        apply (hit_spec _ s); [exact HF|split; auto|exact Q].
  - intros tab1 H. destruct (rassert _); cbn [rbind] in H; try discriminate. assert (tab1 = tab') as -> by congruence. clear H.
    split; [|split].
    + apply Forall_app. split; [exact HF|]. constructor; [exact F|constructor].
    + intros x Ix Nx. apply in_app_iff in Ix as [Ix|[<-|[]]].
      * destruct (H1 x Ix Nx) as (s & Is & Ds). exists s. split; [apply sp_insert_in; auto|exact Ds].
      * exists s0. split; [apply sp_insert_in; auto|exact S0].
    + intros s Is. apply sp_insert_in in Is as [->|Is].
      * exists ([], e). split; [apply in_app_iff; right; left; reflexivity|]. auto.
      * destruct (H2 s Is) as (x & Ix & Nx & Ds). exists x. split; [apply in_app_iff; auto|]. auto.
Qed.
Lemma holds_plain tab L e : holds tab L -> form_ok (en_form e) -> en_fixed e = [] -> holds tab (L ++ [([], e)]).
Proof.
  intros (HF & H1 & H2) F NE. split; [|split].
  - apply Forall_app. split; [exact HF|]. constructor; [exact F|constructor].
  - intros x Ix Nx. apply in_app_iff in Ix as [Ix|[<-|[]]]; [auto|]. cbn [snd] in Nx. congruence.
  - intros s Is. destruct (H2 s Is) as (x & Ix & Nx & Ds). exists x. split; [apply in_app_iff; auto|]. auto.
Qed.
Lemma set_first_holds p st L : forall tab tab', sp_set_first p st tab = Some tab' -> holds tab L -> holds tab' L.
Proof.
  intros tab tab' E (HF & H1 & H2).
  assert (Q : forall e, (exists s, In s tab /\ sdata e s) <-> (exists s, In s tab' /\ sdata e s)) by
   (intros e; clear - E; revert tab' E; induction tab as [|a r IH]; intros tab' E; cbn [sp_set_first] in E; [discriminate|];
    destruct (se_hit st a);
    [ injection E as <-; split; intros (s & [<-|I] & D); (eexists; split; [|]; [left; reflexivity|exact D]) || (exists s; split; [right; exact I|exact D])
    | destruct (sp_set_first p st r) as [r'|]; [|discriminate]; injection E as <-; specialize (IH _ eq_refl); split; intros (s & [<-|I] & D);
      [exists a; split; [now left|exact D]|destruct (proj1 IH (ex_intro _ s (conj I D))) as (s' & I' & D'); exists s'; split; [now right|exact D']
      |exists a; split; [now left|exact D]|destruct (proj2 IH (ex_intro _ s (conj I D))) as (s' & I' & D'); exists s'; split; [now right|exact D']]]).
  assert (Q' : forall s', In s' tab' -> exists s, In s tab /\ se_mn s' = se_mn s /\ se_mask s' = se_mask s /\ se_value s' = se_value s).
  { clear - E. revert tab' E. induction tab as [|a r IH]; intros tab' E; cbn [sp_set_first] in E; [discriminate|]. destruct (se_hit st a).
    - injection E as <-. intros s' [<-|I]; [exists a; cbn; auto|]. exists s'. split; [now right|auto].
    - destruct (sp_set_first p st r) as [r'|]; [|discriminate]. injection E as <-. intros s' [<-|I]; [exists a; cbn; auto|].
      destruct (IH _ eq_refl s' I) as (s & I' & D). exists s. split; [now right|exact D]. }
  split; [exact HF|]. split.
  - intros x Ix Nx. apply Q. auto.
  - intros s' Is. destruct (Q' s' Is) as (s & I' & D1 & D2 & D3). destruct (H2 s I') as (x & Ix & Nx & (E1 & E2 & E3)).
    exists x. split; [exact Ix|]. split; [exact Nx|]. split; [congruence|]. split; congruence.
Qed.
Lemma set_first_none p st tab : find (se_hit st) tab = None -> sp_set_first p st tab = None.
Proof. induction tab as [|a r IH]; cbn; [reflexivity|]. destruct (se_hit st a); [discriminate|]. intros H. rewrite IH by exact H. reflexivity. Qed.
Lemma set_first_some p st tab s : find (se_hit st) tab = Some s -> exists tab', sp_set_first p st tab = Some tab'.
Proof.
  induction tab as [|a r IH]; cbn; [discriminate|]. destruct (se_hit st a); [eauto|]. intros H. destruct (IH H) as [r' ->]. cbn. eauto.
Qed.
Lemma place_total mn st p tab d L : holds tab L -> exists tab' d' al, sp_place mn st p tab d = Ok (tab', d', al) /\ holds tab' L.
Proof.
  intros H. unfold sp_place, sp_get_node, sp_add, sp_add_default. destruct (find (se_hit st) tab) as [s|] eqn:E.
  - destruct (se_pay s) as [q|].
    + destruct d; cbn [rassert rbind]; do 3 eexists; (split; [reflexivity|exact H]).
    + destruct (set_first_some p _ _ _ E) as [tab' T]. rewrite T. cbn [rbind]. do 3 eexists. split; [reflexivity|]. eapply set_first_holds; eauto.
  - rewrite (set_first_none p _ _ E). destruct d as [q|]; cbn [option_map rassert rbind]; do 3 eexists; (split; [reflexivity|exact H]).
Qed.

(** ** The tree and the encodings put into it *)
Definition step_eqb (v w : option N) : bool :=
  match v, w with None, None => true | Some a, Some b => a =? b | _, _ => false end.
Lemma step_eqb_spec v w : step_eqb v w = true <-> v = w.
Proof. destruct v as [a|], w as [b|]; cbn; try (split; [discriminate|intros Q; discriminate Q]); [|tauto]. rewrite N.eqb_eq. split; congruence. Qed.
Definition sub1 (v : option N) (x : entry) : list entry :=
  match fst x with (_, w) :: p => if step_eqb w v then [(p, snd x)] else [] | [] => [] end.
Definition sub (v : option N) (L : list entry) : list entry := flat_map (sub1 v) L.
Lemma in_sub v L p e : In (p, e) (sub v L) <-> exists a, In ((a, v) :: p, e) L.
Proof.
  unfold sub. rewrite in_flat_map. split.
  - intros ([q e'] & I & J). unfold sub1 in J. cbn [fst snd] in J. destruct q as [|[a w] q]; [destruct J|].
    destruct (step_eqb w v) eqn:Q; [|destruct J]. apply step_eqb_spec in Q. subst w. destruct J as [J|[]].
    exists a. assert (q = p /\ e' = e) as [-> ->] by (split; congruence). exact I.
  - intros [a I]. exists ((a, v) :: p, e). split; [exact I|]. unfold sub1. cbn [fst snd]. rewrite (proj2 (step_eqb_spec v v) eq_refl). now left.
Qed.
Lemma sub_app v L M : sub v (L ++ M) = (sub v L ++ sub v M)%list.
Proof. apply flat_map_app. Qed.
Definition where_of (g : field) : N * N := (f_rpos g, f_len g).
Inductive rep : node -> list entry -> Prop :=
| rep_special tab d L : L <> [] -> (forall x, In x L -> fst x = []) -> holds tab L -> rep (Special tab d) L
| rep_dense g tab d L : L <> [] -> (forall x, In x L -> exists v p, fst x = (where_of g, v) :: p) ->
    (forall i c, tab i = Some c -> rep c (sub (Some i) L)) -> (forall i, tab i = None -> sub (Some i) L = []) ->
    (forall c, d = Some c -> rep c (sub None L)) -> (d = None -> sub None L = []) -> rep (Dense g tab d) L.
Definition fresh (fs : list field) : node := match fs with [] => special_new | f :: _ => dense_new f end.
Definition at_node (fs : list field) (cur : node) (L : list entry) : Prop := rep cur L \/ (L = [] /\ cur = fresh fs).

Section Descend.
Context {A : Type} (e : enc) (leaf : node -> res (node * A)) (C0 : Prop) (cond : enc -> Prop) (W : A -> Prop).
Context (LD : forall g t d, settles (leaf (Dense g t d)) False).
Context (LS : forall tab d L, (rep (Special tab d) L \/ (L = [] /\ tab = [] /\ d = None)) ->
  settles (leaf (Special tab d)) (C0 /\ forall x, In x L -> cond (snd x)) /\
  forall n a, leaf (Special tab d) = Ok (n, a) -> rep n (L ++ [([], e)]) /\ W a).
Definition go (fs : list field) (cur : node) : res (node * A) :=
  match fs with [] => leaf cur | _ :: _ => descend (en_ign e) (en_stencil e) leaf fs cur end.
Definition steps (fs : list field) : path := map (look e) fs.
Lemma go_cons f rest g tab d : f_equiv g f = true ->
  go (f :: rest) (Dense g tab d) =
  if is_ignored (en_ign e) f then
    let* (child', a) := go rest (match d with None => fresh rest | Some c => c end) in Ok (Dense g tab (Some child'), a)
  else
    let* (child', a) := go rest (match tab (f_extract g (en_stencil e)) with None => fresh rest | Some c => c end) in
    Ok (Dense g (upd_tab tab (f_extract g (en_stencil e)) child') d, a).
Proof. intros H. cbn [go descend]. rewrite H. cbn [negb]. destruct rest; reflexivity. Qed.
Lemma sub_steps_same f rest : sub (snd (look e f)) [(steps (f :: rest), e)] = [(steps rest, e)].
Proof.
  unfold sub, sub1. cbn [steps map flat_map fst snd app]. unfold look at 1. cbn [fst snd].
  rewrite (proj2 (step_eqb_spec _ _) eq_refl). reflexivity.
Qed.
Lemma sub_steps_other f rest v : v <> snd (look e f) -> sub v [(steps (f :: rest), e)] = [].
Proof.
  intros H. unfold sub, sub1. cbn [steps map flat_map fst snd app]. unfold look at 1. cbn [fst snd].
  destruct (step_eqb _ v) eqn:Q; [|reflexivity]. apply step_eqb_spec in Q. subst v. exfalso. apply H. reflexivity.
Qed.
Lemma go_settles fs : Forall fok fs -> forall cur L, at_node fs cur L ->
  settles (go fs cur) ((forall x, In x L -> in_step (fst x) (steps fs)) /\ C0 /\ forall x, In x L -> fst x = steps fs -> cond (snd x)) /\
  forall n a, go fs cur = Ok (n, a) -> rep n (L ++ [(steps fs, e)]) /\ W a.
Proof.
  induction fs as [|f rest IH]; intros FO cur L AT.
  - cbn [go steps map]. destruct cur as [g t d|tab d].
    + specialize (LD g t d). destruct AT as [R|[_ Q]]; [|discriminate Q]. inversion R as [|? ? ? ? NE SH _ _ _ _]; subst.
      destruct (leaf (Dense g t d)); cbn [settles] in *; try tauto. split; [|discriminate]. intros (Q & _).
      destruct L as [|x L]; [exfalso; apply NE; reflexivity|]. specialize (Q x (or_introl eq_refl)). destruct (SH x (or_introl eq_refl)) as (v & p & S). rewrite S in Q. destruct v; exact Q.
      split; [|discriminate]. intros (Q & _).
      destruct L as [|x L]; [exfalso; apply NE; reflexivity|]. specialize (Q x (or_introl eq_refl)). destruct (SH x (or_introl eq_refl)) as (v & p & S). rewrite S in Q. destruct v; exact Q.
    + assert (rep (Special tab d) L \/ (L = [] /\ tab = [] /\ d = None)) as AT'.
      { destruct AT as [R|[-> Q]]; [now left|]. right. cbn [fresh] in Q. unfold special_new in Q. injection Q as -> ->. auto. }
      destruct (LS tab d L AT') as [S P]. split; [|exact P]. eapply settles_iff; [|exact S].
      assert (E : forall x, In x L -> fst x = []).
      { intros x I. destruct AT as [R|[-> _]]; [|destruct I]. inversion R; auto. }
      split.
      * intros [H1 H2]. split; [|split; [exact H1|auto]]. intros x I. rewrite (E x I). exact Logic.I.
      * intros (_ & H1 & H2). split; [exact H1|]. intros x I. apply H2; auto.
  - inversion FO as [|? ? F1 F2]; subst. destruct cur as [g tab d|tab d].
    + destruct (f_equiv g f) eqn:EQ.
      * rewrite go_cons by exact EQ. unfold f_equiv in EQ. apply andb_true_iff in EQ as [Q1 Q2]. apply N.eqb_eq in Q1, Q2.
        assert (WG : where_of g = where_of f) by (unfold where_of; congruence).
        assert (SH : forall x, In x L -> exists v p, fst x = (where_of g, v) :: p).
        { intros x I. destruct AT as [R|[-> _]]; [|destruct I]. inversion R; auto. }
        assert (TN : forall i, match tab i with None => sub (Some i) L = [] | Some c => rep c (sub (Some i) L) end).
        { intros i. destruct AT as [R|[-> Q]].
          - inversion R; subst. destruct (tab i) eqn:Q; auto.
          - cbn [fresh dense_new] in Q. assert (tab = fun _ => None) as -> by (injection Q; auto). reflexivity. }
        assert (DN : match d with None => sub None L = [] | Some c => rep c (sub None L) end).
        { destruct AT as [R|[-> Q]].
          - inversion R; subst. destruct d eqn:Q; auto.
          - cbn [fresh dense_new] in Q. assert (d = None) as -> by (injection Q; auto). reflexivity. }
        assert (IFF : forall v, v = snd (look e f) ->
          ((forall x, In x (sub v L) -> in_step (fst x) (steps rest)) /\ C0 /\ (forall x, In x (sub v L) -> fst x = steps rest -> cond (snd x))) /\ True <->
          (forall x, In x L -> in_step (fst x) (steps (f :: rest))) /\ C0 /\ (forall x, In x L -> fst x = steps (f :: rest) -> cond (snd x))).
        { intros v ->. cbn [steps map]. fold (steps rest). split.
          - intros ((H1 & H2 & H3) & _). split; [|split; [exact H2|]].
            + intros [q e'] I. destruct (SH _ I) as (w & p & S). cbn [fst] in S |- *. subst q.
              unfold look at 1. cbn [in_step]. split; [exact WG|]. intros ->. apply (H1 (p, e')). apply in_sub. exists (where_of g). exact I.
            + intros [q e'] I S. cbn [fst snd] in *. subst q. unfold look at 1 in I. apply (H3 (steps rest, e')); [|reflexivity].
              apply in_sub. exists (where_of f). exact I.
          - intros (H1 & H2 & H3). split; [|exact Logic.I]. split; [|split; [exact H2|]].
            + intros [p e'] I. apply in_sub in I as [a I]. specialize (H1 _ I). cbn [fst in_step] in *. unfold look at 1 in H1.
              destruct H1 as [_ H1]. apply H1. reflexivity.
            + intros [p e'] I S. apply in_sub in I as [a I]. cbn [fst snd] in *. subst p. apply (H3 _ I). cbn [fst].
              destruct (SH _ I) as (w & p & S). cbn [fst] in S. assert (a = where_of g) as -> by congruence. rewrite WG. reflexivity. }
        destruct (is_ignored (en_ign e) f) eqn:IG.
        -- assert (V : None = snd (look e f)) by (unfold look; unfold is_ignored in IG; cbn [snd]; rewrite IG; reflexivity).
           assert (AT' : at_node rest (match d with None => fresh rest | Some c => c end) (sub None L)).
           { destruct d; [left; exact DN|right; split; [exact DN|reflexivity]]. }
           destruct (IH F2 _ _ AT') as [S P]. split.
           ++ eapply settles_iff; [|eapply settles_bind; [exact S|intros [c a] _ _; exact (settles_ret _ True Logic.I)]]. exact (IFF _ V).
           ++ intros n a H. destruct (go rest _) as [[c' a']| | |] eqn:EG; cbn [rbind] in H; try discriminate.
              assert (a' = a) as -> by congruence. assert (n = Dense g tab (Some c')) as -> by congruence. destruct (P _ _ eq_refl) as [R' W']. split; [|exact W'].
              constructor.
              ** destruct L; discriminate.
              ** intros x I. apply in_app_iff in I as [I|[<-|[]]]; [auto|]. cbn [steps map fst]. unfold look at 1. rewrite WG. eauto.
              ** intros i c E. rewrite sub_app, (sub_steps_other f rest (Some i)) by (rewrite <- V; discriminate). rewrite app_nil_r. specialize (TN i). rewrite E in TN. exact TN.
              ** intros i E. rewrite sub_app, (sub_steps_other f rest (Some i)) by (rewrite <- V; discriminate). rewrite app_nil_r. specialize (TN i). rewrite E in TN. exact TN.
              ** intros c [= <-]. rewrite sub_app. rewrite V at 2. rewrite sub_steps_same. exact R'.
              ** discriminate.
        -- assert (V : Some (f_extract g (en_stencil e)) = snd (look e f)).
           { unfold look. unfold is_ignored in IG. cbn [snd]. rewrite IG, f_extract_slice; [|unfold fok in *; lia]. rewrite Q1, Q2. reflexivity. }
           set (i0 := f_extract g (en_stencil e)) in *.
           assert (AT' : at_node rest (match tab i0 with None => fresh rest | Some c => c end) (sub (Some i0) L)).
           { specialize (TN i0). destruct (tab i0); [left; exact TN|right; split; [exact TN|reflexivity]]. }
           destruct (IH F2 _ _ AT') as [S P]. split.
           ++ eapply settles_iff; [|eapply settles_bind; [exact S|intros [c a] _ _; exact (settles_ret _ True Logic.I)]]. exact (IFF _ V).
           ++ intros n a H. destruct (go rest _) as [[c' a']| | |] eqn:EG; cbn [rbind] in H; try discriminate.
              assert (a' = a) as -> by congruence. assert (n = Dense g (upd_tab tab i0 c') d) as -> by congruence. destruct (P _ _ eq_refl) as [R' W']. split; [|exact W'].
              constructor.
              ** destruct L; discriminate.
              ** intros x I. apply in_app_iff in I as [I|[<-|[]]]; [auto|]. cbn [steps map fst]. unfold look at 1. rewrite WG. eauto.
              ** intros i c E. unfold upd_tab in E. rewrite sub_app. destruct (N.eqb_spec i i0) as [->|NE].
                 --- assert (c = c') as -> by congruence. rewrite V at 2. rewrite sub_steps_same. exact R'.
                 --- rewrite (sub_steps_other f rest (Some i)) by (rewrite <- V; congruence). rewrite app_nil_r. specialize (TN i). rewrite E in TN. exact TN.
              ** intros i E. unfold upd_tab in E. rewrite sub_app. destruct (N.eqb_spec i i0) as [EI|NE]; [discriminate E|].
                 rewrite (sub_steps_other f rest (Some i)) by (rewrite <- V; congruence). rewrite app_nil_r. specialize (TN i). rewrite E in TN. exact TN.
              ** intros c E. rewrite sub_app, (sub_steps_other f rest None) by (rewrite <- V; discriminate). rewrite app_nil_r. subst d. exact DN.
              ** intros E. rewrite sub_app, (sub_steps_other f rest None) by (rewrite <- V; discriminate). rewrite app_nil_r. subst d. exact DN.
      * cbn [go descend]. rewrite EQ. cbn [negb settles]. split; [|discriminate]. intros (H & _).
        destruct AT as [R|[_ Q]].
        -- inversion R as [|? ? ? ? NE SH _ _ _ _]; subst. destruct L as [|x L]; [exfalso; apply NE; reflexivity|]. specialize (H x (or_introl eq_refl)).
           destruct (SH x (or_introl eq_refl)) as (v & p & S). rewrite S in H. cbn [steps map in_step] in H. unfold look at 1 in H. destruct H as [H _].
           unfold where_of in H. unfold f_equiv in EQ. assert (f_rpos g = f_rpos f) as Q1 by congruence. assert (f_len g = f_len f) as Q2 by congruence.
           rewrite Q1, Q2, !N.eqb_refl in EQ. discriminate EQ.
        -- cbn [fresh dense_new] in Q. assert (g = f) as -> by (injection Q; auto). unfold f_equiv in EQ. rewrite !N.eqb_refl in EQ. discriminate EQ.
    + cbn [go descend settles]. split; [|discriminate]. intros (H & _). destruct AT as [R|[_ Q]]; [|discriminate Q].
      inversion R as [? ? ? NE SH _|]; subst. destruct L as [|x L]; [exfalso; apply NE; reflexivity|]. specialize (H x (or_introl eq_refl)).
      rewrite (SH x (or_introl eq_refl)) in H. exact H.
Qed.
End Descend.

(** ** The whole tree *)
Definition in_class (c : N) (E : list enc) : list entry :=
  map (fun e => (looks e, e)) (filter (fun e => length_class (en_stencil e) =? c) E).
Definition stands (t : tree) (E : list enc) : Prop :=
  forall c, match t c with None => in_class c E = [] | Some n => rep n (in_class c E) end.
Lemma stands_new : stands tree_new [].
Proof. intros c. reflexivity. Qed.
Lemma looks_same_cell e e' : form_ok (en_form e) -> form_ok (en_form e') ->
  length_class (en_stencil e) = length_class (en_stencil e') -> (looks e = looks e' <-> same_cell e e').
Proof.
  intros F F' LC. unfold looks, same_cell.
  assert (G : forall fs fs', map (look e) fs = map (look e') fs' <->
    Forall2 (fun f f' => f_rpos f = f_rpos f' /\ f_len f = f_len f' /\ (ignores e f <-> ignores e' f') /\
                         (~ ignores e f -> agree_on f (en_stencil e) (en_stencil e'))) fs fs').
  { induction fs as [|f fs IH]; intros [|f' fs']; cbn [map].
    - split; [constructor|reflexivity].
    - split; [discriminate|inversion 1].
    - split; [discriminate|inversion 1].
    - assert (IGN : forall (x : enc) (h : field), existsb (String.eqb (f_name h)) (en_ign x) = true <-> ignores x h).
      { intros x h. rewrite existsb_exists. unfold ignores. split; [intros (y & I & Q); apply String.eqb_eq in Q; now rewrite Q|].
        intros I. exists (f_name h). split; [exact I|apply String.eqb_refl]. }
      split.
      + intros H. assert (look e f = look e' f') as H1 by congruence. assert (map (look e) fs = map (look e') fs') as H2 by congruence.
        constructor; [|now apply IH]. unfold look in H1. assert (f_rpos f = f_rpos f') as R by congruence. assert (f_len f = f_len f') as K by congruence.
        split; [exact R|]. split; [exact K|]. rewrite <- !IGN. destruct (existsb _ (en_ign e)), (existsb _ (en_ign e')); try congruence.
        * split; [tauto|]. intros Q. exfalso. now apply Q.
        * split; [tauto|]. intros _. unfold agree_on. rewrite R, K in *. congruence.
      + inversion 1 as [|? ? ? ? (R & K & IG & AG) T]; subst. f_equal; [|now apply IH]. unfold look. rewrite <- !IGN in *.
        rewrite R, K. f_equal. destruct (existsb _ (en_ign e)), (existsb _ (en_ign e')).
        * reflexivity.
        * exfalso. destruct IG as [IG _]. specialize (IG eq_refl). discriminate IG.
        * exfalso. destruct IG as [_ IG]. specialize (IG eq_refl). discriminate IG.
        * f_equal. unfold agree_on in AG. rewrite R, K in AG. apply AG. discriminate. }
  rewrite G. tauto.
Qed.
Lemma build_tree_settles {A} (e : enc) (leaf : node -> res (node * A)) (C0 : Prop) (W : A -> Prop) t E :
  form_ok (en_form e) -> Forall (fun e' => form_ok (en_form e')) E -> stands t E ->
  (forall g t d, settles (leaf (Dense g t d)) False) ->
  (forall tab d L, (rep (Special tab d) L \/ (L = [] /\ tab = [] /\ d = None)) ->
     settles (leaf (Special tab d)) (C0 /\ forall x, In x L -> again (snd x) e -> en_mn (snd x) = en_mn e) /\
     forall n a, leaf (Special tab d) = Ok (n, a) -> rep n (L ++ [([], e)]) /\ W a) ->
  settles (build_tree (en_form e) (en_ign e) (en_stencil e) leaf t) ((forall e', In e' E -> beside e' e) /\ C0) /\
  forall t' a, build_tree (en_form e) (en_ign e) (en_stencil e) leaf t = Ok (t', a) -> stands t' (E ++ [e]) /\ W a.
Proof.
  intros F FE ST LD LS. unfold build_tree. pose proof (form_ok_oc_nonnil _ F) as NN. pose proof (form_ok_oc _ F) as FO.
  destruct (fm_ocfields (en_form e)) as [|f0 fr] eqn:EO; [congruence|]. rewrite root_class_spec. set (c := length_class (en_stencil e)).
  assert (AT : at_node (f0 :: fr) (match t c with None => dense_new f0 | Some n => n end) (in_class c E)).
  { specialize (ST c). destruct (t c); [left; exact ST|right; split; [exact ST|reflexivity]]. }
  destruct (go_settles e leaf C0 (fun e' => again e' e -> en_mn e' = en_mn e) W LD LS (f0 :: fr) FO _ _ AT) as [S P].
  change (go e leaf (f0 :: fr) ?n) with (descend (en_ign e) (en_stencil e) leaf (f0 :: fr) n) in S, P.
  assert (SE : steps e (f0 :: fr) = looks e) by (unfold steps, looks; rewrite EO; reflexivity). rewrite SE in S, P.
  assert (IC : forall x, In x (in_class c E) <-> In (snd x) E /\ length_class (en_stencil (snd x)) = c /\ fst x = looks (snd x)).
  { intros [p e']. unfold in_class. rewrite in_map_iff. cbn [fst snd]. split.
    - intros (e1 & Q & I). apply filter_In in I as [I I']. apply N.eqb_eq in I'. assert (e1 = e') as -> by congruence. split; [exact I|]. split; [exact I'|congruence].
    - intros (I & I' & ->). exists e'. split; [reflexivity|]. apply filter_In. split; [exact I|]. now apply N.eqb_eq. }
  split.
  - eapply settles_iff; [|eapply settles_bind; [exact S|intros [n a] _ _; exact (settles_ret _ True Logic.I)]]. split.
    + intros ((H1 & H2 & H3) & _). split; [|exact H2]. intros e' I. split.
      * intros LC. apply (H1 (looks e', e')). apply IC. cbn. auto.
      * intros (SC & R1 & R2 & R3 & R4). assert (LC := proj1 SC). apply (H3 (looks e', e')); cbn [fst snd].
        -- apply IC. cbn. auto.
        -- rewrite Forall_forall in FE. apply looks_same_cell; auto.
        -- split; auto.
    + intros [H1 H2]. split; [|exact Logic.I]. split; [|split; [exact H2|]].
      * intros x I. apply IC in I as (I & LC & ->). apply (H1 _ I). exact LC.
      * intros x I Q (A1 & A2 & A3 & A4). apply IC in I as (I & LC & Q'). rewrite Q' in Q. apply (H1 _ I). split; [|auto].
        rewrite Forall_forall in FE. apply looks_same_cell; auto.
  - intros t' a H. destruct (descend _ _ _ _ _) as [[n a']| | |]; cbn [rbind] in H; try discriminate.
    assert (a' = a) as -> by congruence. assert (t' = upd_tab t c n) as -> by congruence. destruct (P _ _ eq_refl) as [R W']. split; [|exact W'].
    intros k. unfold upd_tab. unfold in_class. rewrite filter_app, map_app. cbn [filter]. fold c. destruct (N.eqb_spec k c) as [->|NE].
    + rewrite N.eqb_refl. exact R.
    + replace (c =? k) with false by lia. cbn [map]. rewrite app_nil_r. apply ST.
Qed.
