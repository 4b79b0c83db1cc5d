(** Lemmas: why an encoding cannot be put into the decode tree (C58). *)
From Coq Require Import NArith List Bool String Lia ZifyBool ZifyN.
From Verif Require Import M_Base M_Field M_Forms M_Extract M_Trie S_Bits S_Trie S_Table S_Accept S_Blame L_Bits L_Trie L_Table L_AcceptTree.
Import ListNotations.
Local Open Scope N_scope.

(** If [r] throws [x] then [W x]; if it fails an assertion then [A]; it never is undefined. *)
Definition fails {T} (r : res T) (W : exn -> Prop) (A : Prop) : Prop :=
  match r with Ok _ => True | Throw x => W x | AssertFail => A | UB => False end.
Lemma fails_bind {T V} (r : res T) (f : T -> res V) W A : fails r W A -> (forall v, r = Ok v -> fails (f v) W A) -> fails (let* v := r in f v) W A.
Proof. destruct r; cbn [rbind fails]; auto. Qed.
Lemma fails_imp {T} (r : res T) (W W' : exn -> Prop) (A A' : Prop) : (forall x, W x -> W' x) -> (A -> A') -> fails r W A -> fails r W' A'.
Proof. destruct r; cbn; auto. Qed.
Lemma fails_ok {T} (v : T) W A : fails (Ok v) W A.
Proof. exact I. Qed.

Lemma get_field_fails fm n : form_ok fm -> fails (get_field fm n) (fun x => x = EBuildErrorUnknownFormField /\ forall f, ~ named fm n f) False.
Proof.
  intros F. pose proof (get_field_named fm n F) as S. unfold get_field, get_field_index in *.
  destruct (find _ (fm_names fm)) as [[n' i]|]; cbn [rbind] in *; [|cbn [fails settles] in *; split; [reflexivity|]; intros f H; apply S; eauto].
  destruct (nth_error _ _); cbn [settles fails] in *; tauto.
Qed.
Lemma fixed_mask_fails fm fl : form_ok fm ->
  fails (fixed_mask fm fl) (fun x => x = EBuildErrorUnknownFormField /\ exists n, In n fl /\ forall f, ~ named fm n f) False.
Proof.
  intros F. induction fl as [|n fl IH]; cbn [fixed_mask]; [exact I|].
  apply fails_bind; [eapply fails_imp; [| |apply (get_field_fails _ n F)]; [|tauto]|].
  - intros x [-> H]. split; [reflexivity|]. exists n. split; [now left|exact H].
  - intros f _. apply fails_bind; [|intros; exact I]. eapply fails_imp; [|exact (fun q => q)|exact IH].
    intros x [-> (n' & J & H)]. split; [reflexivity|]. exists n'. split; [now right|exact H].
Qed.
Local Notation path := (list ((N * N) * option N)).
Local Notation entry := (list ((N * N) * option N) * enc)%type.
Lemma add_special_fails tab L e : holds tab L -> form_ok (en_form e) -> few (en_form e) = true -> en_fixed e <> [] ->
  fails (add_special (en_form e) (en_mn e) (en_stencil e) (en_fixed e) tab)
    (fun x => x = EBuildErrorUnknownFormField /\ exists n, In n (en_fixed e) /\ forall f, ~ named (en_form e) n f)
    (exists x, In x L /\ again (snd x) e /\ en_mn (snd x) <> en_mn e).
Proof.
  intros (HF & H1 & H2) F FW NE. unfold add_special.
  pose proof (fixed_mask_fails (en_form e) (en_fixed e) F) as SM.
  destruct (fixed_mask (en_form e) (en_fixed e)) as [m| | |] eqn:EM; cbn [rbind fails] in SM |- *; [|exact SM|contradiction..].
  destruct (field_ids_ok _ _ _ FW EM) as [fs ->]. cbn [rbind].
  set (s0 := mkSE _ _ _ _ _ _). set (tab' := sp_insert s0 tab).
  destruct (_ || _)%bool eqn:Q; cbn [rassert rbind fails]; [exact I|].
  apply orb_false_iff in Q as [_ Q].
  assert (exists s, In s tab' /\ negb (se_hit (en_stencil e) s && (m =? se_mask s) && negb (String.eqb (en_mn e) (se_mn s))) = false) as (s & Is & Qs).
  { clear - Q. induction tab' as [|s l IH]; cbn [forallb] in Q; [discriminate|]. apply andb_false_iff in Q as [Q|Q]; [exists s; split; [now left|exact Q]|].
    destruct (IH Q) as (s' & I' & Q'). exists s'. split; [now right|exact Q']. }
  apply negb_false_iff in Qs. apply andb_true_iff in Qs as [Qs Q3]. apply andb_true_iff in Qs as [Q1 Q2]. apply N.eqb_eq in Q2. apply negb_true_iff in Q3. apply String.eqb_neq in Q3.
  apply sp_insert_in in Is as [->|Is]; [exfalso; apply Q3; reflexivity|].
  destruct (H2 s Is) as (x & Ix & Nx & Ds). rewrite Forall_forall in HF. specialize (HF x Ix). exists x. split; [exact Ix|].
  split; [|destruct Ds as (D & _); congruence]. split; [exact Nx|]. split; [exact NE|].
  split; [destruct Ds as (_ & D' & _); apply (fixed_mask_eq _ _ _ _ HF F D' EM); congruence|]. apply (hit_spec _ s); auto.
Qed.

Section Descend.
Context {A : Type} (e : enc) (leaf : node -> res (node * A)) (cond : enc -> Prop) (W : exn -> Prop) (AB : Prop).
Context (LD : W EBuildErrorOpcodeConflict -> forall g t d, fails (leaf (Dense g t d)) W AB).
Context (LS : forall tab d L, (rep (Special tab d) L \/ (L = [] /\ tab = [] /\ d = None)) -> (forall x, In x L -> cond (snd x)) ->
  fails (leaf (Special tab d)) W AB).
Lemma go_fails fs : forall cur L, at_node fs cur L ->
  (forall x, In x L -> part (fst x) (steps e fs) -> W EBuildErrorFieldsIncompatible) ->
  (forall x, In x L -> ends_first (steps e fs) (fst x) -> W EBuildErrorOpcodeConflict) ->
  (forall x, In x L -> ends_first (fst x) (steps e fs) -> AB) ->
  (forall x, In x L -> fst x = steps e fs -> cond (snd x)) ->
  Forall fok fs -> fails (go e leaf fs cur) W AB.
Proof.
  induction fs as [|f rest IH]; intros cur L AT H1 H2 H3 H4 FO.
  - cbn [go steps map] in *. destruct cur as [g t d|tab d].
    + apply LD. destruct AT as [R|[_ Q]]; [|discriminate Q]. inversion R as [|? ? ? ? NE SH _ _ _ _]; subst.
      destruct L as [|x L]; [congruence|]. apply (H2 x (or_introl eq_refl)). destruct (SH x (or_introl eq_refl)) as (v & p & ->). exact I.
    + apply (LS tab d L).
      * destruct AT as [R|[-> Q]]; [now left|]. right. cbn [fresh] in Q. unfold special_new in Q. injection Q as -> ->. auto.
      * intros x J. apply H4; [exact J|]. destruct AT as [R|[-> _]]; [|destruct J]. inversion R; auto.
  - inversion FO as [|? ? F1 F2]; subst. destruct cur as [g tab d|tab d].
    + assert (SH : forall x, In x L -> exists v p, fst x = (where_of g, v) :: p).
      { intros x J. destruct AT as [R|[-> _]]; [|destruct J]. inversion R; auto. }
      destruct (f_equiv g f) eqn:EQ.
      * rewrite go_cons by exact EQ. unfold f_equiv in EQ. apply andb_true_iff in EQ as [Q1 Q2]. apply N.eqb_eq in Q1, Q2.
        assert (WG : where_of g = where_of f) by (unfold where_of; congruence).
        assert (TN : forall i, match tab i with None => sub (Some i) L = [] | Some c => rep c (sub (Some i) L) end).
        { intros i. destruct AT as [R|[-> Q]].
          - inversion R; subst. destruct (tab i) eqn:Q; auto.
          - cbn [fresh dense_new] in Q. assert (tab = fun _ => None) as -> by (injection Q; auto). reflexivity. }
        assert (DN : match d with None => sub None L = [] | Some c => rep c (sub None L) end).
        { destruct AT as [R|[-> Q]].
          - inversion R; subst. destruct d eqn:Q; auto.
          - cbn [fresh dense_new] in Q. assert (d = None) as -> by (injection Q; auto). reflexivity. }
        assert (UP : forall v p e', v = snd (look e f) -> In (p, e') (sub v L) -> exists q, In (q, e') L /\ q = look e f :: p).
        { intros v p e' -> J. apply in_sub in J as [a J]. destruct (SH _ J) as (w & p' & S). cbn [fst] in S. exists ((a, snd (look e f)) :: p).
          split; [exact J|]. assert (a = where_of g) as -> by congruence. rewrite WG. reflexivity. }
        assert (GO : forall v c, v = snd (look e f) -> at_node rest c (sub v L) -> fails (go e leaf rest c) W AB).
        { intros v c V AT'. apply (IH _ _ AT').
          - intros [p e'] J K. destruct (UP _ _ _ V J) as (q & J' & ->). apply (H1 _ J'). cbn [fst steps map] in *. destruct (look e f). right. auto.
          - intros [p e'] J K. destruct (UP _ _ _ V J) as (q & J' & ->). apply (H2 _ J'). cbn [fst steps map ends_first] in *. auto.
          - intros [p e'] J K. destruct (UP _ _ _ V J) as (q & J' & ->). apply (H3 _ J'). cbn [fst steps map ends_first] in *. auto.
          - intros [p e'] J K. destruct (UP _ _ _ V J) as (q & J' & ->). apply (H4 _ J'). cbn [fst steps map] in *. now rewrite K.
          - exact F2. }
        destruct (is_ignored (en_ign e) f) eqn:IG.
        -- apply fails_bind; [|intros [? ?] _; exact I]. apply (GO None).
           ++ unfold look. unfold is_ignored in IG. cbn [snd]. rewrite IG. reflexivity.
           ++ destruct d; [left; exact DN|right; split; [exact DN|reflexivity]].
        -- set (i0 := f_extract g (en_stencil e)) in *. apply fails_bind; [|intros [? ?] _; exact I]. apply (GO (Some i0)).
           ++ unfold i0, look. unfold is_ignored in IG. cbn [snd]. rewrite IG, f_extract_slice; [|unfold fok in *; lia]. rewrite Q1, Q2. reflexivity.
           ++ specialize (TN i0). destruct (tab i0); [left; exact TN|right; split; [exact TN|reflexivity]].
      * cbn [go descend]. rewrite EQ. cbn [negb fails]. destruct AT as [R|[_ Q]].
        -- inversion R as [|? ? ? ? NE _ _ _ _ _]; subst. destruct L as [|x L]; [congruence|]. apply (H1 x (or_introl eq_refl)).
           destruct (SH x (or_introl eq_refl)) as (v & p & ->). cbn [steps map part]. unfold look at 1. left. unfold where_of. intros Q.
           unfold f_equiv in EQ. assert (f_rpos g = f_rpos f) as Q1 by congruence. assert (f_len g = f_len f) as Q2 by congruence.
           rewrite Q1, Q2, !N.eqb_refl in EQ. discriminate EQ.
        -- cbn [fresh dense_new] in Q. assert (g = f) as -> by (injection Q; auto). unfold f_equiv in EQ. rewrite !N.eqb_refl in EQ. discriminate EQ.
    + cbn [go descend fails]. destruct AT as [R|[_ Q]]; [|discriminate Q].
      inversion R as [? ? ? NE SH _|]; subst. destruct L as [|x L]; [congruence|]. apply (H3 x (or_introl eq_refl)).
      rewrite (SH x (or_introl eq_refl)). exact I.
Qed.
End Descend.
Lemma build_tree_fails {A} (e : enc) (leaf : node -> res (node * A)) (W : exn -> Prop) (AB : Prop) t E :
  form_ok (en_form e) -> Forall (fun e' => form_ok (en_form e')) E -> stands t E ->
  (W EBuildErrorOpcodeConflict -> forall g t d, fails (leaf (Dense g t d)) W AB) ->
  (forall tab d L, (rep (Special tab d) L \/ (L = [] /\ tab = [] /\ d = None)) -> (forall x, In x L -> In (snd x) E /\ same_cell (snd x) e) ->
     fails (leaf (Special tab d)) W AB) ->
  (forall x, place_fault E e x -> W x) -> (place_abort E e -> AB) ->
  fails (build_tree (en_form e) (en_ign e) (en_stencil e) leaf t) W AB.
Proof.
  intros F FE ST LD LS WX AX. unfold build_tree. pose proof (form_ok_oc_nonnil _ F) as NN. pose proof (form_ok_oc _ F) as FO.
  destruct (fm_ocfields (en_form e)) as [|f0 fr] eqn:EO; [congruence|]. rewrite root_class_spec. set (c := length_class (en_stencil e)).
  assert (AT : at_node (f0 :: fr) (match t c with None => dense_new f0 | Some n => n end) (in_class c E)).
  { specialize (ST c). destruct (t c); [left; exact ST|right; split; [exact ST|reflexivity]]. }
  assert (SE : steps e (f0 :: fr) = looks e) by (unfold steps, looks; rewrite EO; reflexivity).
  assert (IC : forall x, In x (in_class c E) -> In (snd x) E /\ same_length (snd x) e /\ fst x = looks (snd x)).
  { intros [p e']. unfold in_class. rewrite in_map_iff. cbn [fst snd].
    intros (e1 & Q & J). apply filter_In in J as [J J']. apply N.eqb_eq in J'. assert (e1 = e') as -> by congruence. split; [exact J|]. split; [exact J'|congruence]. }
  apply fails_bind; [|intros [? ?] _; exact I].
  change (descend (en_ign e) (en_stencil e) leaf (f0 :: fr) ?n) with (go e leaf (f0 :: fr) n).
  apply (go_fails e leaf (fun e' => In e' E /\ same_cell e' e) W AB LD LS (f0 :: fr) _ _ AT); [rewrite SE..|exact FO].
  - intros x J K. destruct (IC x J) as (J1 & J2 & J3). apply WX. exists (snd x). rewrite J3 in K. auto.
  - intros x J K. destruct (IC x J) as (J1 & J2 & J3). apply WX. exists (snd x). rewrite J3 in K. auto.
  - intros x J K. destruct (IC x J) as (J1 & J2 & J3). apply AX. exists (snd x). rewrite J3 in K. auto.
  - intros x J K. destruct (IC x J) as (J1 & J2 & J3). split; [exact J1|]. rewrite Forall_forall in FE. apply looks_same_cell; auto. congruence.
Qed.
