(** Boolean checks for the hypotheses of the theorems about tables. *)
From Coq Require Import NArith Arith List Bool String Lia Permutation Sorted.
From Verif Require Import M_Base M_Field M_Forms M_Meta M_Extract M_Decoded M_Trie M_Builder M_DTable M_Raw.
From Verif Require Import S_Bits L_Bits S_Trie S_Table L_Count L_Trie L_Table.
Import ListNotations.
Local Open Scope N_scope.

Fixpoint fop {T} (R : T -> T -> bool) (l : list T) : bool :=
  match l with [] => true | a :: r => forallb (R a) r && fop R r end.
Lemma fop_ok {T} (R : T -> T -> bool) (Q : T -> T -> Prop) (C : T -> Prop) l :
  (forall a b, C a -> C b -> R a b = true -> Q a b) -> Forall C l -> fop R l = true -> ForallOrdPairs Q l.
Proof.
  intros H. induction 1 as [|a l Ca Cl IH]; intros F; [constructor|]. cbn [fop] in F. apply andb_true_iff in F as [F1 F2].
  constructor; [|auto]. rewrite forallb_forall in F1. rewrite Forall_forall in Cl |- *. intros b Hb. auto.
Qed.

(** ** Bits an encoding constrains *)
Definition oc_mask (e : enc) : N :=
  fold_right (fun f m => if existsb (String.eqb (f_name f)) (en_ign e) then m else N.lor (f_smask f) m) 0 (fm_ocfields (en_form e)).
Definition enc_ok (e : enc) : Prop := form_ok (en_form e) /\ Forall (fun f => f_rpos f + f_len f <= 64) (fm_ocfields (en_form e)).
Definition enc_okb (e : enc) : bool := form_okb (en_form e) && forallb (fun f => f_rpos f + f_len f <=? 64) (fm_ocfields (en_form e)).
Lemma enc_okb_ok e : enc_okb e = true -> enc_ok e.
Proof.
  unfold enc_okb, enc_ok. intros H. apply andb_true_iff in H as [H1 H2]. split; [exact H1|].
  rewrite forallb_forall in H2. apply Forall_forall. intros f Hf. apply N.leb_le. auto.
Qed.
Lemma oc_mask_agree e ic : enc_ok e ->
  (N.land ic (oc_mask e) = N.land (en_stencil e) (oc_mask e) <->
   forall f, In f (fm_ocfields (en_form e)) -> ~ ignores e f -> agree_on f ic (en_stencil e)).
Proof.
  intros [F L]. pose proof (form_ok_oc _ F) as Fo. clear F. unfold oc_mask, ignores.
  induction (fm_ocfields (en_form e)) as [|f l IH]; cbn [fold_right].
  - rewrite !N.land_0_r. split; [intros _ ? []|reflexivity].
  - inversion Fo; inversion L; subst. cbn [In].
    destruct (existsb (String.eqb (f_name f)) (en_ign e)) eqn:EI.
    + rewrite IH by auto. split.
      * intros H f0 [<-|H0] N0; [exfalso; rewrite <- ignored_In in N0; congruence|auto].
      * intros H f0 H0 N0. apply H; auto.
    + rewrite land_lor_eq, IH, smask_agree by auto. split.
      * intros [H1' H2'] f0 [<-|H0] N0; auto.
      * intros H. split; [|auto]. apply H; [auto|]. rewrite <- ignored_In. congruence.
Qed.
Definition fx_mask (e : enc) : option N := match fixed_mask (en_form e) (en_fixed e) with Ok m => Some m | _ => None end.
Lemma fx_mask_agree e m ic : enc_ok e -> fx_mask e = Some m ->
  (N.land ic m = N.land (en_stencil e) m <-> fixed_agree e ic).
Proof.
  intros [F _] H. unfold fx_mask in H. destruct (fixed_mask _ _) as [m'| | |] eqn:E; try discriminate.
  assert (m' = m) as -> by congruence. apply (fixed_mask_agree _ _ _ _ _ F E).
Qed.
Definition all_mask (e : enc) : option N := match fx_mask e with Some m => Some (N.lor (oc_mask e) m) | None => None end.
Lemma all_mask_matches e m ic : enc_ok e -> all_mask e = Some m ->
  (matches e ic <-> length_class ic = length_class (en_stencil e) /\ N.land ic m = N.land (en_stencil e) m).
Proof.
  intros F H. unfold all_mask in H. destruct (fx_mask e) as [m'|] eqn:E; [|discriminate].
  assert (m = N.lor (oc_mask e) m') as -> by congruence.
  unfold matches. rewrite land_lor_eq, (oc_mask_agree _ _ F), (fx_mask_agree _ _ _ F E). tauto.
Qed.

(** ** Separation *)
Fixpoint same_fieldsb (e e' : enc) (l l' : list field) : bool :=
  match l, l' with
  | [], [] => true
  | f :: r, f' :: r' =>
      (f_rpos f =? f_rpos f') && (f_len f =? f_len f') &&
      Bool.eqb (existsb (String.eqb (f_name f)) (en_ign e)) (existsb (String.eqb (f_name f')) (en_ign e')) &&
      (existsb (String.eqb (f_name f)) (en_ign e) || (slice (f_rpos f) (f_len f) (en_stencil e) =? slice (f_rpos f) (f_len f) (en_stencil e'))) &&
      same_fieldsb e e' r r'
  | _, _ => false
  end.
Definition same_cellb (e e' : enc) : bool :=
  (length_class (en_stencil e) =? length_class (en_stencil e')) &&
  same_fieldsb e e' (fm_ocfields (en_form e)) (fm_ocfields (en_form e')).
Lemma same_cellb_ok e e' : same_cell e e' -> same_cellb e e' = true.
Proof.
  intros [H1 H2]. unfold same_cellb. apply andb_true_iff. split; [now apply N.eqb_eq|].
  induction H2 as [|f f' l l' (A & B & C & D) H2 IH]; [reflexivity|]. cbn [same_fieldsb].
  unfold ignores in C, D. rewrite <- !ignored_In in C. rewrite <- ignored_In in D.
  rewrite IH, andb_true_r. rewrite (proj2 (N.eqb_eq _ _) A), (proj2 (N.eqb_eq _ _) B). cbn [andb].
  apply andb_true_iff. split.
  - apply eqb_true_iff. apply eq_true_iff_eq. exact C.
  - destruct (existsb _ (en_ign e)); [reflexivity|]. cbn [orb]. apply N.eqb_eq. apply D. discriminate.
Qed.
Definition clearb (e e' : enc) : bool :=
  negb (same_cellb e e') ||
  match en_fixed e, en_fixed e' with
  | [], [] => false
  | _ :: _, _ :: _ =>
      Nat.ltb (nfixed e) (nfixed e') ||
      match fx_mask e with
      | Some m => negb (N.land (en_stencil e') m =? N.land (en_stencil e) m)
      | None => false
      end
  | _, _ => true
  end.
Lemma clearb_ok e e' : enc_ok e -> enc_ok e' -> clearb e e' = true -> clear e e'.
Proof.
  intros O O' H C. apply same_cellb_ok in C. unfold clearb in H. rewrite C in H. cbn [negb orb] in H.
  destruct (en_fixed e) eqn:E1, (en_fixed e') eqn:E2; [discriminate|split; [intros [? ?]; discriminate|congruence]|split; [intros [? ?]; discriminate|congruence]|].
  split; [intros [? _]; discriminate|]. intros _ _ N FA.
  apply orb_true_iff in H as [H|H]; [apply Nat.ltb_lt in H; lia|].
  destruct (fx_mask e) as [m|] eqn:E; [|discriminate]. apply (fx_mask_agree _ _ _ O E) in FA. rewrite FA, N.eqb_refl in H. discriminate.
Qed.
Definition enc_oks (E : list enc) : bool := forallb enc_okb E.
Lemma enc_oks_ok E : enc_oks E = true -> Forall enc_ok E.
Proof. intros H. apply Forall_forall. intros e He. apply enc_okb_ok. unfold enc_oks in H. rewrite forallb_forall in H. auto. Qed.
Definition separatedb (E : list enc) : bool := enc_oks E && fop clearb E.
Lemma separatedb_ok E : separatedb E = true -> separated E.
Proof.
  unfold separatedb. intros H. apply andb_true_iff in H as [H1 H2]. apply (fop_ok clearb clear enc_ok); auto using clearb_ok, enc_oks_ok.
Qed.
Definition unambiguousb (E : list enc) : bool := enc_oks E && fop (fun e e' => clearb e e' && clearb e' e) E.
Lemma unambiguousb_ok E : unambiguousb E = true -> unambiguous E.
Proof.
  unfold unambiguousb. intros H. apply andb_true_iff in H as [H1 H2].
  apply (fop_ok (fun e e' => clearb e e' && clearb e' e) _ enc_ok); auto using enc_oks_ok.
  intros a b Ha Hb H. apply andb_true_iff in H as [H H']. split; apply clearb_ok; auto.
Qed.

(** ** Ties *)
Fixpoint earlierb (p q : list bool) : bool :=
  match p, q with
  | true :: _, false :: _ => true
  | a :: p, b :: q => Bool.eqb a b && earlierb p q
  | _, _ => false
  end.
Lemma earlierb_ok p q : earlierb p q = true -> earlier_specified p q.
Proof.
  revert q. induction p as [|a p IH]; intros [|b q] H; [discriminate H|discriminate H|destruct a; discriminate H|].
  cbn in H. assert (D : (a = true /\ b = false) \/ (a = b /\ earlierb p q = true)).
  { destruct a, b; cbn in H; auto; discriminate. }
  destruct D as [[-> ->]|[-> D]]; [exists [], p, q; auto|]. apply earlier_cons. now apply IH.
Qed.
Fixpoint beqb (p q : list bool) : bool :=
  match p, q with
  | [], [] => true
  | a :: p, b :: q => Bool.eqb a b && beqb p q
  | _, _ => false
  end.
Lemma beqb_ok p q : beqb p q = true -> p = q.
Proof.
  revert q. induction p as [|a p IH]; intros [|b q] H; try discriminate; [reflexivity|]. cbn in H.
  apply andb_true_iff in H as [H1 H2]. apply eqb_prop in H1. f_equal; auto.
Qed.
Definition more_specificb (e e' : enc) : bool :=
  earlierb (specified e) (specified e') || (beqb (specified e) (specified e') && Nat.ltb (nfixed e') (nfixed e)).
Lemma more_specificb_ok e e' : more_specificb e e' = true -> more_specific e e'.
Proof.
  unfold more_specificb. intros H. apply orb_true_iff in H as [H|H]; [left; now apply earlierb_ok|right].
  apply andb_true_iff in H as [H1 H2]. split; [now apply beqb_ok|now apply Nat.ltb_lt].
Qed.
Definition apartb (e e' : enc) : bool :=
  negb (length_class (en_stencil e) =? length_class (en_stencil e')) ||
  match all_mask e, all_mask e' with
  | Some m, Some m' => negb (N.land (N.lxor (en_stencil e) (en_stencil e')) (N.land m m') =? 0)
  | _, _ => false
  end.
Lemma apartb_ok e e' ic : enc_ok e -> enc_ok e' -> apartb e e' = true -> matches e ic -> matches e' ic -> False.
Proof.
  intros O O' H M M'. unfold apartb in H. apply orb_true_iff in H as [H|H].
  - destruct M as [M _], M' as [M' _]. rewrite <- M, <- M', N.eqb_refl in H. discriminate.
  - destruct (all_mask e) as [m|] eqn:E, (all_mask e') as [m'|] eqn:E'; try discriminate.
    apply (all_mask_matches _ _ _ O E) in M as [_ M]. apply (all_mask_matches _ _ _ O' E') in M' as [_ M'].
    apply negb_true_iff in H. apply N.eqb_neq in H. apply H. apply N.bits_inj. intros i.
    rewrite !N.land_spec, N.lxor_spec, N.bits_0.
    apply (f_equal (fun x => N.testbit x i)) in M, M'. rewrite !N.land_spec in M, M'.
    destruct (N.testbit m i), (N.testbit m' i), (N.testbit (en_stencil e) i), (N.testbit (en_stencil e') i), (N.testbit ic i); cbn in *; congruence.
Qed.
Definition no_tieb (e e' : enc) : bool := more_specificb e e' || more_specificb e' e || apartb e e'.
Lemma no_tieb_ok e e' : enc_ok e -> enc_ok e' -> no_tieb e e' = true -> ~ tie e e'.
Proof.
  intros O O' H (ic & M & M' & N1 & N2). unfold no_tieb in H. rewrite !orb_true_iff in H.
  destruct H as [[H|H]|H]; [apply N1; now apply more_specificb_ok|apply N2; now apply more_specificb_ok|exact (apartb_ok e e' ic O O' H M M')].
Qed.
Definition no_tiesb (E : list enc) : bool := enc_oks E && fop no_tieb E.
Lemma no_tiesb_ok E : no_tiesb E = true -> no_ties E.
Proof.
  unfold no_tiesb. intros H. apply andb_true_iff in H as [H1 H2].
  apply (fop_ok no_tieb _ enc_ok); auto using enc_oks_ok, no_tieb_ok.
Qed.

(** ** The same checks with the parts of each encoding computed once *)
Record prep := mkPrep { pr_lc : N; pr_st : N; pr_fs : list (N * N * bool * N); pr_fx : option N; pr_all : option N;
                        pr_spec : list bool; pr_n : nat }.
Definition prep_of (e : enc) : prep :=
  mkPrep (length_class (en_stencil e)) (en_stencil e)
    (map (fun f => (f_rpos f, f_len f, existsb (String.eqb (f_name f)) (en_ign e), slice (f_rpos f) (f_len f) (en_stencil e))) (fm_ocfields (en_form e)))
    (fx_mask e) (all_mask e) (specified e) (nfixed e).
Fixpoint same_fieldsp (l l' : list (N * N * bool * N)) : bool :=
  match l, l' with
  | [], [] => true
  | (p, n, b, s) :: r, (p', n', b', s') :: r' =>
      if p =? p' then if n =? n' then if Bool.eqb b b' then if (if b then true else s =? s') then same_fieldsp r r' else false else false else false else false
  | _, _ => false
  end.
Definition clearp (p p' : prep) : bool :=
  if pr_lc p =? pr_lc p' then
    if same_fieldsp (pr_fs p) (pr_fs p') then
      match pr_n p, pr_n p' with
      | O, O => false
      | S _, S _ =>
          if Nat.ltb (pr_n p) (pr_n p') then true else
          match pr_fx p with Some m => negb (N.land (pr_st p') m =? N.land (pr_st p) m) | None => false end
      | _, _ => true
      end
    else true
  else true.
Definition apartp (p p' : prep) : bool :=
  if pr_lc p =? pr_lc p' then
    match pr_all p, pr_all p' with
    | Some m, Some m' => negb (N.land (N.lxor (pr_st p) (pr_st p')) (N.land m m') =? 0)
    | _, _ => false
    end
  else true.
Definition no_tiep (e e' : prep) : bool :=
  if apartp e e' then true else if earlierb (pr_spec e) (pr_spec e') then true else if earlierb (pr_spec e') (pr_spec e) then true else
  if beqb (pr_spec e) (pr_spec e') then if beqb (pr_spec e') (pr_spec e) then negb (Nat.eqb (pr_n e) (pr_n e')) else false else false.
Lemma same_fieldsp_ok e e' l l' :
  same_fieldsb e e' l l' = true ->
  same_fieldsp (map (fun f => (f_rpos f, f_len f, existsb (String.eqb (f_name f)) (en_ign e), slice (f_rpos f) (f_len f) (en_stencil e))) l)
    (map (fun f => (f_rpos f, f_len f, existsb (String.eqb (f_name f)) (en_ign e'), slice (f_rpos f) (f_len f) (en_stencil e'))) l') = true.
Proof.
  revert l'. induction l as [|f l IH]; intros [|f' l'] H; try discriminate; [reflexivity|]. cbn [same_fieldsb] in H.
  apply andb_true_iff in H as [H H5]. apply andb_true_iff in H as [H H4]. apply andb_true_iff in H as [H H3]. apply andb_true_iff in H as [H1 H2].
  cbn [map same_fieldsp]. rewrite H1, H2, H3, (IH _ H5). apply N.eqb_eq in H1, H2. rewrite <- H1, <- H2.
  destruct (existsb _ (en_ign e)); [reflexivity|]. cbn [orb] in H4. now rewrite H4.
Qed.
Lemma clearp_ok e e' : clearp (prep_of e) (prep_of e') = true -> clearb e e' = true.
Proof.
  unfold clearp, clearb, same_cellb. cbn [prep_of pr_lc pr_fs pr_n pr_fx pr_st].
  destruct (length_class (en_stencil e) =? length_class (en_stencil e')); [|reflexivity]. cbn [andb].
  destruct (same_fieldsb e e' _ _) eqn:E; [|reflexivity]. rewrite (same_fieldsp_ok _ _ _ _ E). cbn [negb orb]. unfold nfixed.
  destruct (en_fixed e) as [|? ?], (en_fixed e') as [|? ?]; cbn [List.length]; auto.
Qed.
Lemma no_tiep_ok e e' : no_tiep (prep_of e) (prep_of e') = true -> no_tieb e e' = true.
Proof.
  unfold no_tiep, no_tieb, more_specificb, apartp, apartb. cbn [prep_of pr_lc pr_all pr_n pr_st pr_spec].
  destruct (length_class (en_stencil e) =? length_class (en_stencil e')); [|intros _; now rewrite orb_true_r]. cbn [negb orb].
  destruct (match all_mask e with Some _ => _ | None => _ end); [intros _; now rewrite orb_true_r|].
  destruct (earlierb (specified e) (specified e')); [reflexivity|].
  destruct (earlierb (specified e') (specified e)); [intros _; now rewrite orb_true_r|].
  destruct (beqb (specified e) (specified e')); [|discriminate]. destruct (beqb (specified e') (specified e)); [|discriminate].
  cbn [andb orb]. rewrite orb_false_r. intros H. apply negb_true_iff, Nat.eqb_neq in H. apply orb_true_iff. rewrite !Nat.ltb_lt. lia.
Qed.
Lemma fop_map {T U} (R : U -> U -> bool) (Q : T -> T -> bool) (f : T -> U) l :
  (forall a b, R (f a) (f b) = true -> Q a b = true) -> fop R (map f l) = true -> fop Q l = true.
Proof.
  intros H. induction l as [|a l IH]; [reflexivity|]. cbn [map fop]. intros F. apply andb_true_iff in F as [F1 F2].
  rewrite IH by auto. rewrite andb_true_r. rewrite forallb_forall in F1 |- *. intros b Hb. apply H, F1. now apply in_map.
Qed.
(** Are the encodings separated and free of ties? *)
Definition table_okb (E : list enc) : bool :=
  if enc_oks E then let P := map prep_of E in if fop clearp P then fop no_tiep P else false else false.
Lemma table_okb_ok E : table_okb E = true -> separatedb E = true /\ no_tiesb E = true.
Proof.
  unfold table_okb, separatedb, no_tiesb. destruct (enc_oks E); [|discriminate]. cbv zeta. destruct (fop clearp _) eqn:C; [|discriminate].
  intros T. split; [exact (fop_map _ _ _ _ clearp_ok C)|exact (fop_map _ _ _ _ no_tiep_ok T)].
Qed.

(** ** Sharing of factories, expansions and overlays *)
Definition oseqb (a : option string) (s : string) : bool := match a with Some x => String.eqb x s | None => false end.
Lemma oseqb_ok a s : oseqb a s = true <-> a = Some s.
Proof.
  destruct a as [x|]; cbn; [|split; discriminate]. rewrite String.eqb_eq. split; congruence.
Qed.
Definition customb (mn : string) : bool := String.eqb mn "nop" || String.eqb mn "cmov".
Lemma customb_ok mn : customb mn = true <-> custom mn.
Proof. unfold customb, custom. rewrite orb_true_iff, !String.eqb_eq. tauto. Qed.
Definition aloneb (recs : list irec) (F : string) : bool :=
  negb (customb F) &&
  forallb (fun r => negb (oseqb (r_mn r) F) || match r_factory r with None => true | Some G => String.eqb G F end) recs.
Lemma aloneb_ok recs F : aloneb recs F = true -> alone recs F.
Proof.
  unfold aloneb. intros H. apply andb_true_iff in H as [H1 H2]. split.
  - intros C. apply customb_ok in C. rewrite C in H1. discriminate.
  - intros r Hr E. rewrite forallb_forall in H2. specialize (H2 r Hr). apply oseqb_ok in E. rewrite E in H2. cbn [negb orb] in H2.
    destruct (r_factory r) as [G|]; [|auto]. right. apply String.eqb_eq in H2. congruence.
Qed.
Definition soleb (recs : list irec) (mn : string) : bool :=
  aloneb recs mn && forallb (fun r => negb (oseqb (r_factory r) mn) || oseqb (r_mn r) mn) recs.
Lemma soleb_ok recs mn : soleb recs mn = true -> sole recs mn.
Proof.
  unfold soleb. intros H. apply andb_true_iff in H as [H1 H2]. apply aloneb_ok in H1 as [A B]. split; [auto|]. split; [|auto].
  intros r Hr E. rewrite forallb_forall in H2. specialize (H2 r Hr). apply oseqb_ok in E. rewrite E in H2. cbn [negb orb] in H2.
  now apply oseqb_ok.
Qed.
Definition untouchedb (recs : list irec) (mn : string) : bool :=
  customb mn && forallb (fun r => negb (oseqb (r_mn r) mn) || match r_overlay r, r_factory r with Some _, None => true | _, _ => false end) recs.
Lemma untouchedb_ok recs mn : untouchedb recs mn = true -> untouched recs mn.
Proof.
  unfold untouchedb. intros H. apply andb_true_iff in H as [H1 H2]. split; [now apply customb_ok|].
  intros r Hr E. rewrite forallb_forall in H2. specialize (H2 r Hr). apply oseqb_ok in E. rewrite E in H2. cbn [negb orb] in H2.
  destruct (r_overlay r), (r_factory r); try discriminate. split; [discriminate|auto].
Qed.
Definition instb (r : irec) : option string := match r_overlay r with None => r_mn r | Some _ => None end.
Lemma instb_ok r mn : instb r = Some mn <-> is_inst r mn.
Proof. unfold instb, is_inst. destruct (r_overlay r); split; [discriminate|intros [? ?]; discriminate|auto|tauto]. Qed.
Definition ovb (r : irec) : option (string * N * N) :=
  match r_mn r, r_overlay r with
  | Some _, Some jo => match jo_base jo, jo_match jo with Some b, Some [m; v] => Some (b, m, v) | _, _ => None end
  | _, _ => None
  end.
Lemma ovb_ok r mn b m v : overlays r mn b m v -> ovb r = Some (b, m, v).
Proof. intros (H1 & jo & H2 & H3 & H4). unfold ovb. now rewrite H1, H2, H3, H4. Qed.
Definition ov_apartb (r r' : irec) : bool :=
  match ovb r, ovb r' with
  | Some (b, m, v), Some (b', m', v') =>
      negb (String.eqb b b') || negb (popcount m =? popcount m') || negb (N.land (N.lxor v v') (N.land m m') =? 0)
  | _, _ => true
  end.
Lemma ov_apartb_ok r r' mn mn' base mask mask' ic :
  overlays r mn base mask (N.land ic mask) -> overlays r' mn' base mask' (N.land ic mask') ->
  ov_apartb r r' = true -> popcount mask <> popcount mask'.
Proof.
  intros H H'. apply ovb_ok in H, H'. unfold ov_apartb. rewrite H, H', String.eqb_refl. cbn [negb orb].
  intros Q E. rewrite E, N.eqb_refl in Q. cbn [negb orb] in Q. apply negb_true_iff, N.eqb_neq in Q. apply Q.
  apply N.bits_inj. intros i. rewrite N.land_spec, N.lxor_spec, !N.land_spec, N.bits_0.
  destruct (N.testbit ic i), (N.testbit mask i), (N.testbit mask' i); reflexivity.
Qed.
Definition wfb (recs : list irec) : bool :=
  forallb (fun r => match instb r with
                    | Some mn => if String.eqb (r_expand r) "" then aloneb recs (fname_of r mn)
                                 else negb (customb mn) && (soleb recs (r_expand r) || untouchedb recs (r_expand r))
                    | None => true
                    end) recs &&
  forallb (fun r => match ovb r with Some (b, m, _) => soleb recs b && (m <? 2 ^ 64) | None => true end) recs &&
  fop ov_apartb recs.
Lemma well_formed_check recs :
  separatedb (encodings recs) = true -> no_tiesb (encodings recs) = true -> wfb recs = true ->
  (forall r mn r' mn', In r recs -> is_inst r mn -> r_expand r = ""%string ->
     In r' recs -> is_inst r' mn' -> r_expand r' = ""%string -> fname_of r' mn' = fname_of r mn -> own_meta r' = own_meta r) ->
  well_formed recs.
Proof.
  intros H1 H2 H3 H4. unfold wfb in H3. apply andb_true_iff in H3 as [H3 H7]. apply andb_true_iff in H3 as [H5 H6].
  rewrite forallb_forall in H5, H6. constructor.
  - now apply separatedb_ok.
  - now apply no_tiesb_ok.
  - intros r mn Hr Hi EX. specialize (H5 r Hr). rewrite (proj2 (instb_ok r mn) Hi), EX in H5. cbn [String.eqb] in H5.
    split; [now apply aloneb_ok|]. intros r' mn' Hr' Hi' EX' F. eapply H4; eauto.
  - intros r mn Hr Hi EX. specialize (H5 r Hr). rewrite (proj2 (instb_ok r mn) Hi) in H5.
    apply String.eqb_neq in EX. rewrite EX in H5. apply andb_true_iff in H5 as [A B].
    split; [|apply orb_true_iff in B as [B|B]; [left; now apply soleb_ok|right; now apply untouchedb_ok]].
    intros C. apply customb_ok in C. rewrite C in A. discriminate.
  - intros r mn base mask value Hr Ho. specialize (H6 r Hr). rewrite (ovb_ok _ _ _ _ _ Ho) in H6.
    apply andb_true_iff in H6 as [A B]. split; [now apply soleb_ok|now apply N.ltb_lt].
  - intros r r' mn mn' base mask mask' ic Hr Hr' Ho Ho'.
    assert (FO : ForallOrdPairs (fun r r' => ov_apartb r r' = true) recs).
    { apply (fop_ok ov_apartb _ (fun _ => True)); auto. apply Forall_forall. auto. }
    destruct (ForallOrdPairs_In FO r r' Hr Hr') as [Q|[Q|Q]]; [auto|right..].
    + eapply ov_apartb_ok; eauto.
    + apply not_eq_sym. eapply (ov_apartb_ok r' r); eauto.
Qed.
(** The instructions that share a factory say the same things about their meta-data. *)
Definition mview (w : raw) := (w_type w, w_data w, w_oper w, w_isa w, w_fixed w, w_tags w, w_expand w).
Definition mview_dec (w w' : raw) : {mview w = mview w'} + {mview w <> mview w'}.
Proof. unfold mview. repeat decide equality. Defined.
Lemma mview_meta w w' : mview w = mview w' -> own_meta (rec_of w) = own_meta (rec_of w').
Proof.
  unfold mview, own_meta, rec_of, jmeta_of. cbn [r_meta r_expand r_tags r_fixed].
  destruct w, w'. cbn. intros H. injection H as -> -> -> -> -> -> ->. reflexivity.
Qed.
Definition groupsb (ws : list raw) : bool :=
  fop (fun w w' => match instb (rec_of w), instb (rec_of w') with
                   | Some mn, Some mn' =>
                       if String.eqb (fname_of (rec_of w) mn) (fname_of (rec_of w') mn') then if mview_dec w w' then true else false else true
                   | _, _ => true
                   end) (filter (fun w => String.eqb (r_expand (rec_of w)) "") ws).
Lemma groupsb_ok ws : groupsb ws = true ->
  forall r mn r' mn', In r (map rec_of ws) -> is_inst r mn -> r_expand r = ""%string ->
     In r' (map rec_of ws) -> is_inst r' mn' -> r_expand r' = ""%string -> fname_of r' mn' = fname_of r mn -> own_meta r' = own_meta r.
Proof.
  unfold groupsb. intros H r mn r' mn' Hr Hi EX Hr' Hi' EX' F.
  apply in_map_iff in Hr as (w & <- & Hw), Hr' as (w' & <- & Hw').
  match type of H with fop ?R ?l = true => set (Q := R) in H; assert (FO : ForallOrdPairs (fun r r' => Q r r' = true) l) end.
  { apply (fop_ok Q _ (fun _ => True)); auto. apply Forall_forall. auto. }
  assert (I : In w (filter (fun r => String.eqb (r_expand (rec_of r)) "") ws)) by (apply filter_In; rewrite EX; auto).
  assert (I' : In w' (filter (fun r => String.eqb (r_expand (rec_of r)) "") ws)) by (apply filter_In; rewrite EX'; auto).
  apply instb_ok in Hi, Hi'.
  destruct (ForallOrdPairs_In FO w w' I I') as [->|[D|D]]; [auto|..]; unfold Q in D; rewrite Hi, Hi', F, String.eqb_refl in D;
    destruct (mview_dec _ _) in D; try discriminate; [symmetry|]; now apply mview_meta.
Qed.
(** Everything together. *)
Definition well_formedb (ws : list raw) : bool :=
  let recs := map rec_of ws in
  if wfb recs then if groupsb ws then table_okb (encodings recs) else false else false.
Lemma well_formedb_ok ws : well_formedb ws = true -> well_formed (map rec_of ws).
Proof.
  unfold well_formedb. cbv zeta. destruct (wfb _) eqn:E1; [|discriminate]. destruct (groupsb ws) eqn:E2; [|discriminate].
  intros H. apply table_okb_ok in H as [H1 H2]. apply well_formed_check; auto. now apply groupsb_ok.
Qed.
