(** Printing a decoder: lemmas. *)
From Coq Require Import NArith List Bool String Ascii Lia ZifyBool ZifyN ZifyNat Permutation.
From Coq Require Import Hexadecimal HexadecimalString Decimal DecimalString.
From Verif Require Import M_Base M_Field M_Forms M_Meta M_Extract M_Trie M_Registry M_Builder M_DTable M_Print.
From Verif Require Import S_Trie S_Table S_Print L_Bits L_AcceptTree L_Trie L_Table L_Ids.
Import ListNotations.
Local Open Scope N_scope.
Local Open Scope string_scope.

(** ** Characters *)
Fixpoint free (c : ascii) (s : string) : bool :=
  match s with EmptyString => true | String a r => if Ascii.eqb a c then false else free c r end.
Lemma free_app c a b : free c (a ++ b) = free c a && free c b.
Proof. induction a as [|x a IH]; cbn; [auto|]. destruct (Ascii.eqb x c); auto. Qed.
Lemma free_unquoted s : unquoted s = free "'" s.
Proof. induction s as [|x a IH]; cbn; [auto|]. now rewrite IH. Qed.
Lemma after_free a r : free "]" a = true -> after_bracket (a ++ String "]" r) = Some r.
Proof. induction a as [|x a IH]; cbn; [auto|]. destruct (Ascii.eqb x "]"); [discriminate|auto]. Qed.
Lemma hex_free c n : (forall d, free c (HexadecimalString.NilEmpty.string_of_uint d) = true) -> free c "0" = true -> free c (hex n) = true.
Proof.
  intros H Z. unfold hex, HexadecimalString.NilZero.string_of_uint. destruct (N.to_hex_uint n); [exact Z|..]; apply H.
Qed.
Lemma hex_quote n : free "'" (hex n) = true.
Proof. apply hex_free; [|reflexivity]. induction d; cbn; auto. Qed.
Lemma hex_bracket n : free "]" (hex n) = true.
Proof. apply hex_free; [|reflexivity]. induction d; cbn; auto. Qed.
Lemma indent_free c k : free c "|" = true -> free c tab = true -> free c (indent k) = true.
Proof. intros A B. induction k as [|k IH]; [reflexivity|]. cbn [indent]. now rewrite !free_app, A, B, IH. Qed.
Lemma append_assoc a b c : (a ++ b) ++ c = a ++ (b ++ c).
Proof. induction a as [|x a IH]; cbn; [auto|]. now rewrite IH. Qed.

Definition label_index k i := indent k ++ "[" ++ hex i ++ "]: ".
Definition label_default k := indent k ++ "[default]: ".
Lemma index_after k i r : after_bracket (label_index k i ++ r) = Some (": " ++ r).
Proof.
  unfold label_index. rewrite !append_assoc. change ("]: " ++ r) with (String "]" (": " ++ r)).
  rewrite <- (append_assoc "["), <- (append_assoc (indent k)).
  apply after_free. now rewrite !free_app, indent_free, hex_bracket.
Qed.
Lemma default_after k r : after_bracket (label_default k ++ r) = Some (": " ++ r).
Proof.
  unfold label_default. rewrite append_assoc.
  change ("[default]: " ++ r) with ("[default" ++ String "]" (": " ++ r)).
  rewrite <- (append_assoc (indent k)). apply after_free. now rewrite !free_app, indent_free.
Qed.
Lemma index_unquoted k i : unquoted (label_index k i) = true.
Proof. rewrite free_unquoted. unfold label_index. now rewrite !free_app, indent_free, hex_quote. Qed.
Lemma default_unquoted k : unquoted (label_default k) = true.
Proof. rewrite free_unquoted. unfold label_default. now rewrite !free_app, indent_free. Qed.

Section Printed.
Context (b : builder).
Definition held (x : item) : Prop := nth_error (b_facts b) (pay_fact (snd x)) <> None.
Lemma held_fact i : nth_error (b_facts b) i <> None -> exists f, get_fact b i = Ok f /\ nth_error (b_facts b) i = Some f.
Proof. unfold get_fact. destruct (nth_error _ i); [eauto|contradiction]. Qed.

(** ** Encodings and the lines that show them *)
Definition line (x : item) (l : string) : Prop :=
  exists lead t f, unquoted lead = true /\ l = lead ++ t /\ nth_error (b_facts b) (pay_fact (snd x)) = Some f /\
  text_of (fst x) (cls_name (if has_fixed x then clone_cls (pay_cls (snd x)) else pay_cls (snd x))) (fact_text (pay_fact (snd x)) f) t.
Definition shown (E : list item) (T : list string) : Prop :=
  exists L, Permutation L (filter about_instruction T) /\ Forall2 line E L.
Lemma shown_nil : shown [] [].
Proof. exists []. split; constructor. Qed.
Lemma shown_app E E' T T' : shown E T -> shown E' T' -> shown (E ++ E') (T ++ T').
Proof.
  intros (L & P & F) (L' & P' & F'). exists (L ++ L')%list. rewrite filter_app. split; [now apply Permutation_app|now apply Forall2_app].
Qed.
Lemma shown_perm E E' T : Permutation E E' -> shown E T -> shown E' T.
Proof.
  intros PE (L & P & F). destruct (Permutation_Forall2 PE F) as (L' & PL & F'). exists L'. split; [|exact F'].
  rewrite <- PL. exact P.
Qed.
Lemma shown_one e l : about_instruction l = true -> line e l -> shown [e] [l].
Proof. intros A S. exists [l]. cbn [filter]. rewrite A. split; auto. Qed.
Lemma shown_skip E l T : about_instruction l = false -> shown E T -> shown E (l :: T).
Proof. intros A (L & P & F). exists L. cbn [filter]. rewrite A. auto. Qed.

Definition is_special : string := "IFactorySpecialCaseComposite::Field ".
Lemma print_leaf tab d X level : leaf_ok tab d X -> Forall held X ->
  exists ts, print_node b (Special tab d) level = Ok (is_special :: ts) /\ shown X ts.
Proof.
  intros (FO & LD & (X' & PX & F2) & _) H. cbn [print_node].
  set (dflt := match d with None => Ok [] | Some (mn, p) => let* t := default_line b level mn p in Ok [t] end).
  set (Y := filter (fun x => negb (has_fixed x)) X) in *.
  assert (D : exists ts, dflt = Ok ts /\ shown Y ts).
  { assert (HY : Forall held Y /\ Forall (fun x => has_fixed x = false) Y).
    { split; apply Forall_forall; intros x Hx; apply filter_In in Hx as [Hx Hf]; [rewrite Forall_forall in H; auto|now apply negb_true_iff]. }
    clearbody Y. destruct HY as [HY HZ]. subst dflt. destruct d as [[mn p]|].
    - destruct Y as [|y [|]]; try discriminate. cbn [map] in LD |- *. assert (mn = en_mn (fst y)) by congruence. assert (p = snd y) by congruence. subst mn p.
      inversion HY as [|? ? Hy _]; subst. destruct (held_fact _ Hy) as (f & Ef & En). unfold default_line. rewrite Ef. cbn [rbind].
      eexists. split; [reflexivity|]. apply shown_one.
      + change (indent (S level) ++ "[default]: '" ++ ?r) with (indent (S level) ++ "[default]: " ++ ("'" ++ r)).
        unfold about_instruction. rewrite <- (append_assoc (indent _)). fold (label_default (S level)). rewrite default_after. reflexivity.
      + inversion HZ as [|? ? Hz _]; subst. exists (label_default (S level)). eexists. exists f. split; [apply default_unquoted|].
        rewrite Hz. unfold text_of. unfold has_fixed in Hz. destruct (en_fixed (fst y)); [|discriminate].
        split; [|split; [exact En|reflexivity]].
        unfold label_default, ext_text. rewrite !append_assoc. reflexivity.
    - destruct Y; [|discriminate]. exists []. split; [reflexivity|apply shown_nil]. }
  clearbody dflt. destruct D as (td & -> & SD).
  assert (PE : Permutation (X' ++ Y) X).
  { rewrite <- PX. subst Y. clear.
    induction X as [|x X IH]; [constructor|]. cbn [filter]. destruct (has_fixed x); cbn [negb app].
    - now constructor.
    - rewrite <- Permutation_middle. now constructor. }
  assert (HX' : Forall (fun x => held x /\ has_fixed x = true /\ form_ok (en_form (fst x))) X').
  { apply Forall_forall. intros x Hx. rewrite <- PX in Hx. apply filter_In in Hx as [Hx Hf]. rewrite Forall_forall in H, FO. auto. }
  clear LD FO H PX. clearbody Y.
  set (go := fix go (i : N) (l : list sentry) : res (list string) :=
    match l with
    | [] => Ok td
    | e :: r => let* t := entry_line b level i e in let* ts := go (i + 1)%N r in Ok (t :: ts)
    end).
  assert (G : forall i, exists ts, go i tab = Ok ts /\ shown (X' ++ Y) ts).
  { clear PE. induction F2 as [|x e R tab' EI F2 IH]; intros i.
    - exists td. split; [reflexivity|exact SD].
    - inversion HX' as [|? ? (Hx & Hf & Ho) HR]; subst. destruct (IH HR (i + 1)%N) as (ts & Et & St). cbn [go]. rewrite Et.
      destruct EI as (Mn & Mk & Vl & Nf & Py). unfold entry_line. rewrite Py. cbn [pay_fact pay_cls].
      destruct (held_fact _ Hx) as (f & Ef & En). rewrite Ef. cbn [rbind].
      eexists. split; [reflexivity|]. cbn [app]. apply (shown_app [x] _ [_]); [|exact St]. apply shown_one.
      + change (indent (S level) ++ "[" ++ hex i ++ "]: '" ++ ?r) with (indent (S level) ++ "[" ++ hex i ++ "]: " ++ ("'" ++ r)).
        unfold about_instruction. rewrite <- (append_assoc (hex i)), <- (append_assoc "["), <- (append_assoc (indent _)). fold (label_index (S level) i). rewrite index_after. reflexivity.
      + unfold line. rewrite Hf. unfold text_of. unfold has_fixed in Hf. destruct (en_fixed (fst x)) as [|n fl] eqn:EF; [discriminate|].
        exists (label_index (S level) i). eexists. exists f. split; [apply index_unquoted|].
        match goal with |- ?a /\ _ => cut a; [intros HA; split; [exact HA|split; [exact En|]]|] end.
        2:{ rewrite Mn, Vl, Nf. unfold nfixed. rewrite EF. unfold label_index, ext_text. rewrite !append_assoc. reflexivity. }
        exists (se_mask e), (se_fset e). split.
        * intros j. rewrite <- EF in Mk. rewrite (fixed_mask_bits _ _ _ j Ho Mk). rewrite EF. reflexivity.
        * reflexivity. }
  destruct (G 0%N) as (ts & Et & St). rewrite Et. cbn [rbind]. exists ts. split; [reflexivity|].
  exact (shown_perm _ _ _ PE St).
Qed.

(** ** Inner nodes *)
Lemma flat_map_one {T} (i0 : N) (x : T) (g : N -> list T) is : NoDup is -> In i0 is ->
  Permutation (flat_map (fun i => if i0 =? i then x :: g i else g i)%N is) (x :: flat_map g is).
Proof.
  intros ND. induction ND as [|i is NI ND IH]; [intros []|]. cbn [flat_map In]. intros [->|I0].
  - rewrite N.eqb_refl. cbn [app]. constructor. replace (flat_map _ is) with (flat_map g is); [reflexivity|].
    clear - NI. induction is as [|j is IH]; [reflexivity|]. cbn [flat_map]. cbn [In] in NI.
    replace (i0 =? j)%N with false by lia. f_equal. apply IH. tauto.
  - replace (i0 =? i)%N with false by (symmetry; apply N.eqb_neq; intros ->; contradiction).
    rewrite (IH I0). now rewrite <- Permutation_middle.
Qed.
Lemma nseq_nodup from len : NoDup (nseq from len).
Proof.
  revert from. induction len as [|k IH]; intros from; cbn [nseq]; constructor; auto. rewrite nseq_In. lia.
Qed.
Definition good (t : titem) : Prop := Forall (fun p => fok (fst p)) (fst t).
Lemma children f E : Forall (fun t => exists g b r, fst t = (g, b) :: r /\ f_equiv f g = true) E -> Forall good E ->
  Permutation (map snd E) (map snd (flat_map (fun i => sub i E) (nseq 0 (N.to_nat (f_size f))) ++ subd E)).
Proof.
  induction E as [|[p x] E IH]; intros F G.
  - cbn [sub subd map]. induction (nseq _ _); [constructor|auto].
  - inversion F as [|? ? (g & bb & r & Hp & Q) F']; inversion G as [|? ? G1 G']; subst. cbn [fst] in Hp. subst p.
    specialize (IH F' G'). destruct bb; cbn [sub subd map snd].
    + rewrite map_app. cbn [map snd]. rewrite <- Permutation_middle. constructor. rewrite IH, map_app. reflexivity.
    + set (i0 := f_extract g (en_stencil (fst x))).
      assert (B : In i0 (nseq 0 (N.to_nat (f_size f)))).
      { apply nseq_In. inversion G1 as [|? ? K _]; subst. cbn [fst] in K. pose proof (f_extract_lt g (en_stencil (fst x)) K) as L.
        fold i0 in L. unfold f_size. rewrite N.shiftl_1_l. unfold f_equiv in Q. apply andb_true_iff in Q as [Q1 Q2].
        apply N.eqb_eq in Q1, Q2. replace (f_len f) with (f_len g) by congruence. lia. }
      rewrite IH. rewrite !map_app.
      replace (flat_map (fun i => if (i0 =? i)%N then (r, x) :: sub i E else sub i E) (nseq 0 (N.to_nat (f_size f))))
        with (flat_map (fun i => if (i0 =? i)%N then (r, x) :: (fun i => sub i E) i else (fun i => sub i E) i) (nseq 0 (N.to_nat (f_size f)))) by reflexivity.
      rewrite (flat_map_one i0 (r, x) (fun i => sub i E) _ (nseq_nodup _ _) B). reflexivity.
Qed.
Lemma good_sub i E : Forall good E -> Forall good (sub i E).
Proof.
  intros G. rewrite Forall_forall in *. intros [r x] H. apply sub_in in H as (f & H & _). specialize (G _ H). unfold good in *. cbn [fst] in *. now inversion G.
Qed.
Lemma good_subd E : Forall good E -> Forall good (subd E).
Proof.
  intros G. rewrite Forall_forall in *. intros [r x] H. apply subd_in in H as (f & H). specialize (G _ H). unfold good in *. cbn [fst] in *. now inversion G.
Qed.
Lemma held_sub i E : Forall (fun t => held (snd t)) E -> Forall (fun t => held (snd t)) (sub i E).
Proof. intros G. rewrite Forall_forall in *. intros [r x] H. apply sub_in in H as (f & H & _). exact (G _ H). Qed.
Lemma held_subd E : Forall (fun t => held (snd t)) E -> Forall (fun t => held (snd t)) (subd E).
Proof. intros G. rewrite Forall_forall in *. intros [r x] H. apply subd_in in H as (f & H). exact (G _ H). Qed.

Definition encs (E : list titem) : list item := map snd E.
(** A child under its label. *)
Lemma shown_labelled lead h E ts : (forall r, after_bracket (lead ++ r) = Some (": " ++ r)) -> begins "I" h = true ->
  shown E ts -> shown E (labelled lead (h :: ts)).
Proof.
  intros A B S. cbn [labelled]. apply shown_skip; [|exact S]. unfold about_instruction. rewrite A.
  destruct h as [|a h]; [discriminate|]. cbn [begins] in B. destruct (Ascii.eqb "I" a) eqn:Q; [|discriminate].
  apply Ascii.eqb_eq in Q. subst a. reflexivity.
Qed.
Lemma print_repr n E : repr n E -> Forall good E -> Forall (fun t => held (snd t)) E -> forall level,
  exists h ts, print_node b n level = Ok (h :: ts) /\ begins "I" h = true /\ shown (encs E) ts.
Proof.
  induction 1 as [f tab d E F H1 H2 IH2 H3 H4 IH4|tab d E F L]; intros G HE level.
  - cbn [print_node].
    set (dflt := match d with None => Ok [] | Some dn => _ end).
    assert (D : exists ts, dflt = Ok ts /\ shown (encs (subd E)) ts).
    { subst dflt. destruct d as [c|].
      - destruct (IH4 c eq_refl (good_subd _ G) (held_subd _ HE) (S level)) as (h & ts & -> & B & Q). cbn [rbind].
        eexists. split; [reflexivity|]. apply shown_labelled; [intros r; apply default_after|auto|auto].
      - exists []. rewrite (H3 eq_refl). split; [reflexivity|apply shown_nil]. }
    clearbody dflt. destruct D as (td & -> & SD).
    set (go := fix go (l : list N) : res (list string) := match l with [] => Ok td | i :: r => _ end).
    assert (GO : forall is, exists ts, go is = Ok ts /\ shown (encs (flat_map (fun i => sub i E) is ++ subd E)) ts).
    { induction is as [|i is (us & IH & SU)]; [exists td; split; [reflexivity|exact SD]|].
      cbn [go]. rewrite IH. cbn [flat_map].
      assert (C : exists ts, match tab i with
                | None => Ok []
                | Some c => let* ts := print_node b c (S level) in Ok (labelled (label_index (S level) i) ts)
                end = Ok ts /\ shown (encs (sub i E)) ts).
      { destruct (tab i) as [c|] eqn:Et.
        - destruct (IH2 i c Et (good_sub _ _ G) (held_sub _ _ HE) (S level)) as (h & ts & -> & B & Q). cbn [rbind].
          eexists. split; [reflexivity|]. apply shown_labelled; [intros r; apply index_after|auto|auto].
        - exists []. rewrite (H1 i Et). split; [reflexivity|apply shown_nil]. }
      destruct C as (ts & Ec & Sc). unfold label_index in Ec. rewrite Ec. cbn [rbind].
      eexists. split; [reflexivity|]. unfold encs. rewrite <- app_assoc, map_app. apply shown_app; [exact Sc|exact SU]. }
    destruct (GO (nseq 0 (N.to_nat (f_size f)))) as (ts & -> & ST). cbn [rbind].
    eexists _, ts. split; [reflexivity|]. split; [reflexivity|].
    refine (shown_perm _ _ _ _ ST). unfold encs. symmetry. now apply children.
  - destruct (print_leaf tab d (map snd E) level L) as (ts & Ep & Sp).
    { apply Forall_forall. intros x Hx. apply in_map_iff in Hx as (t & <- & Ht). rewrite Forall_forall in HE. auto. }
    exists is_special, ts. split; [exact Ep|]. split; [reflexivity|]. exact Sp.
Qed.

(** ** The whole tree *)
Lemma classes (X : list item) :
  Permutation X (flat_map (fun c => cls c X) (nseq 0 6)).
Proof.
  induction X as [|x X IH]; [constructor|]. set (c0 := length_class (en_stencil (fst x))).
  transitivity (flat_map (fun c => if (c0 =? c)%N then x :: (fun c => cls c X) c else (fun c => cls c X) c) (nseq 0 6)); [|reflexivity].
  rewrite (flat_map_one c0 x (fun c => cls c X) (nseq 0 6) (nseq_nodup _ _)); [now constructor|].
  apply nseq_In. pose proof (length_class_lt (en_stencil (fst x))). fold c0 in H. lia.
Qed.
Lemma good_ti x : form_ok (en_form (fst x)) -> good (ti x).
Proof.
  intros F. unfold good, ti, tpath. cbn [fst]. apply form_ok_oc in F. unfold mkpath. rewrite Forall_map. cbn [fst]. exact F.
Qed.
Lemma print_tree_ok t X : tree_ok t X -> Forall held X -> exists ts, print_tree (b, t) = Ok ts /\ shown X ts.
Proof.
  intros [F H] HX. unfold print_tree. cbn [fst snd].
  set (go := fix go (l : list N) : res (list string) := match l with [] => Ok [] | i :: r => _ end).
  assert (GO : forall is, exists ts, go is = Ok ts /\ shown (flat_map (fun c => cls c X) is) ts).
  { induction is as [|i is (us & IH & SU)]; [exists []; split; [reflexivity|apply shown_nil]|].
    cbn [go]. rewrite IH. cbn [flat_map].
    assert (C : exists ts, match t i with
              | None => Ok []
              | Some c => let* ts := print_node b c 1 in Ok (labelled (label_index 1 i) ts)
              end = Ok ts /\ shown (cls i X) ts).
    { destruct (H i) as [H1 H2]. destruct (t i) as [c|].
      - destruct (print_repr c _ (H2 _ eq_refl)) with (level := 1%nat) as (h & ts & -> & B & Q).
        + rewrite Forall_map. apply Forall_forall. intros x Hx. apply filter_In in Hx as [Hx _]. rewrite Forall_forall in F. apply good_ti; auto.
        + rewrite Forall_map. apply Forall_forall. intros x Hx. apply filter_In in Hx as [Hx _]. rewrite Forall_forall in HX. apply HX; auto.
        + cbn [rbind]. eexists. split; [reflexivity|]. apply shown_labelled; [intros r; apply index_after|auto|].
          unfold encs in Q. rewrite map_map in Q. cbn [ti snd] in Q. rewrite map_id in Q. exact Q.
      - exists []. rewrite (H1 eq_refl). split; [reflexivity|apply shown_nil]. }
    destruct C as (ts & Ec & Sc). unfold label_index in Ec. rewrite Ec. cbn [rbind].
    eexists. split; [reflexivity|]. apply shown_app; auto. }
  destruct (GO (nseq 0 6)) as (ts & E & ST). change (List.length root_matchers) with 6%nat. rewrite E. cbn [rbind].
  eexists. split; [reflexivity|]. apply shown_skip; [reflexivity|]. exact (shown_perm _ _ _ (Permutation_sym (classes X)) ST).
Qed.
End Printed.

(** ** The two factories that come first *)
Definition head_names (b : builder) : Prop :=
  exists f g, nth_error (b_facts b) 0 = Some f /\ nth_error (b_facts b) 1 = Some g /\ fc_name f = "nop" /\ fc_name g = "cmov".
Lemma head_le b b' : b_le b b' -> head_names b -> head_names b'.
Proof.
  intros L (f & g & H1 & H2 & N1 & N2). destruct (bl_facts _ _ L _ _ H1) as (f' & F1 & L1). destruct (bl_facts _ _ L _ _ H2) as (g' & F2 & L2).
  exists f', g'. rewrite (fl_name _ _ L1), (fl_name _ _ L2). auto.
Qed.
Lemma head_configured incl excl recs s s' : head_names (fst s) -> configure incl excl recs s = Ok s' -> head_names (fst s').
Proof.
  intros H C. destruct (configure_keep (fun _ b => head_names b)) with (P := @nil irec) (incl := incl) (excl := excl) (recs := recs) (s := s) (s' := s') as (P & Q & _); auto.
  - clear. intros _ b r mn st m b' i _ H E. destruct (string_dec (r_expand r) "") as [X|X].
    + rewrite X in E. apply bld_normal_inv in E. exact (head_le _ _ (bn_le _ _ _ _ _ _ _ E) H).
    + apply bld_expand_inv in E; [|exact X]. exact (head_le _ _ (bx_le _ _ _ _ _ _ E) H).
  - clear. intros _ b r mn o x b' _ _ H E. apply build_overlay_inv in E. exact (head_le _ _ (bo_le _ _ _ _ _ _ E) H).
Qed.
Lemma custom_facts b mn types b' : add_custom b mn types = Ok b' -> exists f, b_facts b' = (b_facts b ++ [f])%list /\ fc_name f = mn.
Proof.
  intros H. unfold add_custom, new_fact in H. cbn beta iota zeta in H.
  set (f0 := fact_add_anno mn _ (fact_new mn 0 _)) in H. set (i := List.length (b_facts b)) in H.
  set (b2 := set_reg _ _) in H.
  destruct (register_inst b2 mn) as [[b3 uid]| | |] eqn:ER; cbn [rbind] in H; try discriminate.
  apply register_inst_inv in ER as (_ & _ & F3 & _). apply upd_fact_inv in H as (f & Hf & ->).
  unfold b2 in F3. cbn [b_facts set_reg set_facts] in F3. rewrite F3 in Hf. unfold i in Hf. rewrite nth_app_last in Hf.
  assert (f = f0) as -> by exact (f_equal (fun o => match o with Some g => g | None => f end) (eq_sym Hf)).
  exists (fact_add_uid mn uid f0). split; [|reflexivity]. cbn [b_facts set_facts]. rewrite F3. unfold i. clear.
  induction (b_facts b) as [|g l IH]; [reflexivity|]. cbn [app List.length set_nth]. exact (f_equal (cons g) IH).
Qed.
Lemma head_new uids annos nu b : builder_new uids annos nu = Ok b -> head_names b.
Proof.
  unfold builder_new. destruct (ir_new uids nu) as [[nu1 ir]| | |]; cbn [rbind]; try discriminate.
  set (b0 := mkB _ _ _ _ _ _ _). destruct (add_custom b0 "nop" _) as [b1| | |] eqn:E1; cbn [rbind]; try discriminate.
  intros E2. apply custom_facts in E1 as (f & E1 & N1), E2 as (g & E2 & N2). exists f, g. rewrite E2, E1. auto.
Qed.

(** ** The claims *)
Lemma asked_name r c n : rec_class r = Ok c -> asked r = Some n -> ~ In n misnamed -> cls_name c = n /\ cls_name (clone_cls c) = n.
Proof.
  assert (G : forall n c, get_extractor n = Ok c -> ~ In n misnamed -> cls_name c = n /\ cls_name (clone_cls c) = n).
  { clear. intros n c. unfold get_extractor. destruct (find _ ext_registry) as [[m c']|] eqn:E; [|discriminate].
    intros H NI. assert (c' = c) as -> by congruence. apply find_some in E as [E Q]. apply String.eqb_eq in Q. cbn [fst] in Q. subst m.
    assert (A : forallb (fun p => (if in_dec string_dec (fst p) misnamed then true else false) ||
       (String.eqb (cls_name (snd p)) (fst p) && String.eqb (cls_name (clone_cls (snd p))) (fst p))) ext_registry = true) by (vm_compute; reflexivity).
    rewrite forallb_forall in A. specialize (A _ E). cbn [fst snd] in A. destruct (in_dec string_dec n misnamed); [contradiction|].
    cbn [orb] in A. apply andb_true_iff in A as [A1 A2]. apply String.eqb_eq in A1, A2. auto. }
  unfold rec_class, asked. destruct (r_xform r) as [m|]; [intros H [= <-]; now apply G|].
  destruct (r_form r) as [m|]; [|discriminate]. unfold get_form. destruct (find _ form_registry) as [fm|] eqn:E; [|discriminate].
  apply find_some in E as [_ E]. apply String.eqb_eq in E. intros H [= <-]. rewrite E in H. now apply G.
Qed.
Lemma lists_lemma uids annos nu incl excl recs s :
  make_decoder uids annos nu incl excl recs = Ok s -> separated (encodings (kept incl excl recs)) ->
  exists text L, print_tree s = Ok text /\ Permutation L (filter about_instruction text) /\
  Forall2 (fun e l => exists r, In r (kept incl excl recs) /\ In e (rec_encs r) /\ shows (kept incl excl recs) r e l)
    (encodings (kept incl excl recs)) L.
Proof.
  unfold make_decoder. intros H S. destruct (builder_new uids annos nu) as [b0| | |] eqn:E; cbn [rbind] in H; try discriminate.
  destruct s as [b t]. destruct (configured _ _ _ _ _ _ _ _ _ E H S) as (X & P & T & M & I & F & R).
  pose proof (head_configured _ _ _ _ _ (head_new _ _ _ _ E : head_names (fst (b0, tree_new))) H) as HN. cbn [fst] in HN.
  assert (HX : Forall (held b) X).
  { eapply Forall_impl; [|exact F]. intros x (r & _ & _ & _ & _ & _ & f & m & RG & _). unfold held. rewrite RG. discriminate. }
  destruct (print_tree_ok b t X T HX) as (ts & ET & L & PL & FL).
  exists ts, L. split; [exact ET|]. split; [exact PL|]. rewrite <- M. clear M H S E T HX PL ET.
  induction FL as [|x l X L HL FL IH]; [constructor|]. inversion F as [|? ? Fx FX]; subst. cbn [map]. constructor; [|exact (IH FX)].
  destruct Fx as (r & IP & II & IE & HC & _ & f & m & RG & _ & _ & _ & _ & RN & _). exists r. apply R in IP as IK. destruct IK as [IK _].
  split; [exact IK|]. split; [exact IE|]. destruct HL as (lead & tx & f' & UL & -> & Nf & TX). assert (f' = f) as -> by congruence.
  exists lead, (cls_name (if has_fixed x then clone_cls (pay_cls (snd x)) else pay_cls (snd x))), (fact_text (pay_fact (snd x)) f), tx.
  split; [exact UL|]. split; [reflexivity|]. split; [exact TX|]. split.
  - intros n An Nn. destruct (asked_name _ _ _ HC An Nn). destruct (has_fixed x); auto.
  - intros SO XP. destruct (RN XP) as (_ & _ & SN & _). destruct SN as (N1 & _ & N3).
    { destruct SO as (SC & S1 & S2). split; [exact SC|]. split; intros r0 I0; apply R in I0 as [I0 _]; auto. }
    destruct HN as (f0 & f1 & H0 & H1 & NN0 & NN1). destruct SO as [SC _]. unfold fact_text.
    destruct (pay_fact (snd x)) as [|[|k]]; [exfalso..|].
    + apply SC. left. congruence.
    + apply SC. right. congruence.
    + now rewrite N1, N3.
Qed.
