(** Meta-data: type queries and operand typings. *)
From Coq Require Import NArith List Bool Lia ZifyBool ZifyN String.
From Verif Require Import M_Base M_Meta S_Bits S_Meta S_Agree L_Bits L_OperandInfo L_Slots.
Import ListNotations.
Local Open Scope N_scope.

Lemma land_sub q t : N.land q t = q <-> all_in q t.
Proof.
  unfold all_in, has. split.
  - intros E i H. rewrite <- E, N.land_spec in H. now apply andb_true_iff in H.
  - intros H. apply N.bits_inj. intros i. rewrite N.land_spec.
    destruct (N.testbit q i) eqn:E; [now rewrite H|reflexivity].
Qed.
Lemma C30_is m t : is_inst_type m t = true <-> all_in t (mt_types m).
Proof. unfold is_inst_type. rewrite N.eqb_eq. apply land_sub. Qed.
Lemma C30_any m l : is_inst_type_any m l = true <-> exists t, In t l /\ all_in t (mt_types m).
Proof.
  unfold is_inst_type_any. rewrite existsb_exists. split; intros (t & I & H); exists t; split; auto; now apply C30_is.
Qed.
Lemma C30_all m l : is_inst_type_all m l = true <-> forall t, In t l -> all_in t (mt_types m).
Proof. unfold is_inst_type_all. rewrite forallb_forall. split; intros H t I; apply C30_is; auto. Qed.
Lemma land_same q a b : N.land q a = N.land q b <-> same_on q a b.
Proof.
  unfold same_on, has. split.
  - intros E i H. apply (f_equal (fun x => N.testbit x i)) in E. rewrite !N.land_spec, H in E. exact E.
  - intros H. apply N.bits_inj. intros i. rewrite !N.land_spec. destruct (N.testbit q i) eqn:E; [now rewrite H|reflexivity].
Qed.
Lemma C30_same m other l : is_inst_type_same m other l = true <->
  (l = [] -> mt_types m = other) /\ (forall t, In t l -> same_on t (mt_types m) other).
Proof.
  unfold is_inst_type_same. destruct l as [|a l].
  - rewrite N.eqb_eq. split; [|firstorder]. intros ->. split; [auto|]. intros t [].
  - rewrite forallb_forall. split.
    + intros H. split; [discriminate|]. intros t I. apply land_same, N.eqb_eq, H, I.
    + intros [_ H] t I. apply N.eqb_eq, land_same, H, I.
Qed.
Lemma isa_bits l : forall a i, N.testbit (fold_left N.lor l a) i = true <-> has a i \/ exists t, In t l /\ has t i.
Proof.
  induction l as [|t l IH]; intros a i; cbn [fold_left].
  - unfold has. firstorder.
  - rewrite IH. unfold has at 1. rewrite N.lor_spec, orb_true_iff. cbn [In]. unfold has. firstorder; subst; auto; right; eauto.
Qed.
Lemma isa_to_bits_spec l i : has (isa_to_bits l) i <-> exists t, In t l /\ has t i.
Proof. unfold has at 1, isa_to_bits. rewrite isa_bits. unfold has at 1. rewrite N.bits_0. intuition discriminate. Qed.
Lemma C30_isa m t : is_isa m t = true <-> all_in t (mt_isa m).
Proof. unfold is_isa. rewrite N.eqb_eq, N.land_comm. apply land_sub. Qed.
Lemma C30_isa_any m l : is_isa_any m l = true <-> exists t i, In t l /\ has t i /\ has (mt_isa m) i.
Proof.
  unfold is_isa_any. rewrite negb_true_iff, N.eqb_neq. split.
  - intros H. assert (exists i, has (N.land (isa_to_bits l) (mt_isa m)) i) as [i Hi].
    { exists (N.log2 (N.land (isa_to_bits l) (mt_isa m))). now apply N.bit_log2. }
    unfold has in Hi. rewrite N.land_spec, andb_true_iff in Hi. destruct Hi as [A B].
    apply isa_to_bits_spec in A as (t & I & T). eauto.
  - intros (t & i & I & T & M) E. assert (has (N.land (isa_to_bits l) (mt_isa m)) i) as H.
    { unfold has. rewrite N.land_spec, andb_true_iff. split; auto. apply isa_to_bits_spec. eauto. }
    rewrite E in H. unfold has in H. now rewrite N.bits_0 in H.
Qed.
Lemma C30_isa_all m l : is_isa_all m l = true <-> forall t, In t l -> all_in t (mt_isa m).
Proof.
  unfold is_isa_all. rewrite N.eqb_eq, land_sub. split.
  - intros H t I i T. apply H, isa_to_bits_spec. eauto.
  - intros H i T. apply isa_to_bits_spec in T as (t & I & T). eapply H; eauto.
Qed.
Lemma C30_isa_same m other l : is_isa_same m other l = true ->
  (forall t, In t l -> same_on t (mt_isa m) other).
Proof.
  unfold is_isa_same. destruct (isa_to_bits l =? 0) eqn:Z.
  - intros E t I i T. apply N.eqb_eq in E. now rewrite E.
  - rewrite N.eqb_eq. intros E t I i T.
    assert (has (isa_to_bits l) i) as B by (apply isa_to_bits_spec; eauto).
    unfold has in B. rewrite <- E, !N.land_spec, !andb_true_iff in B. destruct B as [[A B] _]. now rewrite A, B.
Qed.
Lemma isa_same_refuted : exists m other l,
  (forall t, In t l -> same_on t (mt_isa m) other) /\ l <> [] /\ is_isa_same m other l = false.
Proof.
  exists (meta_init false []), 0, [N.shiftl 1 0]. split; [|split]; try discriminate; try reflexivity.
  intros t _ i _. reflexivity.
Qed.
Lemma C30_merge m o i : has (mt_types (meta_merge m o)) i <-> has (mt_types m) i \/ has (mt_types o) i.
Proof. unfold has. cbn. rewrite N.lor_spec, orb_true_iff. tauto. Qed.
Lemma C30_set m l i : has (mt_types (set_inst_type l m)) i <-> has (mt_types m) i \/ exists t, In t l /\ has t i.
Proof. unfold set_inst_type, has at 1. cbn. apply isa_bits. Qed.

(** Types named in the record. *)
Lemma add_types_spec ts : forall a t, add_types ts a = Ok t ->
  forall i, has t i <-> has a i \/ exists n b, In n ts /\ itype_of n = Some b /\ has b i.
Proof.
  induction ts as [|n ts IH]; intros a t H i; cbn in H.
  - injection H as <-. split; [auto|]. intros [H|(n & b & [] & _)]. exact H.
  - destruct (itype_of n) as [b|] eqn:E; [|discriminate H]. rewrite (IH _ _ H i). unfold has at 1.
    rewrite N.lor_spec, orb_true_iff. cbn [In]. split.
    + intros [[A|A]|(n' & b' & I & F & A)]; eauto 8.
    + intros [A|(n' & b' & [<-|I] & F & A)]; eauto 8. rewrite E in F. injection F as <-. auto.
Qed.
Lemma add_types_err ts : forall a, (exists n, In n ts /\ itype_of n = None) <-> add_types ts a = Throw EBuildErrorUnknownType.
Proof.
  induction ts as [|n ts IH]; intros a; cbn.
  - split; [intros (n & [] & _)|discriminate].
  - destruct (itype_of n) as [b|] eqn:E.
    + rewrite <- IH. split; [intros (x & [->|I] & F); [congruence|eauto]|intros (x & I & F); eauto].
    + split; eauto.
Qed.

(** ** Typings *)
Definition typed_sub (P : kind -> Prop) (m : meta) : Prop :=
  typing_ok m /\ forall f k, mt_otype m f = Some k -> P k.
Lemma meta_field_set_bit l s : meta_field_set l = Ok s ->
  forall f, N.testbit s (fid_idx f) = true <-> exists n, In n l /\ get_fid n = Some f.
Proof.
  revert s. induction l as [|n l IH]; intros s H f; cbn [meta_field_set] in H.
  - injection H as <-. rewrite N.bits_0. split; [discriminate|intros (n & [] & _)].
  - destruct (get_fid n) as [g|] eqn:E; [|discriminate H]. destruct (meta_field_set l) as [s'| | |]; try discriminate H.
    cbn [rbind] in H. assert (s = N.lor (N.shiftl 1 (fid_idx g)) s') as -> by congruence. clear H. rewrite N.lor_spec, orb_true_iff, (IH s' eq_refl f).
    rewrite N.shiftl_1_l, N.pow2_bits_eqb. cbn [In]. split.
    + intros [A|(x & I & F)]; [|eauto]. apply fid_eqb_eq in A. subst. eauto.
    + intros (x & [<-|I] & F); [left|eauto]. rewrite F in E. injection E as ->. apply N.eqb_refl.
Qed.
Lemma ones_bit f : N.testbit (N.ones 32) (fid_idx f) = true.
Proof. now destruct f. Qed.
Lemma listed_in l f : existsb (fun n => ofid_eqb (get_fid n) (Some f)) l = true <-> exists n, In n l /\ get_fid n = Some f.
Proof. rewrite existsb_exists. split; intros (n & I & E); exists n; split; auto; now apply ofid_eqb_eq. Qed.
(** One clause: the set becomes the clause's fields; the types of the listed fields change. *)
Lemma parse_oper_spec c k m m' : parse_oper c k m = Ok m' ->
  (forall k' , k' <> k -> mt_fset m' k' = mt_fset m k') /\
  (forall f, clause_lists c f -> mt_otype m' f = Some k /\ N.testbit (mt_fset m' k) (fid_idx f) = true) /\
  (forall f, ~ clause_lists c f -> mt_otype m' f = mt_otype m f) /\
  (forall f, c <> None -> N.testbit (mt_fset m' k) (fid_idx f) = true -> clause_lists c f) /\
  (c = None -> m' = m).
Proof.
  destruct c as [[|l]|]; cbn [parse_oper clause_lists]; intros H.
  - injection H as <-. cbn. rewrite kind_eqb_refl. repeat split; auto; try (intros; now apply ones_bit); try congruence; try tauto.
    intros k' N. destruct (kind_eqb k' k) eqn:E; auto. now apply kind_eqb_eq in E.
  - unfold set_operands in H. destruct (meta_field_set l) as [s| | |] eqn:E; try discriminate H. cbn in H. injection H as <-.
    cbn. rewrite kind_eqb_refl. split; [|split; [|split; [|split]]].
    + intros k' N. destruct (kind_eqb k' k) eqn:F; auto. now apply kind_eqb_eq in F.
    + intros f L. split; [|now apply (meta_field_set_bit _ _ E)]. apply listed_in in L. now rewrite L.
    + intros f L. destruct (existsb _ l) eqn:F; auto. apply listed_in in F. contradiction.
    + intros f _. apply (meta_field_set_bit _ _ E).
    + discriminate.
  - injection H as <-. repeat split; auto; tauto.
Qed.
Lemma parse_oper_typed (P : kind -> Prop) c k m m' : ~ P k -> typed_sub P m -> parse_oper c k m = Ok m' ->
  typed_sub (fun x => P x \/ x = k) m'.
Proof.
  intros N [T S] H. apply parse_oper_spec in H as (A & B & C & _ & D). destruct c as [c|].
  2:{ rewrite D by auto. split; auto. intros f x E. left. eapply S; eauto. }
  assert (L : forall f, clause_lists (Some c) f \/ ~ clause_lists (Some c) f).
  { intros f. destruct c as [|l]; cbn [clause_lists]; [auto|].
    destruct (existsb (fun n => ofid_eqb (get_fid n) (Some f)) l) eqn:F.
    - left. now apply listed_in.
    - right. intros X. apply listed_in in X. congruence. }
  split.
  - intros f x E. destruct (L f) as [Y|Y].
    + destruct (B f Y) as [O F]. rewrite O in E. injection E as <-. exact F.
    + rewrite (C f Y) in E. assert (x <> k) as NE by (intros ->; apply N; eapply S; eauto).
      rewrite A by auto. now apply T.
  - intros f x E. destruct (L f) as [Y|Y].
    + destruct (B f Y) as [O F]. rewrite O in E. injection E as <-. auto.
    + rewrite (C f Y) in E. left. eapply S; eauto.
Qed.
Ltac rbinds H := repeat match type of H with
  | (let* _ := ?e in _) = Ok _ => let E := fresh "E" in destruct e eqn:E; cbn [rbind] in H; try discriminate H
  end.
Lemma typed_weaken (P Q : kind -> Prop) m : (forall k, P k -> Q k) -> typed_sub P m -> typed_sub Q m.
Proof. intros H [T S]. split; auto. intros f k E. eapply H, S, E. Qed.
Lemma parse_opers_typed j m m' : typed_sub (fun _ => False) m -> parse_opers j m = Ok m' -> typing_ok m'.
Proof.
  intros T H. unfold parse_opers in H. rbinds H.
  eapply parse_oper_typed in E; [ | |exact T]; [|tauto].
  eapply parse_oper_typed in E0; [ | |exact E]; [|intros X; intuition discriminate].
  eapply parse_oper_typed in E1; [ | |exact E0]; [|intros X; intuition discriminate].
  eapply parse_oper_typed in E2; [ | |exact E1]; [|intros X; intuition discriminate].
  eapply parse_oper_typed in E3; [ | |exact E2]; [|intros X; intuition discriminate].
  eapply parse_oper_typed in H; [ | |exact E3]; [|intros X; intuition discriminate]. apply H.
Qed.
(** The other clauses do not touch the typing. *)
Definition same_typing (m m' : meta) : Prop := mt_fset m' = mt_fset m /\ mt_otype m' = mt_otype m.
Lemma same_typing_ok m m' : same_typing m m' -> typing_ok m -> typing_ok m'.
Proof. intros [A B] T f k. rewrite A, B. apply T. Qed.
Lemma parse_type_typing j m m' : parse_type j m = Ok m' -> same_typing m m'.
Proof. destruct j; cbn; intros H; [rbinds H|]; injection H as <-; split; reflexivity. Qed.
Lemma parse_data_typing j m m' : parse_data j m = Ok m' -> same_typing m m'.
Proof. destruct j; cbn; intros H; [destruct (data_size_bad n); [discriminate H|]|]; injection H as <-; split; reflexivity. Qed.
Lemma set_isa_width_typing i w m m' : set_isa_width i w m = Ok m' -> same_typing m m'.
Proof. unfold set_isa_width. intros H. rbinds H. injection H as <-. split; reflexivity. Qed.
Lemma parse_isa_typing l : forall m m', parse_isa l m = Ok m' -> same_typing m m'.
Proof.
  induction l as [|[w s] l IH]; intros m m' H; cbn [parse_isa] in H.
  - injection H as <-. split; reflexivity.
  - destruct (find _ isamap) as [[x i]|]; [|discriminate H]. rbinds H. apply IH in H as [A B]. 
    assert (same_typing m a) as [C D].
    { destruct w as [w|]; [|injection E as <-; split; reflexivity].
      destruct ((w =? 0) || _); [discriminate E|]. apply set_isa_width_typing in E as [C D]. split; auto. }
    split; congruence.
Qed.
Lemma make_meta_typing j c t m : make_meta j c t = Ok m -> typing_ok m.
Proof.
  unfold make_meta. intros H. rbinds H. apply parse_isa_typing in H. apply (same_typing_ok _ _ H).
  eapply parse_opers_typed; [|exact E1]. apply parse_type_typing in E as [A B]. apply parse_data_typing in E0 as [C D].
  split; intros f k; rewrite D, B; discriminate.
Qed.
Lemma merge_typing m o : typing_ok m -> typing_ok (meta_merge m o). Proof. exact (fun H => H). Qed.
Lemma overrides_typing j t m m' : meta_overrides j t m = Ok m' -> typing_ok m -> typing_ok m'.
Proof.
  unfold meta_overrides. intros H T. rbinds H. injection H as <-.
  apply parse_type_typing in E as [A B]. apply parse_data_typing in E0 as [C D].
  intros f k. cbn. rewrite C, D, A, B. apply T.
Qed.
Lemma rv_typing : typing_ok meta_rv64i /\ typing_ok meta_rv32i.
Proof. split; intros f k H; cbn in H; injection H as <-; apply ones_bit. Qed.
Lemma fixed_typing l m : typing_ok m -> typing_ok (add_fixed_fields l m). Proof. exact (fun H => H). Qed.

(** What the record says is what is stored, if each field has one type. *)
Lemma parse_opers_sets j m m' : parse_opers j m = Ok m' -> (forall k, mt_fset m k = 0) ->
  forall k f, N.testbit (mt_fset m' k) (fid_idx f) = true <-> clause_lists (j k) f.
Proof.
  intros H Z. unfold parse_opers in H. rbinds H.
  pose proof (parse_oper_spec _ _ _ _ E) as (A1 & B1 & C1 & D1 & F1).
  pose proof (parse_oper_spec _ _ _ _ E0) as (A2 & B2 & C2 & D2 & F2).
  pose proof (parse_oper_spec _ _ _ _ E1) as (A3 & B3 & C3 & D3 & F3).
  pose proof (parse_oper_spec _ _ _ _ E2) as (A4 & B4 & C4 & D4 & F4).
  pose proof (parse_oper_spec _ _ _ _ E3) as (A5 & B5 & C5 & D5 & F5).
  pose proof (parse_oper_spec _ _ _ _ H) as (A6 & B6 & C6 & D6 & F6).
  assert (ST : forall k m1 m2, parse_oper (j k) k m1 = Ok m2 -> mt_fset m1 k = 0 -> forall f,
    N.testbit (mt_fset m2 k) (fid_idx f) = true <-> clause_lists (j k) f).
  { intros k m1 m2 P Q f. apply parse_oper_spec in P as (_ & B & _ & D & F).
    split; [|intros L; now apply B]. intros T. destruct (j k) eqn:J; [now apply D|].
    rewrite F in T by auto. rewrite Q, N.bits_0 in T. discriminate T. }
  intros k f. destruct k.
  - rewrite A6, A5, A4, A3, A2 by discriminate. eapply ST; eauto.
  - rewrite A6, A5, A4, A3 by discriminate. eapply ST; eauto. rewrite A1 by discriminate; auto.
  - rewrite A6, A5, A4 by discriminate. eapply ST; eauto. rewrite A2, A1 by discriminate; auto.
  - rewrite A6, A5 by discriminate. eapply ST; eauto. rewrite A3, A2, A1 by discriminate; auto.
  - rewrite A6 by discriminate. eapply ST; eauto. rewrite A4, A3, A2, A1 by discriminate; auto.
  - eapply ST; eauto. rewrite A5, A4, A3, A2, A1 by discriminate; auto.
Qed.
Lemma parse_opers_types j m m' : parse_opers j m = Ok m' -> (forall f, mt_otype m f = None) -> one_type j ->
  forall k f, mt_otype m' f = Some k <-> clause_lists (j k) f.
Proof.
  intros H Z OT k f. unfold parse_opers in H. rbinds H.
  pose proof (parse_oper_spec _ _ _ _ E) as (A1 & B1 & C1 & D1 & F1).
  pose proof (parse_oper_spec _ _ _ _ E0) as (A2 & B2 & C2 & D2 & F2).
  pose proof (parse_oper_spec _ _ _ _ E1) as (A3 & B3 & C3 & D3 & F3).
  pose proof (parse_oper_spec _ _ _ _ E2) as (A4 & B4 & C4 & D4 & F4).
  pose proof (parse_oper_spec _ _ _ _ E3) as (A5 & B5 & C5 & D5 & F5).
  pose proof (parse_oper_spec _ _ _ _ H) as (A6 & B6 & C6 & D6 & F6).
  assert (L : forall c, clause_lists c f \/ ~ clause_lists c f).
  { intros [[|l]|]; cbn; auto. destruct (existsb (fun n => ofid_eqb (get_fid n) (Some f)) l) eqn:F.
    - left. now apply listed_in.
    - right. intros X. apply listed_in in X. congruence. }
  assert (U : forall k', clause_lists (j k') f -> mt_otype m' f = Some k' ->
    (mt_otype m' f = Some k <-> clause_lists (j k) f)).
  { intros k' Q R. rewrite R. split; [intros [= <-]; exact Q|]. intros Q2. f_equal. eapply OT; eauto. }
  destruct (L (j KVector)) as [X6|X6]; [apply (U KVector X6), B6, X6|]. rewrite (C6 f X6) in *.
  destruct (L (j KQuad)) as [X5|X5]; [apply (U KQuad X5), B5, X5|]. rewrite (C5 f X5) in *.
  destruct (L (j KDouble)) as [X4|X4]; [apply (U KDouble X4), B4, X4|]. rewrite (C4 f X4) in *.
  destruct (L (j KSingle)) as [X3|X3]; [apply (U KSingle X3), B3, X3|]. rewrite (C3 f X3) in *.
  destruct (L (j KLong)) as [X2|X2]; [apply (U KLong X2), B2, X2|]. rewrite (C2 f X2) in *.
  destruct (L (j KWord)) as [X1|X1]; [apply (U KWord X1), B1, X1|]. rewrite (C1 f X1) in *.
  rewrite Z. split; [discriminate|]. destruct k; intros X; contradiction.
Qed.
Lemma make_meta_types j c t m : make_meta j c t = Ok m ->
  (forall k f, N.testbit (mt_fset m k) (fid_idx f) = true <-> clause_lists (jm_oper j k) f) /\
  (one_type (jm_oper j) -> forall k f, mt_otype m f = Some k <-> clause_lists (jm_oper j k) f).
Proof.
  unfold make_meta. intros H. rbinds H. apply parse_isa_typing in H as [X Y].
  apply parse_type_typing in E as [A B]. apply parse_data_typing in E0 as [C D]. rewrite X, Y. split.
  - apply (parse_opers_sets _ _ _ E1). intros k. now rewrite C, A.
  - intros OT. apply (parse_opers_types _ _ _ E1); auto. intros f. now rewrite D, B.
Qed.
