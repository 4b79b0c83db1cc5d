(** Lemmas: the "isa" clause and the data size of a record. *)
From Coq Require Import NArith List Bool Lia String.
From Verif Require Import M_Base M_Meta S_Meta L_Meta L_NameTables.
Import ListNotations.
Local Open Scope N_scope.

Lemma pow2_land n : n <> 0 -> (N.land n (n - 1) = 0 <-> exists k, n = 2 ^ k).
Proof.
  intros NZ. split.
  - intros H. exists (N.log2 n). destruct (N.log2_spec n ltac:(lia)) as [L1 L2]. destruct (N.eq_dec n (2 ^ N.log2 n)) as [E|NE]; [exact E|exfalso].
    assert (B : N.testbit (N.land n (n - 1)) (N.log2 n) = true); [|rewrite H, N.bits_0 in B; discriminate B].
    rewrite N.land_spec, N.bit_log2 by exact NZ. cbn [andb].
    replace (N.log2 n) with (N.log2 (n - 1)); [apply N.bit_log2; lia|]. apply N.log2_unique; [lia|]. split; lia.
  - intros [k ->]. apply N.bits_inj_0. intros i. rewrite N.land_spec, N.pow2_bits_eqb. destruct (N.eqb_spec k i) as [<-|]; [|reflexivity].
    cbn [andb]. rewrite N.sub_1_r, <- N.ones_equiv. apply N.ones_spec_high. lia.
Qed.
Lemma isamap_number s : option_map snd (find (fun p => String.eqb (fst p) s) isamap) = isa_number s.
Proof.
  cbn [find isamap fst]. repeat (match goal with |- context [String.eqb ?a s] => destruct (String.eqb_spec a s) as [<-|?]; [reflexivity|] end).
  destruct s as [|[[] [] [] [] [] [] [] []] [|]]; try reflexivity; congruence.
Qed.
Definition isa_step (e : option N * string) (m m' : meta) : Prop :=
  exists i, isa_number (snd e) = Some i /\ mt_isa m' = N.lor (mt_isa m) (2 ^ i) /\
  match fst e with
  | None => mt_isaw m' = mt_isaw m
  | Some w => (exists k, w = 2 ^ k) /\ (forall j, mt_isaw m' j = if j =? i then N.lor (mt_isaw m i) w else mt_isaw m j)
  end.
Lemma parse_isa_cons e l m r : parse_isa (e :: l) m = r ->
  (exists m1, isa_step e m m1 /\ parse_isa l m1 = r) \/
  ((exists x, r = Throw x) /\ (isa_number (snd e) = None \/ exists w, fst e = Some w /\ ~ exists k, w = 2 ^ k)).
Proof.
  destruct e as [w s]. cbn [parse_isa]. pose proof (isamap_number s) as F. unfold isa_step. cbn [fst snd]. intros <-.
  destruct (find _ isamap) as [[n i]|]; cbn [option_map snd] in F.
  2:{ right. rewrite <- F. split; eauto. }
  destruct w as [w|].
  2:{ left. cbn [rbind]. eexists. split; [|reflexivity]. exists i. cbn [mt_isa mt_isaw]. rewrite N.shiftl_1_l. auto. }
  destruct (N.eqb_spec w 0) as [->|NZ]; cbn [orb].
  { right. cbn [rbind]. split; [eauto|]. right. exists 0. split; [reflexivity|]. intros [k K]. symmetry in K. apply N.pow_eq_0 in K; lia. }
  destruct (N.eqb_spec (N.land w (w - 1)) 0) as [P|P]; cbn [negb].
  - left. unfold set_isa_width. rewrite (proj2 (N.eqb_neq w 0) NZ), (proj2 (N.eqb_eq _ 0) P). cbn [negb andb rassert rbind].
    eexists. split; [|reflexivity]. exists i. cbn [mt_isa mt_isaw]. rewrite N.shiftl_1_l. split; [congruence|]. split; [reflexivity|].
    split; [now apply pow2_land|reflexivity].
  - right. cbn [rbind]. split; [eauto|]. right. exists w. split; [reflexivity|]. now rewrite <- pow2_land.
Qed.
Lemma has_pow2 j i : has (2 ^ j) i <-> i = j.
Proof. unfold has. rewrite N.pow2_bits_eqb, N.eqb_eq. split; auto. Qed.
Lemma has_lor a b i : has (N.lor a b) i <-> has a i \/ has b i.
Proof. unfold has. rewrite N.lor_spec. apply orb_true_iff. Qed.
Lemma parse_isa_facts l : forall m m', parse_isa l m = Ok m' ->
  (forall i, has (mt_isa m') i <-> has (mt_isa m) i \/ exists w s, In (w, s) l /\ isa_number s = Some i) /\
  (forall i k, has (mt_isaw m' i) k <-> has (mt_isaw m i) k \/ exists s, In (Some (2 ^ k), s) l /\ isa_number s = Some i).
Proof.
  induction l as [|e l IH]; intros m m' H.
  - cbn in H. assert (m' = m) as -> by congruence. split; intros; split; auto; intros [?|Q]; auto; exfalso.
    + destruct Q as (? & ? & [] & _).
    + destruct Q as (? & [] & _).
  - apply parse_isa_cons in H as [(m1 & S & H)|[[x X] _]]; [|discriminate X]. apply IH in H as [H1 H2].
    destruct e as [w s]. destruct S as (i0 & N0 & I0 & W). cbn [fst snd] in *. split.
    + intros i. rewrite H1, I0, has_lor, has_pow2. split.
      * intros [[Q|Q]|(w' & s' & Q & R)]; [auto|subst; right; exists w, s; split; [now left|exact N0]|right; exists w', s'; split; [now right|exact R]].
      * intros [Q|(w' & s' & [Q|Q] & R)]; [auto| |right; eauto]. injection Q as <- <-. left. right. congruence.
    + intros i k. rewrite H2. destruct w as [w|].
      * destruct W as [[k0 ->] W]. rewrite W. destruct (N.eqb_spec i i0) as [->|NE].
        -- rewrite has_lor, has_pow2. split.
           ++ intros [[Q|Q]|(s' & Q & R)]; [auto|subst; right; exists s; split; [now left|exact N0]|right; exists s'; split; [now right|exact R]].
           ++ intros [Q|(s' & [Q|Q] & R)]; [auto| |right; eauto]. injection Q as Q <-. left. right. apply N.pow_inj_r in Q; lia.
        -- split.
           ++ intros [Q|(s' & Q & R)]; [auto|right; exists s'; split; [now right|exact R]].
           ++ intros [Q|(s' & [Q|Q] & R)]; [auto| |right; eauto]. injection Q as Q <-. congruence.
      * rewrite W. split.
        -- intros [Q|(s' & Q & R)]; [auto|right; exists s'; split; [now right|exact R]].
        -- intros [Q|(s' & [Q|Q] & R)]; [auto|discriminate Q|right; eauto].
Qed.
Lemma parse_isa_accepts l : forall m, (exists m', parse_isa l m = Ok m') <-> Forall isa_entry_ok l.
Proof.
  induction l as [|e l IH]; intros m; [split; [constructor|intros _; eexists; reflexivity]|].
  destruct (parse_isa_cons e l m _ eq_refl) as [(m1 & (i & N1 & _ & W) & H)|[[x X] B]].
  - rewrite <- H, IH. split; [|now inversion 1]. intros F. constructor; [|exact F]. split; [congruence|]. destruct (fst e); [right|now left].
    destruct W as [[k ->] _]. eauto.
  - rewrite X. split; [intros [? Q]; discriminate Q|]. inversion 1 as [|? ? [E1 E2] _]; subst. destruct B as [B|(w & B1 & B2)]; [congruence|].
    destruct E2 as [E2|[k E2]]; [congruence|]. exfalso. apply B2. exists k. congruence.
Qed.

Definition same_isa (m m' : meta) : Prop := mt_isa m' = mt_isa m /\ mt_isaw m' = mt_isaw m.
Lemma parse_type_isa j m m' : parse_type j m = Ok m' -> same_isa m m'.
Proof. unfold parse_type. destruct j; intros H; [rbinds H|]; assert (X := f_equal (fun r => match r with Ok x => (mt_isa x, mt_isaw x) | _ => (0, fun _ => 0) end) H); cbn in X; split; congruence. Qed.
Lemma parse_data_isa j m m' : parse_data j m = Ok m' -> same_isa m m'.
Proof. unfold parse_data. destruct j as [d|]; intros H; [destruct (data_size_bad d); [discriminate H|]|]; injection H as <-; split; reflexivity. Qed.
Lemma parse_oper_isa c k m m' : parse_oper c k m = Ok m' -> same_isa m m'.
Proof. unfold parse_oper. destruct c as [[|l]|]; intros H; [|unfold set_operands in H; rbinds H|]; injection H as <-; split; reflexivity. Qed.
Lemma same_isa_trans a b c : same_isa a b -> same_isa b c -> same_isa a c.
Proof. intros [A B] [C D]. split; congruence. Qed.
Lemma parse_opers_isa j m m' : parse_opers j m = Ok m' -> same_isa m m'.
Proof.
  unfold parse_opers. intros H. rbinds H.
  repeat match goal with E : parse_oper _ _ _ = Ok _ |- _ => apply parse_oper_isa in E end.
  repeat (eapply same_isa_trans; [eassumption|]). split; reflexivity.
Qed.
Lemma isa_clause_lemma j c t m s i : make_meta j c t = Ok m -> isa_number s = Some i ->
  (is_isa m (2 ^ i) = true <-> exists w, In (w, s) (jm_isa j)) /\
  (forall k, is_isa_width m i (2 ^ k) = true <-> In (Some (2 ^ k), s) (jm_isa j)) /\
  (forall w, is_isa_width m i w = true <-> (exists w', In (w', s) (jm_isa j)) /\ forall k, has w k -> In (Some (2 ^ k), s) (jm_isa j)).
Proof.
  intros H S. unfold make_meta in H. rbinds H. apply parse_type_isa in E. apply parse_data_isa in E0. apply parse_opers_isa in E1.
  pose proof (same_isa_trans _ _ _ E (same_isa_trans _ _ _ E0 E1)) as [Z1 Z2]. cbn [mt_isa mt_isaw meta_init] in Z1, Z2.
  apply parse_isa_facts in H as [H1 H2]. rewrite Z1 in H1. rewrite Z2 in H2.
  assert (INJ : forall s', isa_number s' = Some i -> s' = s).
  { intros s' Q. revert S Q. rewrite <- !isamap_number. 
    destruct (find _ isamap) as [[n1 i1]|] eqn:F1; [|discriminate]. destruct (find (fun p => String.eqb (fst p) s') isamap) as [[n2 i2]|] eqn:F2; [|discriminate].
    cbn [option_map snd]. apply find_some in F1 as [F1 G1], F2 as [F2 G2]. cbn [fst] in G1, G2. apply String.eqb_eq in G1, G2. subst n1 n2.
    intros [= ->] [= ->]. cbn in F1, F2. repeat (destruct F1 as [F1|F1]; [injection F1 as <- <-|]); try contradiction; 
      repeat (destruct F2 as [F2|F2]; [injection F2; try congruence; try discriminate|]); contradiction. }
  assert (I1 : forall i', has 0 i' -> False) by (intros i' Q; unfold has in Q; rewrite N.bits_0 in Q; discriminate Q).
  assert (A : has (mt_isa m) i <-> exists w, In (w, s) (jm_isa j)).
  { rewrite H1. split.
    - intros [Q|(w & s' & Q & R)]; [destruct (I1 _ Q)|]. rewrite (INJ s' R) in Q. eauto.
    - intros [w Q]. right. eauto. }
  assert (B : forall k, has (mt_isaw m i) k <-> In (Some (2 ^ k), s) (jm_isa j)).
  { intros k. rewrite H2. split.
    - intros [Q|(s' & Q & R)]; [destruct (I1 _ Q)|]. now rewrite (INJ s' R) in Q.
    - intros Q. right. eauto. }
  assert (X : is_isa m (2 ^ i) = true <-> has (mt_isa m) i).
  { rewrite C30_isa. unfold all_in. split; [intros Q; apply Q; now apply has_pow2|]. intros Q i' R. apply has_pow2 in R. now subst. }
  assert (W : forall w, is_isa_width m i w = true <-> (exists w', In (w', s) (jm_isa j)) /\ forall k, has w k -> In (Some (2 ^ k), s) (jm_isa j)).
  { intros w. unfold is_isa_width. rewrite andb_true_iff, N.shiftl_1_l, X, A, N.eqb_eq, land_sub. unfold all_in.
    split; intros [Q R]; split; auto; intros k K; apply B; auto. }
  split; [now rewrite X, A|]. split; [|exact W].
  intros k. rewrite W. split; [intros [_ Q]; apply Q; now apply has_pow2|]. intros Q. split; [eauto|]. intros k' K. apply has_pow2 in K. now subst.
Qed.
Lemma data_size_lemma d m : d < 2 ^ 32 -> (exists m', parse_data (Some d) m = Ok m') <-> d = 0 \/ exists k, k < 31 /\ d = 2 ^ k.
Proof.
  intros L. unfold parse_data, data_size_bad.
  assert (S : d <> 0 -> u32 (d + w32 - 1) = d - 1).
  { intros NZ. unfold u32, w32. change (2 ^ 32) with 4294967296 in *. replace (d + 4294967296 - 1) with (d - 1 + 1 * 4294967296) by lia.
    rewrite N.mod_add by lia. apply N.mod_small. lia. }
  destruct (N.eq_dec d 0) as [->|NZ]; [split; [now left|intros _; eexists; vm_compute; reflexivity]|]. rewrite (S NZ).
  destruct (N.eqb_spec (N.land d (d - 1)) 0) as [P|P]; cbn [negb orb].
  - apply pow2_land in P as [k ->]; [|exact NZ]. destruct (N.leb_spec 2147483648 (2 ^ k)) as [Q|Q]; change 2147483648 with (2 ^ 31) in Q.
    + split; [intros [? X]; discriminate X|]. intros [X|(k' & K & X)]; [congruence|]. apply N.pow_inj_r in X; [|lia]. subst. apply N.pow_le_mono_r_iff in Q; lia.
    + split; [|intros _; eauto]. intros _. right. exists k. split; [|reflexivity]. now apply N.pow_lt_mono_r_iff in Q.
  - split; [intros [? X]; discriminate X|]. intros [X|(k & K & X)]; [congruence|]. exfalso. apply P. apply pow2_land; eauto.
Qed.

Definition tmap_named : bool := forallb (fun p => match type_name (snd p) with Some n => String.eqb n (fst p) | None => false end) tmap.
Definition name_known (i : N) : bool := match type_name i with Some n => match itype_of n with Some b => b =? 2 ^ i | None => false end | None => true end.
Lemma type_name_lemma n i : itype_of n = Some (2 ^ i) <-> type_name i = Some n.
Proof.
  split.
  - intros H. apply itype_in in H as (j & I & Q). rewrite N.shiftl_1_l in Q. apply N.pow_inj_r in Q; [|lia]. subst j.
    assert (K : tmap_named = true) by (vm_compute; reflexivity). unfold tmap_named in K. rewrite forallb_forall in K. specialize (K _ I). cbn [fst snd] in K.
    destruct (type_name i); [|discriminate K]. apply String.eqb_eq in K. congruence.
  - intros H. assert (L : i < 64).
    { destruct (N.ltb_spec i 64) as [Q|Q]; [exact Q|exfalso]. destruct i as [|p]; [lia|].
      do 6 (destruct p as [p|p|]; try discriminate H; try lia). }
    assert (K : forallb name_known (map N.of_nat (seq 0 64)) = true) by (vm_compute; reflexivity). rewrite forallb_forall in K.
    specialize (K i). rewrite in_map_iff in K. assert (name_known i = true) as Q.
    { apply K. exists (N.to_nat i). split; [lia|]. apply in_seq. lia. }
    unfold name_known in Q. rewrite H in Q. destruct (itype_of n); [|discriminate Q]. apply N.eqb_eq in Q. congruence.
Qed.
Lemma itype_pow n b : itype_of n = Some b -> exists i, b = 2 ^ i.
Proof. intros H. apply itype_in in H as (j & _ & ->). exists j. apply N.shiftl_1_l. Qed.

(** Accepted, or refused with an exception. *)
Definition accepts {T} (r : res T) (P : Prop) : Prop := ((exists m, r = Ok m) /\ P) \/ ((exists e, r = Throw e) /\ ~ P).
Lemma accepts_iff {T} (r : res T) P Q : (P <-> Q) -> accepts r P -> accepts r Q.
Proof. unfold accepts. tauto. Qed.
Lemma types_accepted c m : accepts (parse_type c m) (known_types c).
Proof.
  destruct c as [ts|]; [|left; split; [eexists; reflexivity|discriminate]]. unfold parse_type, known_types.
  generalize (mt_types m) as a. induction ts as [|n ts IH]; intros a; cbn [add_types].
  { left. split; [eexists; reflexivity|]. intros ? ? [= <-] []. }
  destruct (itype_of n) as [b|] eqn:E.
  - apply itype_pow in E as Q. destruct Q as [i ->]. apply type_name_lemma in E. eapply accepts_iff; [|apply IH]. split.
    + intros H ts' n' [= <-] [<-|I]; [eauto|]. eapply H; eauto.
    + intros H ts' n' [= <-] I. apply (H (n :: ts)); [reflexivity|now right].
  - right. split; [eexists; reflexivity|]. intros H. destruct (H (n :: ts) n eq_refl (or_introl eq_refl)) as [i Q]. apply type_name_lemma in Q. congruence.
Qed.
Lemma data_accepted c m : (forall d, c = Some d -> d < 2 ^ 32) -> accepts (parse_data c m) (forall d, c = Some d -> good_size d).
Proof.
  destruct c as [d|]; intros L; [|left; split; [eexists; reflexivity|discriminate]]. pose proof (data_size_lemma d m (L d eq_refl)) as Q.
  unfold accepts. unfold parse_data in *. destruct (data_size_bad d).
  - right. split; [eauto|]. intros H. apply Q in H; [|reflexivity]. destruct H as [? H]. discriminate H.
  - left. split; [eauto|]. intros d' [= <-]. apply Q. eauto.
Qed.
Lemma fields_accepted l : accepts (meta_field_set l) (forall n, In n l -> exists f, field_name f = Some n).
Proof.
  induction l as [|n l IH]; cbn [meta_field_set]; [left; split; [eauto|intros ? []]|].
  destruct (get_fid n) as [f|] eqn:E.
  - apply field_names_lemma in E. destruct IH as [[[s ->] H]|[[e ->] H]]; cbn [rbind].
    + left. split; [eauto|]. intros n' [<-|I]; eauto.
    + right. split; [eauto|]. intros Q. apply H. intros n' I. apply Q. now right.
  - right. split; [eauto|]. intros Q. destruct (Q n (or_introl eq_refl)) as [f F]. apply field_names_lemma in F. congruence.
Qed.
Lemma oper_accepted c k m : accepts (parse_oper c k m) (known_fields c).
Proof.
  unfold parse_oper, known_fields. destruct c as [[|l]|]; [left; split; [eauto|discriminate]| |left; split; [eauto|discriminate]].
  unfold set_operands. destruct (fields_accepted l) as [[[s ->] H]|[[e ->] H]]; cbn [rbind].
  - left. split; [eauto|]. intros ? n [= <-]. apply H.
  - right. split; [eauto|]. intros Q. apply H. intros n. apply (Q l). reflexivity.
Qed.
Lemma accepts_bind {T V} (r : res T) (f : T -> res V) P Q : accepts r P -> (forall m, accepts (f m) Q) -> accepts (let* m := r in f m) (P /\ Q).
Proof.
  intros [[[m ->] HP]|[[e ->] HP]] H; cbn [rbind].
  - eapply accepts_iff; [|apply H]. tauto.
  - right. split; [eauto|tauto].
Qed.
Lemma opers_accepted j m : accepts (parse_opers j m) (forall k, known_fields (j k)).
Proof.
  unfold parse_opers. eapply accepts_iff; [|repeat (apply accepts_bind; [apply oper_accepted|intros ?]); apply oper_accepted].
  split; [intros (A1 & A2 & A3 & A4 & A5 & A6) []; assumption|]. intros H. repeat split; apply H.
Qed.
Lemma isa_accepted l m : accepts (parse_isa l m) (Forall isa_entry_ok l).
Proof.
  revert m. induction l as [|e l IH]; intros m; [left; split; [eexists; reflexivity|constructor]|].
  destruct (parse_isa_cons e l m _ eq_refl) as [(m1 & (i & N1 & _ & W) & H)|[[x X] B]].
  - rewrite <- H. eapply accepts_iff; [|apply IH]. split; [|now inversion 1]. intros F. constructor; [|exact F]. split; [congruence|]. destruct (fst e); [right|now left].
    destruct W as [[k ->] _]. eauto.
  - right. rewrite X. split; [eauto|]. inversion 1 as [|? ? [E1 E2] _]; subst. destruct B as [B|(w & B1 & B2)]; [congruence|].
    destruct E2 as [E2|[k E2]]; [congruence|]. apply B2. exists k. congruence.
Qed.
Lemma record_accepted_lemma j c t : (forall d, jm_data j = Some d -> d < 2 ^ 32) ->
  (record_ok j <-> exists m, make_meta j c t = Ok m) /\ (~ record_ok j <-> exists e, make_meta j c t = Throw e).
Proof.
  intros L. assert (A : accepts (make_meta j c t) (record_ok j)).
  { unfold make_meta, record_ok. apply accepts_bind; [apply types_accepted|intros m1]. apply accepts_bind; [now apply data_accepted|intros m2].
    apply accepts_bind; [apply opers_accepted|intros m3]. apply isa_accepted. }
  destruct A as [[[m ->] P]|[[e ->] P]]; (split; [split|split]); intros Q; try tauto; eauto; destruct Q as [? Q]; discriminate Q.
Qed.

Lemma types_reported_lemma ts a t : add_types ts a = Ok t -> forall i, has t i <-> has a i \/ exists n, In n ts /\ type_name i = Some n.
Proof.
  intros H i. apply add_types_spec with (i := i) in H. rewrite H. split; intros [Q|Q]; auto; right.
  - destruct Q as (n & b & I & E & B). exists n. split; [exact I|]. apply itype_pow in E as X. destruct X as [k ->]. apply has_pow2 in B. subst k. now apply type_name_lemma.
  - destruct Q as (n & I & E). exists n, (2 ^ i). apply type_name_lemma in E. split; [exact I|]. split; [exact E|]. now apply has_pow2.
Qed.
Definition rest (m : meta) := (mt_compressed m, mt_types m, mt_fixed m, mt_data m, mt_tags m).
Lemma parse_oper_rest c k m m' : parse_oper c k m = Ok m' -> rest m' = rest m.
Proof. unfold parse_oper. destruct c as [[|l]|]; intros H; [|unfold set_operands in H; rbinds H|]; injection H as <-; reflexivity. Qed.
Lemma parse_opers_rest j m m' : parse_opers j m = Ok m' -> rest m' = rest m.
Proof. unfold parse_opers. intros H. rbinds H. repeat match goal with E : parse_oper _ _ _ = Ok _ |- _ => apply parse_oper_rest in E end. congruence. Qed.
Lemma parse_isa_rest l : forall m m', parse_isa l m = Ok m' -> rest m' = rest m.
Proof.
  induction l as [|[w s] l IH]; intros m m' H; cbn [parse_isa] in H; [injection H as <-; reflexivity|].
  destruct (find _ isamap) as [[x i]|]; [|discriminate H]. rbinds H. apply IH in H. rewrite H. destruct w as [w|].
  - destruct ((w =? 0) || _); [discriminate E|]. unfold set_isa_width in E. rbinds E. injection E as <-. reflexivity.
  - injection E as <-. reflexivity.
Qed.
Lemma parse_type_reported c m m' : parse_type c m = Ok m' ->
  (forall i, has (mt_types m') i <-> has (mt_types m) i \/ exists n, (exists ts, c = Some ts /\ In n ts) /\ type_name i = Some n) /\
  mt_compressed m' = mt_compressed m /\ mt_data m' = mt_data m /\ mt_tags m' = mt_tags m /\ mt_fset m' = mt_fset m /\ mt_otype m' = mt_otype m /\
  mt_fixed m' = mt_fixed m.
Proof.
  unfold parse_type. destruct c as [ts|]; intros H; [|injection H as <-; repeat split; auto; intros [Q|(n & (ts & Q & _) & _)]; [exact Q|discriminate Q]].
  rbinds H. assert (m' = set_types m a) as -> by congruence. repeat split; cbn [set_types mt_types]; intros Q.
  - apply (types_reported_lemma _ _ _ E) in Q as [Q|(n & I & Q)]; [auto|]. right. eauto 6.
  - apply (types_reported_lemma _ _ _ E). destruct Q as [Q|(n & (ts' & R & I) & Q)]; [auto|]. injection R as <-. right. eauto.
Qed.
Lemma parse_data_reported c m m' : parse_data c m = Ok m' ->
  mt_data m' = match c with Some d => d | None => mt_data m end /\ mt_types m' = mt_types m /\
  mt_compressed m' = mt_compressed m /\ mt_tags m' = mt_tags m /\ mt_fset m' = mt_fset m /\ mt_otype m' = mt_otype m /\ mt_fixed m' = mt_fixed m.
Proof. unfold parse_data. destruct c as [d|]; intros H; [destruct (data_size_bad d); [discriminate H|]|]; injection H as <-; repeat split. Qed.
Lemma record_reported_lemma j c t m : make_meta j c t = Ok m ->
  (forall i, has (mt_types m) i <-> exists n, (exists ts, jm_type j = Some ts /\ In n ts) /\ type_name i = Some n) /\
  mt_data m = match jm_data j with Some d => d | None => 0 end /\ mt_compressed m = c /\ mt_tags m = t /\ (forall f, mt_fixed m f = false).
Proof.
  intros H. unfold make_meta in H. rbinds H. apply parse_type_reported in E as (A1 & A2 & A3 & A4 & _ & _ & A5).
  apply parse_data_reported in E0 as (B1 & B2 & B3 & B4 & _ & _ & B5). apply parse_opers_rest in E1. apply parse_isa_rest in H. unfold rest in *.
  assert (X1 : mt_types m = mt_types a) by congruence. cbn [meta_init mt_types mt_data mt_compressed mt_tags mt_fixed] in *.
  split; [|split; [|split; [|split]]].
  - intros i. rewrite X1, A1. split; [|now right]. intros [Q|Q]; [|exact Q]. unfold has in Q. rewrite N.bits_0 in Q. discriminate Q.
  - destruct (jm_data j); congruence.
  - congruence.
  - congruence.
  - intros f. assert (X : mt_fixed m = fun _ => false) by congruence. now rewrite X.
Qed.
Lemma overrides_lemma j t m m' : meta_overrides j t m = Ok m' ->
  (forall i, has (mt_types m') i <-> has (mt_types m) i \/ exists n, (exists ts, jm_type j = Some ts /\ In n ts) /\ type_name i = Some n) /\
  mt_data m' = match jm_data j with Some d => d | None => mt_data m end /\ mt_tags m' = (mt_tags m ++ t)%list /\
  mt_compressed m' = mt_compressed m /\ mt_isa m' = mt_isa m /\ mt_isaw m' = mt_isaw m /\
  mt_fset m' = mt_fset m /\ mt_otype m' = mt_otype m /\ mt_fixed m' = mt_fixed m.
Proof.
  unfold meta_overrides. intros H. rbinds H. apply parse_type_isa in E as I1. apply parse_data_isa in E0 as I2.
  apply parse_type_reported in E as (A1 & A2 & A3 & A4 & A5 & A6 & A7). apply parse_data_reported in E0 as (B1 & B2 & B3 & B4 & B5 & B6 & B7).
  destruct I1, I2. set (mm := mkMeta _ _ _ _ _ _ _ _ _) in H. assert (m' = mm) as -> by congruence. subst mm. cbn [mt_types mt_data mt_tags mt_compressed mt_isa mt_isaw mt_fset mt_otype mt_fixed].
  split; [intros i; now rewrite B2, A1|]. split; [destruct (jm_data j); congruence|]. repeat split; congruence.
Qed.
