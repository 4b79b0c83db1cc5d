(** Lemmas: accepted tables and the order of their records (C56). *)
From Coq Require Import NArith List Bool String Lia Permutation.
From Verif Require Import M_Base M_Field M_Forms M_Meta M_Extract M_Registry M_Trie M_Builder M_DTable.
From Verif Require Import S_Bits S_Maps S_Trie S_Table S_Meta S_Shipped S_Accept L_Bits L_Trie L_Claims L_Accept.
Import ListNotations.
Local Open Scope N_scope.

Lemma accept_exactly_lemma uids annos nu incl0 excl0 recs : sizes32 recs -> room uids nu (List.length (read incl0 excl0 recs)) ->
  let K := read incl0 excl0 recs in Forall (fun r => r_alias r = []) K ->
  (exists s, make_decoder uids annos nu incl0 excl0 recs = Ok s) <-> named_all recs /\ uids_ok uids /\ in_order uids annos K /\ fitting (encodings K).
Proof.
  intros SZ RM K AL. assert (Q : stencils K = encodings K).
  { unfold stencils, encodings. induction AL as [|r K0 A _ IH]; [reflexivity|]. cbn [flat_map]. f_equal; [|exact IH].
    unfold rec_encs. destruct (r_mn r); [|reflexivity]. destruct (r_overlay r); [reflexivity|]. destruct (r_form r); [|reflexivity].
    destruct (get_form _); try reflexivity. rewrite A. reflexivity. }
  destruct (accept_lemma uids annos nu incl0 excl0 recs SZ RM) as (_ & H1 & H2). fold K in H1, H2. rewrite Q in H2. split.
  - intros [s H]. exact (H2 s H).
  - intros (A1 & A2 & A3 & A4). exact (H1 A1 A2 A3 A4).
Qed.

(** ** Order *)
Lemma in_step_sym p : forall q, in_step p q -> in_step q p.
Proof. induction p as [|[a v] p IH]; intros [|[b w] q]; cbn; auto. intros [-> H]. split; [reflexivity|]. intros ->. auto. Qed.
Lemma same_cell_sym e e' : same_cell e e' -> same_cell e' e.
Proof.
  unfold same_cell. intros [H1 H2]. split; [congruence|]. revert H2. generalize (fm_ocfields (en_form e')) as fs'. generalize (fm_ocfields (en_form e)) as fs.
  induction 1 as [|f f' fs fs' (A & B & C & D) T IH]; constructor; [|exact IH]. split; [congruence|]. split; [congruence|]. split; [tauto|].
  intros NI. unfold agree_on in *. rewrite <- A, <- B. symmetry. apply D. tauto.
Qed.
Lemma fixed_agree_bits e x : fixed_agree e x <-> forall i, fixed_bit e i -> N.testbit x i = N.testbit (en_stencil e) i.
Proof.
  split.
  - intros H i (n & f & I & Nm & B). specialize (H n f I Nm). unfold agree_on in H.
    apply (f_equal (fun s => N.testbit s (i - f_rpos f))) in H. rewrite !slice_testbit in H.
    replace (i - f_rpos f <? f_len f) with true in H by (symmetry; apply N.ltb_lt; lia).
    replace (i - f_rpos f + f_rpos f) with i in H by lia. replace (f_rpos f + (i - f_rpos f)) with i in H by lia. exact H.
  - intros H n f I Nm. unfold agree_on. apply N.bits_inj. intros j. rewrite !slice_testbit.
    destruct (N.ltb_spec j (f_len f)); [|now rewrite ?andb_false_l, ?andb_false_r].
    f_equal; try reflexivity; apply H; exists n, f; (split; [exact I|]); (split; [exact Nm|lia]).
Qed.
Lemma beside_sym e e' : beside e e' -> beside e' e.
Proof.
  intros [H1 H2]. split; [intros Q; apply in_step_sym, H1; congruence|]. intros (R1 & R2 & R3 & R4 & R5). symmetry. apply H2.
  split; [now apply same_cell_sym|]. split; [exact R3|]. split; [exact R2|]. split; [intros i; symmetry; apply R4|].
  apply fixed_agree_bits. intros i B. symmetry. apply (proj1 (fixed_agree_bits e' (en_stencil e)) R5). now apply R4.
Qed.
Lemma fop_perm {T} (R : T -> T -> Prop) K L : (forall a b, R a b -> R b a) -> Permutation K L -> ForallOrdPairs R K -> ForallOrdPairs R L.
Proof.
  intros SY. induction 1 as [|x K L PM IH|x y K|K1 K2 K3 PM1 IH1 PM2 IH2]; intros H; [constructor| | |auto].
  - inversion H; subst. constructor; [now rewrite <- PM|auto].
  - inversion H as [|? ? A B]; subst. inversion B as [|? ? C D]; subst. inversion A; subst. constructor; [constructor; auto|constructor; auto].
Qed.
Lemma filter_perm {T} (f : T -> bool) K L : Permutation K L -> Permutation (filter f K) (filter f L).
Proof.
  induction 1; cbn [filter]; [constructor| | |econstructor; eassumption].
  - destruct (f x); auto.
  - destruct (f x), (f y); auto. constructor.
Qed.
Lemma read_perm i e K L : Permutation K L -> Permutation (read i e K) (read i e L).
Proof. intros H. unfold read, kept. now apply filter_perm, filter_perm. Qed.

(** Records that refer to no other record. *)
Lemma any_order_half uids annos nu incl0 excl0 recs recs' : sizes32 recs -> room uids nu (List.length (read incl0 excl0 recs)) -> Permutation recs recs' ->
  Forall (fun r => r_overlay r = None /\ r_expand r = ""%string /\ r_alias r = []) (read incl0 excl0 recs) ->
  (exists s, make_decoder uids annos nu incl0 excl0 recs = Ok s) -> exists s, make_decoder uids annos nu incl0 excl0 recs' = Ok s.
Proof.
  intros SZ RM PM AL H. pose proof (read_perm incl0 excl0 _ _ PM) as PR.
  assert (SZ' : sizes32 recs') by (intros r d I; apply SZ; eapply Permutation_in; [symmetry; exact PM|exact I]).
  assert (RM' : room uids nu (List.length (read incl0 excl0 recs'))) by (rewrite <- (Permutation_length PR); exact RM).
  assert (AL' : Forall (fun r => r_overlay r = None /\ r_expand r = ""%string /\ r_alias r = []) (read incl0 excl0 recs')) by (rewrite <- PR; exact AL).
  apply accept_exactly_lemma in H; auto; [|eapply Forall_impl; [|exact AL]; cbn; tauto]. destruct H as (H1 & H2 & H3 & H4 & H5).
  apply accept_exactly_lemma; auto; [eapply Forall_impl; [|exact AL']; cbn; tauto|]. split; [|split; [exact H2|split; [|split]]].
  - intros r I. apply H1. eapply Permutation_in; [symmetry; exact PM|exact I].
  - intros P r Q E mn M. assert (I : In r (read incl0 excl0 recs)) by (eapply Permutation_in; [symmetry; exact PR|rewrite E; apply in_elt]).
    pose proof (proj1 (Forall_forall _ _) AL r I) as (O & X & _). rewrite O. apply in_split in I as (P0 & Q0 & E0).
    pose proof (H3 P0 r Q0 E0 mn M) as A. rewrite O in A. destruct A as (A1 & A2 & A3 & A4 & _). split; [exact A1|]. split; [exact A2|]. split; [exact A3|]. split; [|auto].
    (* another record of this name before [r] in [recs'] is another record of this name in [recs] *)
    intros r' I' J. assert (PQ : Permutation (P0 ++ Q0) (P ++ Q)).
    { apply Permutation_app_inv with (a := r). rewrite <- E0, <- E. exact PR. }
    assert (I2 : In r' (P0 ++ Q0)) by (eapply Permutation_in; [symmetry; exact PQ|apply in_app_iff; auto]).
    apply in_app_iff in I2 as [I2|I2]; [exact (A4 _ I2 J)|].
    apply in_split in I2 as (Q1 & Q2 & E1). assert (E2 : read incl0 excl0 recs = ((P0 ++ r :: Q1) ++ r' :: Q2)%list) by (rewrite E0, E1, <- app_assoc; reflexivity).
    destruct J as [J1 J2]. pose proof (H3 _ _ _ E2 mn J1) as B. rewrite J2 in B. destruct B as (_ & _ & _ & B & _). apply (B r); [apply in_elt|]. split; auto.
  - eapply Permutation_Forall; [|exact H4]. now apply Permutation_flat_map.
  - eapply fop_perm; [exact beside_sym| |exact H5]. now apply Permutation_flat_map.
Qed.
Lemma any_order_lemma uids annos nu incl0 excl0 recs recs' : sizes32 recs -> room uids nu (List.length (read incl0 excl0 recs)) -> Permutation recs recs' ->
  Forall (fun r => r_overlay r = None /\ r_expand r = ""%string /\ r_alias r = []) (read incl0 excl0 recs) ->
  (exists s, make_decoder uids annos nu incl0 excl0 recs = Ok s) <-> exists s, make_decoder uids annos nu incl0 excl0 recs' = Ok s.
Proof.
  intros SZ RM PM AL. split; [now apply any_order_half|]. pose proof (read_perm incl0 excl0 _ _ PM) as PR. apply any_order_half.
  - intros r d I; apply SZ; eapply Permutation_in; [symmetry; exact PM|exact I].
  - rewrite <- (Permutation_length PR). exact RM.
  - now symmetry.
  - rewrite <- PR. exact AL.
Qed.

(** ** Concrete cases *)
Lemma sizes_check recs : forallb (fun r => match jm_data (r_meta r) with Some d => d <? 2 ^ 32 | None => true end) recs = true -> sizes32 recs.
Proof. intros H r d I E. rewrite forallb_forall in H. specialize (H r I). rewrite E in H. now apply N.ltb_lt. Qed.
Lemma room_check n : N.of_nat n < 1000 -> room [] 1 n.
Proof. intros L. split; [reflexivity|]. intros u [-> |[]]. lia. Qed.
Lemma small_sizes : sizes32 small.
Proof. apply sizes_check. vm_compute. reflexivity. Qed.
Lemma small_room : room [] 1 (List.length (read [] [] small)).
Proof. apply room_check. vm_compute. reflexivity. Qed.
Lemma small_case_lemma : let K := read [] [] small in sizes32 small /\ room [] 1 (List.length K) /\ named_all small /\ uids_ok [] /\
  in_order (A := anno) [] [] K /\ fitting (encodings K) /\ List.length (encodings K) = 11%nat.
Proof.
  intros K. split; [exact small_sizes|]. split; [exact small_room|].
  destruct small_decoder as (s & E & _).
  assert (AL : Forall (fun r => r_alias r = []) K) by (apply Forall_forall; assert (Q : forallb (fun r => match r_alias r with [] => true | _ => false end) K = true) by (vm_compute; reflexivity);
    intros r I; rewrite forallb_forall in Q; specialize (Q r I); destruct (r_alias r); [reflexivity|discriminate]).
  pose proof (proj1 (accept_exactly_lemma [] [] 1 [] [] small small_sizes small_room AL) (ex_intro _ s E)) as (H1 & H2 & H3 & H4).
  repeat (split; [assumption|]). vm_compute. reflexivity.
Qed.
Lemma lwsp_sizes : sizes32 lwsp.
Proof. apply sizes_check. vm_compute. reflexivity. Qed.
Lemma lwsp_room : room [] 1 (List.length (read [] [] lwsp)).
Proof. apply room_check. vm_compute. reflexivity. Qed.
Lemma order_refuted_lemma : exists recs, (exists s, make_decoder [] [] 1 [] [] recs = Ok s) /\ ~ exists s, make_decoder [] [] 1 [] [] (rev recs) = Ok s.
Proof.
  exists lwsp. split; [destruct C07_illegal_case as (s & E & _); exists s; exact E|]. intros H.
  assert (PM : Permutation lwsp (rev lwsp)) by apply Permutation_rev. pose proof (read_perm [] [] _ _ PM) as PR.
  assert (SZ : sizes32 (rev lwsp)) by (intros r d I; apply lwsp_sizes, in_rev, I).
  assert (RM : room [] 1 (List.length (read [] [] (rev lwsp)))) by (rewrite <- (Permutation_length PR); exact lwsp_room).
  destruct H as [s H]. destruct (accept_lemma [] [] 1 [] [] (rev lwsp) SZ RM) as (_ & _ & X). apply X in H as (_ & _ & H & _). clear X PR RM.
  destruct (read [] [] (rev lwsp)) as [|r Q] eqn:E; [apply (f_equal (@List.length irec)) in E; vm_compute in E; discriminate E|].
  specialize (H [] r Q eq_refl).
  assert (X : r_mn r = Some "c.lwsp"%string /\ r_overlay r = None /\ r_expand r = "lw"%string).
  { apply (f_equal (fun l => match l with r :: _ => (r_mn r, (r_overlay r, r_expand r)) | [] => (None, (None, ""%string)) end)) in E. vm_compute in E. injection E. auto. }
  destruct X as (X1 & X2 & X3). specialize (H _ X1). rewrite X2 in H. destruct H as (_ & _ & _ & _ & [H|[H _]]); [rewrite X3 in H; discriminate H|].
  destruct H as [H|(r' & mn & [] & _)]. rewrite X3 in H. destruct H; discriminate.
Qed.
Lemma two_ways_case_lemma : sizes32 two_ways /\ room [] 1 (List.length (read [] [] two_ways)) /\ Permutation two_ways two_ways_swapped /\
  Forall (fun r => r_overlay r = None /\ r_expand r = ""%string /\ r_alias r = []) (read [] [] two_ways) /\ List.length (read [] [] two_ways) = 2%nat.
Proof.
  split; [apply sizes_check; vm_compute; reflexivity|]. split; [apply room_check; vm_compute; reflexivity|]. split; [apply Permutation_rev|]. split; [|vm_compute; reflexivity].
  vm_compute. repeat constructor.
Qed.
Lemma small_accepted_lemma : exists s, make_decoder [] [] 1 [] [] small = Ok s.
Proof. destruct small_decoder as (s & E & _). exists s. exact E. Qed.
