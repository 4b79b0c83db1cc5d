(** Tables with alias stencils: exactly which are accepted (C56). *)
From Coq Require Import NArith List Bool String Permutation Lia.
From Verif Require Import M_Base M_Field M_Forms M_Meta M_Extract M_Registry M_Trie M_Builder M_DTable.
From Verif Require Import S_Bits S_Trie S_Table S_Meta S_Accept S_Shipped L_Bits L_Check L_Claims L_Trie L_Table L_Decode L_AcceptTree L_Accept L_AcceptOrder.
Import ListNotations.
Local Open Scope N_scope.

(** ** Encodings in one tree look at the same bits *)
Definition look_of (st : N) (q : field * bool) : (N * N) * option N :=
  ((f_rpos (fst q), f_len (fst q)), if snd q then None else Some (slice (f_rpos (fst q)) (f_len (fst q)) st)).
Lemma look_of_looks e : map (look_of (en_stencil e)) (tpath e) = looks e.
Proof. unfold tpath, mkpath, looks. rewrite map_map. reflexivity. Qed.
Lemma repr_in_step n E : repr n E -> Forall (fun t => Forall (fun q => fok (fst q)) (fst t)) E ->
  forall t t', In t E -> In t' E -> in_step (map (look_of (st_of t)) (fst t)) (map (look_of (st_of t')) (fst t')).
Proof.
  induction 1 as [f tab d E R1 R2 R3 IH3 R4 R5 IH5|tab d E R1 R2]; intros FO t t' I I'.
  2: { rewrite Forall_forall in R1. pose proof (R1 _ I) as Q. pose proof (R1 _ I') as Q'. destruct t as [p x], t' as [p' x']. cbn in Q, Q'. subst p p'. exact Logic.I. }
  rewrite Forall_forall in R1, FO. destruct (R1 _ I) as (g & b & r & E1 & Q1), (R1 _ I') as (g' & b' & r' & E1' & Q1').
  destruct t as [p x], t' as [p' x']. cbn [fst] in *. subst p p'. unfold st_of in *. cbn [snd fst map].
  unfold look_of at 1 3. cbn [in_step fst snd]. unfold f_equiv in Q1, Q1'. apply andb_true_iff in Q1 as [A1 A2], Q1' as [B1 B2]. apply N.eqb_eq in A1, A2, B1, B2.
  split; [congruence|]. intros V. pose proof (FO _ I) as F1. pose proof (FO _ I') as F2. cbn [fst] in F1, F2. inversion F1 as [|? ? F1a F1b]; inversion F2 as [|? ? F2a F2b]; subst.
  cbn [fst] in *.
  destruct b, b'; try discriminate V.
  - assert (J : In (r, x) (L_Trie.subd E)) by (apply subd_in; eauto). assert (J' : In (r', x') (L_Trie.subd E)) by (apply subd_in; eauto).
    destruct d as [c|]; [|rewrite R4 in J by reflexivity; destruct J].
    apply (IH5 c eq_refl) with (t := (r, x)) (t' := (r', x')); auto. apply Forall_forall. intros [q y] K. apply subd_in in K as (h & K). specialize (FO _ K). now inversion FO.
  - injection V as V.
    set (i := f_extract g (en_stencil (fst x))). assert (J : In (r, x) (L_Trie.sub i E)) by (apply sub_in; eauto).
    assert (J' : In (r', x') (L_Trie.sub i E)). { apply sub_in. exists g'. split; [exact I'|]. unfold i. rewrite !f_extract_slice by assumption. congruence. }
    destruct (tab i) as [c|] eqn:ET; [|rewrite R2 in J by exact ET; destruct J].
    apply (IH3 i c ET) with (t := (r, x)) (t' := (r', x')); auto. apply Forall_forall. intros [q y] K. apply sub_in in K as (h & K & _). specialize (FO _ K). now inversion FO.
Qed.
Lemma tree_in_step t X e e' : tree_ok t X -> In e (map fst X) -> In e' (map fst X) -> length_class (en_stencil e) = length_class (en_stencil e') ->
  in_step (looks e) (looks e').
Proof.
  intros [F T] I I' LC. apply in_map_iff in I as (x & <- & I), I' as (x' & <- & I'). destruct (T (length_class (en_stencil (fst x)))) as [T1 T2].
  assert (C : In x (cls (length_class (en_stencil (fst x))) X)) by (apply filter_In; split; [exact I|apply N.eqb_refl]).
  assert (C' : In x' (cls (length_class (en_stencil (fst x))) X)) by (apply filter_In; split; [exact I'|apply N.eqb_eq; congruence]).
  destruct (t _) as [n|]; [|rewrite T1 in C by reflexivity; destruct C]. specialize (T2 n eq_refl).
  rewrite <- !look_of_looks. apply (repr_in_step n _ T2) with (t := ti x) (t' := ti x').
  - apply Forall_forall. intros y K. apply in_map_iff in K as (z & <- & K). apply filter_In in K as [K _]. rewrite Forall_forall in F. specialize (F z K).
    cbn [ti fst]. unfold tpath, mkpath. apply Forall_forall. intros q J. apply in_map_iff in J as (f & <- & J). cbn [fst]. exact (proj1 (Forall_forall _ _) (form_ok_oc _ F) f J).
  - now apply in_map.
  - now apply in_map.
Qed.

(** ** Unambiguous tables *)
Lemma unamb_not_repeats e e' : clear e e' -> clear e' e -> ~ repeats e e'.
Proof.
  intros C C' (R1 & R2 & R3 & R4 & R5). destruct (Compare_dec.le_ge_dec (nfixed e') (nfixed e)) as [L|L].
  - exact (proj2 (C R1) R2 R3 L R5).
  - apply (proj2 (C' (same_cell_sym _ _ R1)) R3 R2 L). apply fixed_agree_bits. intros i B. symmetry.
    apply (proj1 (fixed_agree_bits e (en_stencil e')) R5). now apply R4.
Qed.
Lemma fop_imp_in {T} (R S : T -> T -> Prop) l : (forall a b, In a l -> In b l -> R a b -> S a b) -> ForallOrdPairs R l -> ForallOrdPairs S l.
Proof.
  intros H F. induction F as [|a l A F IH]; constructor.
  - rewrite Forall_forall in *. intros b J. apply H; [now left|now right|auto].
  - apply IH. intros; apply H; try (now right); auto.
Qed.
Lemma encodings_read i e recs : encodings (kept i e recs) = encodings (read i e recs).
Proof.
  unfold read, encodings. induction (kept i e recs) as [|r l IH]; [reflexivity|]. cbn [flat_map filter]. unfold has_name at 1. destruct (r_mn r) eqn:M; cbn [flat_map]; rewrite IH; [reflexivity|].
  unfold rec_encs at 1. now rewrite M.
Qed.
Lemma accept_unamb_lemma uids annos nu incl0 excl0 recs : sizes32 recs -> room uids nu (List.length (read incl0 excl0 recs)) ->
  let K := read incl0 excl0 recs in unambiguous (encodings K) ->
  (exists s, make_decoder uids annos nu incl0 excl0 recs = Ok s) <-> named_all recs /\ uids_ok uids /\ in_order uids annos K /\ fitting (encodings K).
Proof.
  intros SZ RM K UN. destruct (accept_lemma uids annos nu incl0 excl0 recs SZ RM) as (_ & H1 & H2). fold K in H1, H2. split.
  2: { intros (A1 & A2 & A3 & A4). exact (H1 A1 A2 A3 A4). }
  intros [[b t] H]. destruct (H2 _ H) as (A1 & A2 & A3 & A4 & _). split; [exact A1|]. split; [exact A2|]. split; [exact A3|].
  assert (SE : separated (encodings (kept incl0 excl0 recs))).
  { rewrite encodings_read. eapply unamb_separated; [apply Permutation_refl|exact UN]. }
  unfold make_decoder in H. destruct (builder_new uids annos nu) as [b0| | |] eqn:EB; cbn [rbind] in H; try discriminate.
  destruct (configured _ _ _ _ _ _ _ _ _ EB H SE) as (X & P & TO & EX & _). rewrite encodings_read in EX. fold K in EX. split.
  - apply Forall_forall. intros e I. unfold encodings in I. apply in_flat_map in I as (r & I & J). rewrite Forall_forall in A4.
    assert (Q : forall e0, In e0 (firstn 1 (rec_encs r)) -> fixed_known e0) by (intros e0 J0; apply A4; apply in_flat_map; eauto).
    unfold rec_encs in J, Q. destruct (r_mn r) as [mn|]; [|destruct J]. destruct (r_overlay r); [destruct J|]. destruct (r_form r) as [fn|]; [|destruct J].
    destruct (get_form fn) as [fm| | |]; [|destruct J|destruct J|destruct J]. cbn [map firstn] in Q. specialize (Q _ (or_introl eq_refl)).
    apply (in_map_iff (fun st => mkEnc mn fm (r_ignore r) st (r_fixed r)) (r_stencil r :: r_alias r)) in J as (st & <- & _). exact Q.
  - eapply fop_imp_in; [|exact UN]. cbn beta. intros e e' I I' [C C']. split.
    + rewrite <- EX in I, I'. exact (tree_in_step t X e e' TO I I').
    + intros R. destruct (unamb_not_repeats e e' C C' R).
Qed.

(** ** Concrete cases *)
(** isa_rv64zba.json, as shipped: slli.uw has an alias stencil. *)
Definition zba : list irec := map M_Raw.rec_of G_Tables.isa_rv64zba.
Lemma zba_lemma : let K := read [] [] zba in sizes32 zba /\ room [] 1 (List.length K) /\ unambiguous (encodings K) /\
  List.length K = 8%nat /\ List.length (encodings K) = 9%nat /\ exists s, make_decoder [] [] 1 [] [] zba = Ok s.
Proof.
  split; [apply sizes_check; vm_compute; reflexivity|]. split; [apply room_check; vm_compute; reflexivity|].
  split; [apply unambiguousb_ok; vm_compute; reflexivity|]. split; [vm_compute; reflexivity|]. split; [vm_compute; reflexivity|].
  destruct (names_ok zba [] [] ltac:(vm_compute; reflexivity)) as (s & E & _). exists s. exact E.
Qed.
(** addi with its own stencil and that of add as alias stencils, and add. *)
Definition with_alias (l : list N) (r : irec) : irec :=
  mkIRec (r_mn r) (r_pseudo r) (r_stencil r) (r_fixed r) (r_ignore r) (r_xform r) (r_factory r) (r_expand r) (r_form r)
         (r_overlay r) l (r_tags r) (r_meta r).
Definition dropped : list irec :=
  (map (with_alias [0x13; 0x33]) (map M_Raw.rec_of (pick ["addi"%string] raw_rv64)) ++ map M_Raw.rec_of (pick ["add"%string] raw_rv64))%list.
Lemma dropped_encs : encodings (read [] [] dropped) =
  [mkEnc "addi" form_ISH ["func6"%string] 0x13 []; mkEnc "addi" form_ISH ["func6"%string] 0x13 []; mkEnc "addi" form_ISH ["func6"%string] 0x33 []; mkEnc "add" form_R [] 0x33 []].
Proof. vm_compute. reflexivity. Qed.
Lemma alias_refuted_lemma : exists recs s, make_decoder [] [] 1 [] [] recs = Ok s /\ ~ fitting (encodings (read [] [] recs)) /\
  name_of (decode (A := unit) (U := unit) s 0x33) = Ok "add"%string /\
  exists e, In e (encodings (read [] [] recs)) /\ en_mn e = "addi"%string /\ en_stencil e = 0x33.
Proof.
  destruct (names_ok dropped [0x33] [Ok "add"%string] ltac:(vm_compute; reflexivity)) as (s & E & Q). exists dropped, s.
  split; [exact E|]. rewrite dropped_encs. split; [|split; [cbn [map] in Q; injection Q; auto|]].
  - intros [_ H]. inversion H as [|? ? _ H1]; subst. inversion H1 as [|? ? _ H2]; subst. inversion H2 as [|? ? H3 _]; subst. inversion H3 as [|? ? H4 _]; subst.
    destruct H4 as [H4 _]. specialize (H4 eq_refl). vm_compute in H4. destruct H4 as [_ H4]. specialize (H4 eq_refl). destruct H4 as [_ H4]. specialize (H4 eq_refl). destruct H4 as [H4 _]. discriminate H4.
  - exists (mkEnc "addi" form_ISH ["func6"%string] 0x33 []). split; [right; right; now left|]. auto.
Qed.
