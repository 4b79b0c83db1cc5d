(** Lemmas: the name tables of the meta-data, and combined queries. *)
From Coq Require Import NArith List Bool Lia String.
From Verif Require Import M_Base M_Meta M_OperandInfo M_Decoded S_Meta L_Meta.
Import ListNotations.
Local Open Scope N_scope.

Lemma find_named {T} (l : list (string * T)) n p : find (fun p => String.eqb (fst p) n) l = Some p -> In p l /\ fst p = n.
Proof. intros H. apply find_some in H as [H1 H2]. split; [exact H1|]. now apply String.eqb_eq. Qed.
Lemma itype_in n b : itype_of n = Some b -> exists j, In (n, j) tmap /\ b = N.shiftl 1 j.
Proof.
  unfold itype_of. destruct (find _ tmap) as [[n' j]|] eqn:E; [|discriminate]. cbn [option_map snd]. intros H.
  apply find_named in E as [I Q]. cbn in Q. subst n'. exists j. split; [exact I|congruence].
Qed.
Definition keys_unique (l : list (string * N)) : bool :=
  forallb (fun p => (snd p <? 64) && forallb (fun q => negb (snd p =? snd q) || String.eqb (fst p) (fst q)) l) l.
Lemma type_names_lemma a b s t i : itype_of a = Some s -> itype_of b = Some t -> has s i -> has t i -> a = b /\ i < 64.
Proof.
  intros A B. apply itype_in in A as (j & Ia & ->). apply itype_in in B as (j' & Ib & ->). unfold has. rewrite !N.shiftl_1_l, !N.pow2_bits_eqb, !N.eqb_eq.
  intros -> ->. assert (K : keys_unique tmap = true) by (vm_compute; reflexivity). unfold keys_unique in K. rewrite forallb_forall in K.
  specialize (K _ Ia). apply andb_true_iff in K as [K1 K2]. cbn [snd fst] in *. rewrite forallb_forall in K2. specialize (K2 _ Ib). cbn [snd fst] in K2.
  rewrite N.eqb_refl in K2. cbn in K2. split; [now apply String.eqb_eq|now apply N.ltb_lt].
Qed.
Lemma type_single_lemma n s : itype_of n = Some s -> exists i, forall j, has s j <-> j = i.
Proof. intros H. apply itype_in in H as (i & _ & ->). exists i. intros j. unfold has. rewrite N.shiftl_1_l, N.pow2_bits_eqb, N.eqb_eq. split; auto. Qed.

Lemma field_names_lemma n f : get_fid n = Some f <-> field_name f = Some n.
Proof.
  split.
  - unfold get_fid. destruct (find _ ofimap) as [[n' g]|] eqn:E; [|discriminate]. cbn. intros [= <-].
    apply find_named in E as [I Q]. cbn in Q. subst n'. cbn in I.
    repeat (destruct I as [I|I]; [injection I as <- <-; reflexivity|]). destruct I.
  - destruct f; cbn; intros H; try discriminate; injection H as <-; reflexivity.
Qed.

Lemma ext_combined_lemma d t :
  (is_ext_type d t = true <-> all_in t (d_ext d)) /\
  (is_ext_type_any d t = true <-> exists i, has t i /\ has (d_ext d) i).
Proof.
  unfold is_ext_type, is_ext_type_any. split; [rewrite N.eqb_eq; apply land_sub|]. rewrite negb_true_iff, N.eqb_neq. split.
  - intros H. exists (N.log2 (N.land t (d_ext d))). pose proof (N.bit_log2 _ H) as B. rewrite N.land_spec, andb_true_iff in B. exact B.
  - intros (i & A & B) E. unfold has in *. pose proof (N.land_spec t (d_ext d) i) as S. rewrite E, A, B, N.bits_0 in S. discriminate.
Qed.
