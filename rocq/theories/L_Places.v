(** Lemmas: the fields of the registered forms (C24). *)
From Coq Require Import NArith List Bool String Lia.
From Verif Require Import M_Base M_Field M_Forms S_Places.
Import ListNotations.
Local Open Scope N_scope.

Lemma form_in fn fm : get_form fn = Ok fm -> In fm form_registry /\ fm_name fm = fn.
Proof.
  unfold get_form. destruct (find _ form_registry) as [g|] eqn:F; intros H; [|discriminate]. assert (fm = g) as -> by congruence.
  apply find_some in F as [I E]. split; [exact I|now apply String.eqb_eq].
Qed.
Definition names_checked (fm : form) : bool :=
  forallb (fun p : string * nat => match nth_error (fm_fields fm) (snd p) with Some f => String.eqb (f_name f) (fst p) | None => false end) (fm_names fm) &&
  forallb (fun f => existsb (fun p : string * nat => String.eqb (f_name f) (fst p)) (fm_names fm)) (fm_fields fm).
Lemma names_all : forallb names_checked form_registry = true.
Proof. vm_compute. reflexivity. Qed.
Fixpoint distinct (l : list string) : bool :=
  match l with [] => true | x :: l => if existsb (String.eqb x) l then false else distinct l end.
Lemma distinct_nodup l : distinct l = true -> NoDup l.
Proof.
  induction l as [|x l IH]; cbn [distinct]; [constructor|]. destruct (existsb _ _) eqn:E; [discriminate|]. intros H. constructor; [|auto].
  intros I. rewrite <- not_true_iff_false in E. apply E, existsb_exists. exists x. split; [exact I|apply String.eqb_refl].
Qed.
Lemma names_unique : forallb (fun fm => distinct (map f_name (fm_fields fm))) form_registry = true.
Proof. vm_compute. reflexivity. Qed.
Lemma field_named_lemma fn fm n : get_form fn = Ok fm ->
  (forall f, get_field fm n = Ok f <-> In f (fm_fields fm) /\ f_name f = n) /\
  ((forall f, In f (fm_fields fm) -> f_name f <> n) -> get_field fm n = Throw EBuildErrorUnknownFormField).
Proof.
  intros H. apply form_in in H as [I _]. pose proof names_all as A. pose proof names_unique as U. rewrite forallb_forall in A, U. specialize (A _ I). specialize (U _ I).
  apply distinct_nodup in U as ND. clear U I. unfold names_checked in A. apply andb_true_iff in A as [A1 A2]. rewrite forallb_forall in A1, A2.
  assert (UQ : forall f g, In f (fm_fields fm) -> In g (fm_fields fm) -> f_name f = f_name g -> f = g).
  { clear - ND. induction (fm_fields fm) as [|h l IH]; [intros ? ? []|]. cbn [map] in ND. inversion ND as [|? ? N1 N2]; subst. intros f g [<-|If] [<-|Ig] Q; auto.
    - exfalso. apply N1. rewrite Q. now apply in_map.
    - exfalso. apply N1. rewrite <- Q. now apply in_map. }
  unfold get_field, get_field_index. destruct (find (fun p : string * nat => String.eqb (fst p) n) (fm_names fm)) as [[n' i]|] eqn:F.
  - apply find_some in F as [I E]. cbn [fst] in E. apply String.eqb_eq in E. subst n'. cbn [rbind]. specialize (A1 _ I). cbn [fst snd] in A1.
    destruct (nth_error (fm_fields fm) i) as [g|] eqn:G; [|discriminate A1]. apply String.eqb_eq in A1. apply nth_error_In in G. split.
    + intros f. split; [intros Q; assert (f = g) as -> by congruence; auto|]. intros [If Q]. f_equal. apply UQ; auto. congruence.
    + intros Q. exfalso. exact (Q g G A1).
  - cbn [rbind]. split; [|reflexivity]. intros f. split; [discriminate|]. intros [If Q]. exfalso. specialize (A2 _ If). apply existsb_exists in A2 as (p & Ip & E).
    apply (find_none _ _ F) in Ip. apply String.eqb_eq in E. rewrite <- E, Q, String.eqb_refl in Ip. discriminate Ip.
Qed.
Lemma places_checked : forallb (fun fm => if form_bits fm =? 32 then forallb (fun f => forallb (fun p => if String.eqb (f_name f) (fst p)
  then (f_rpos f =? fst (snd p)) && (f_len f =? snd (snd p)) else true) manual_places) (fm_fields fm) else true) form_registry = true.
Proof. vm_compute. reflexivity. Qed.
Lemma places_lemma fn fm f lo len : get_form fn = Ok fm -> form_bits fm = 32 -> In f (fm_fields fm) -> In (f_name f, (lo, len)) manual_places ->
  f_rpos f = lo /\ f_len f = len.
Proof.
  intros H B I P. apply form_in in H as [R _]. pose proof places_checked as C. rewrite forallb_forall in C. specialize (C _ R). rewrite B in C. cbv beta iota in C.
  change (32 =? 32) with true in C. cbv iota in C. rewrite forallb_forall in C. specialize (C _ I). rewrite forallb_forall in C. specialize (C _ P). cbn [fst snd] in C.
  rewrite String.eqb_refl in C. apply andb_true_iff in C as [C1 C2]. split; now apply N.eqb_eq.
Qed.
Lemma cover_checked : forallb (fun fm => forallb (fun i => existsb (fun f => (f_rpos f <=? i) && (i <? f_rpos f + f_len f)) (fm_fields fm)) (map N.of_nat (seq 0 (N.to_nat (form_bits fm)))) &&
  forallb (fun f => f_rpos f + f_len f <=? form_bits fm) (fm_fields fm)) form_registry = true.
Proof. vm_compute. reflexivity. Qed.
Lemma cover_lemma fn fm i : get_form fn = Ok fm -> (i < form_bits fm <-> exists f, In f (fm_fields fm) /\ f_rpos f <= i < f_rpos f + f_len f).
Proof.
  intros H. apply form_in in H as [R _]. pose proof cover_checked as C. rewrite forallb_forall in C. specialize (C _ R). apply andb_true_iff in C as [C1 C2].
  rewrite forallb_forall in C1, C2. split.
  - intros L. assert (In i (map N.of_nat (seq 0 (N.to_nat (form_bits fm))))) as Ii by (apply in_map_iff; exists (N.to_nat i); split; [apply N2Nat.id|apply in_seq; lia]).
    apply C1, existsb_exists in Ii as (f & If & Q). apply andb_true_iff in Q as [Q1 Q2]. apply N.leb_le in Q1. apply N.ltb_lt in Q2. eauto.
  - intros (f & If & Q). apply C2, N.leb_le in If. lia.
Qed.
