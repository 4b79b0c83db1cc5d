(** Lemmas: concrete tables that are refused (C58). *)
From Coq Require Import NArith List Bool String.
From Verif Require Import M_Base M_Meta M_Builder M_DTable M_Raw S_Table S_Accept S_Blame S_Shipped S_BlameTables L_Accept L_AcceptOrder L_BlameTree L_Blame.
Import ListNotations.
Local Open Scope N_scope.

Lemma reason_lemma uids annos nu incl excl recs x :
  sizes32 recs -> room uids nu (List.length (read incl excl recs)) ->
  make_decoder uids annos nu incl excl recs = Throw x ->
  uid_fault uids x \/
  exists Q r R s, recs = (Q ++ r :: R)%list /\ make_decoder uids annos nu incl excl Q = Ok s /\
    (r_mn r = None \/ wantedb incl excl (r_tags r) = true) /\ fault annos (read incl excl Q) r x.
Proof. intros S R H. pose proof (blame_lemma uids annos nu incl excl recs S R) as B. cbv zeta in B. rewrite H in B. exact B. Qed.
Lemma abort_lemma uids annos nu incl excl recs :
  sizes32 recs -> room uids nu (List.length (read incl excl recs)) ->
  make_decoder uids annos nu incl excl recs = AssertFail ->
  exists Q r R s, recs = (Q ++ r :: R)%list /\ make_decoder uids annos nu incl excl Q = Ok s /\
    (r_mn r = None \/ wantedb incl excl (r_tags r) = true) /\ abort uids (read incl excl Q) r.
Proof. intros S R H. pose proof (blame_lemma uids annos nu incl excl recs S R) as B. cbv zeta in B. rewrite H in B. exact B. Qed.
Definition throws_b (recs : list irec) (x : exn) : bool :=
  match make_decoder [] [] 1 [] [] recs, x with
  | Throw EBuildErrorFieldsIncompatible, EBuildErrorFieldsIncompatible | Throw EBuildErrorOpcodeConflict, EBuildErrorOpcodeConflict
  | Throw EBuildErrorDuplicateMnemonic, EBuildErrorDuplicateMnemonic | Throw EBuildErrorUnknownExpansion, EBuildErrorUnknownExpansion
  | Throw EBuildErrorUnknownForm, EBuildErrorUnknownForm | Throw EBuildErrorUnknownFormField, EBuildErrorUnknownFormField
  | Throw EBuildErrorOverlayBaseNotFound, EBuildErrorOverlayBaseNotFound => true
  | _, _ => false
  end.
Lemma throws_ok recs x : throws_b recs x = true -> make_decoder [] [] 1 [] [] recs = Throw x.
Proof.
  unfold throws_b. destruct (make_decoder [] [] 1 [] [] recs) as [s|y| |]; try discriminate. destruct y; try discriminate; destruct x; try discriminate; reflexivity.
Qed.
Lemma reason_cases : Forall (fun p => sizes32 (fst p) /\ room [] 1 (List.length (read [] [] (fst p))) /\ make_decoder [] [] 1 [] [] (fst p) = Throw (snd p))
  [(t_incompatible, EBuildErrorFieldsIncompatible); (t_short_after, EBuildErrorOpcodeConflict); (t_same_name, EBuildErrorDuplicateMnemonic);
   (t_no_expansion, EBuildErrorUnknownExpansion); (t_no_form, EBuildErrorUnknownForm); (t_no_field, EBuildErrorUnknownFormField);
   (t_overlay_lost, EBuildErrorOverlayBaseNotFound); (t_overlay_compressed, EBuildErrorOverlayBaseNotFound)].
Proof.
  repeat constructor; cbn [fst snd]; try (apply sizes_check; vm_compute; reflexivity); try (apply throws_ok; vm_compute; reflexivity);
  apply room_check; vm_compute; reflexivity.
Qed.
Lemma aborts_ok recs : match make_decoder [] [] 1 [] [] recs with AssertFail => true | _ => false end = true -> make_decoder [] [] 1 [] [] recs = AssertFail.
Proof. destruct (make_decoder [] [] 1 [] [] recs); try discriminate. reflexivity. Qed.
Lemma abort_cases : Forall (fun t => sizes32 t /\ room [] 1 (List.length (read [] [] t)) /\ make_decoder [] [] 1 [] [] t = AssertFail) [t_short_before; t_fixed_twice].
Proof.
  repeat constructor; try (apply sizes_check; vm_compute; reflexivity); try (apply aborts_ok; vm_compute; reflexivity); apply room_check; vm_compute; reflexivity.
Qed.
Lemma thrown_refuted_lemma : exists a b, make_decoder [] [] 1 [] [] [a; b] = Throw EBuildErrorOpcodeConflict /\ make_decoder [] [] 1 [] [] [b; a] = AssertFail.
Proof.
  destruct t_short_after as [|a [|b [|c l]]] eqn:E; [vm_compute in E; discriminate E..| |vm_compute in E; discriminate E].
  exists a, b. split.
  - rewrite <- E. apply throws_ok. vm_compute. reflexivity.
  - assert ([b; a] = t_short_before) as ->; [|apply aborts_ok; vm_compute; reflexivity].
    transitivity (rev t_short_after); [rewrite E; reflexivity|]. vm_compute. reflexivity.
Qed.
Lemma base_refuted_lemma : exists P r o base s, jo_base o = Some base /\ r_overlay r = Some o /\ (exists r', In r' P /\ is_inst r' base) /\
  make_decoder [] [] 1 [] [] P = Ok s /\ make_decoder [] [] 1 [] [] (P ++ [r]) = Throw EBuildErrorOverlayBaseNotFound.
Proof.
  destruct (over "c.lwsp") as [|r [|? ?]] eqn:E; [vm_compute in E; discriminate E| |vm_compute in E; discriminate E].
  destruct (make_decoder [] [] 1 [] [] lwsp) as [s| | |] eqn:ES; [|exfalso; assert (Q : match make_decoder [] [] 1 [] [] lwsp with Ok _ => true | _ => false end = true) by (vm_compute; reflexivity); rewrite ES in Q; discriminate Q..].
  exists lwsp, r, (mkJO (Some "c.lwsp"%string) (Some [0xfff; 0x2])), "c.lwsp"%string, s.
  split; [reflexivity|]. split; [|split; [|split; [exact ES|]]].
  - transitivity (match over "c.lwsp" with r :: _ => r_overlay r | [] => None end); [rewrite E; reflexivity|]. vm_compute. reflexivity.
  - exists (nth 1 lwsp r). split; [apply nth_In; vm_compute; repeat constructor|]. vm_compute. auto.
  - assert (H : make_decoder [] [] 1 [] [] t_overlay_compressed = Throw EBuildErrorOverlayBaseNotFound) by (apply throws_ok; vm_compute; reflexivity).
    unfold t_overlay_compressed in H. rewrite E in H. exact H.
Qed.
