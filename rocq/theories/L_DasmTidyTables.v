(** Claim C50, punctuation: the lines of the shipped tables. *)
From Coq Require Import NArith List Bool String Lia.
From Verif Require Import M_Base M_Field M_Forms M_Meta M_OperandInfo M_Extract M_Decoded M_Trie M_Builder M_DTable M_Raw.
From Verif Require Import S_Slots S_Table S_Shipped S_Dasm L_Readable L_Claims L_Shipped L_Manual L_ManualFull L_Dasm L_DasmTables L_DasmTidy.
Import ListNotations.
Local Open Scope N_scope.

Definition some_operandb (c : xcls) (ffm : N) : bool :=
  match c with
  | X_C0 | X_C2 | X_CA | X_R | X_CI | X_CI_addi | X_CI_addiw => true
  | X_C2_mv => Nat.eqb (List.length (live ffm (in_opcode c))) (List.length (in_opcode c))
  | _ => match in_opcode c with [] => true | _ => match live ffm (in_opcode c) with [] => false | _ => true end end
  end.
Lemma filter_all {A} (f : A -> bool) l : List.length (filter f l) = List.length l -> filter f l = l.
Proof.
  induction l as [|x l IH]; [reflexivity|]. cbn. destruct (f x); cbn; [intros [= H]; now rewrite IH|].
  intros H. assert (List.length (filter f l) <= List.length l)%nat by (clear; induction l as [|y l IH]; cbn; [lia|destruct (f y); cbn; lia]). lia.
Qed.
Lemma some_operandb_ok c ffm : some_operandb c ffm = true -> some_operand c ffm.
Proof.
  unfold some_operandb, some_operand. destruct c; try (intros; exact I);
    try (intros H _ L; rewrite L in H; destruct (in_opcode _); discriminate || (cbn in L; try discriminate; congruence));
    try (intros H N L; rewrite L in H; destruct (in_opcode _); [now apply N|discriminate]).
  intros H. apply PeanoNat.Nat.eqb_eq in H. unfold live in *. now apply filter_all.
Qed.
Definition tidy_okb (T : list irec) : bool :=
  forallb (fun r => forallb (fun q => some_operandb (snd (fst (fst q))) (snd (fst q))) (readings T r)) T.
Lemma tidy_ok T : shipped T -> tidy_okb T = true.
Proof. intros []; vm_compute; reflexivity. Qed.
Lemma tidy_shipped_lemma T recs uids annos nu incl excl s : shipped T -> subseq recs T -> 0 < nu < w32 ->
  make_decoder uids annos nu incl excl recs = Ok s ->
  forall A U ic v t, decode (A := A) (U := U) s ic = Ok v -> info_dasm v = Ok t -> tidy t = true.
Proof.
  intros SH SB HN HD A U ic v t E D.
  destruct (view T SH recs uids annos nu incl excl s SB HN HD A U ic v E) as (r & e & c & ffm & Ir & Ie & MT & IR & X & IC & DI & O & RO).
  destruct (reading_parts _ _ _ _ _ RO) as [PL _].
  pose proof (tidy_ok T SH) as K. unfold tidy_okb in K. rewrite forallb_forall in K. specialize (K _ Ir).
  rewrite forallb_forall in K. specialize (K _ IR). cbn [fst snd] in K. apply some_operandb_ok in K.
  unfold info_dasm in D. rewrite X in D. exact (tidy_lemma _ _ _ _ _ _ PL K D).
Qed.

(** ** A comma too many *)
Lemma comma_lemma : exists c ffm ic d t, decode_info "pause" 1 (ext c ffm) meta_rv64i ic = Ok d /\
  x_dasm (ext c ffm) "pause" ic meta_rv64i = Ok t /\ t = tabbed "pause" ", +0x10" /\ tidy t = false.
Proof.
  exists X_I, 0xF8F80, 0x0100000F. destruct (decode_info "pause" 1 (ext X_I 0xF8F80) meta_rv64i 0x0100000F) as [d| | |] eqn:E; [|vm_compute in E; discriminate E..].
  exists d, (tabbed "pause" ", +0x10"). split; [reflexivity|]. split; [vm_compute; reflexivity|]. split; reflexivity.
Qed.
Lemma tidy_case : S_Dasm.plain "prefetch.i" /\ some_operand X_I 0xF80 /\
  (x_dasm (ext X_I 0xF80) "prefetch.i" 0x00056013 meta_rv64i = Ok (tabbed "prefetch.i" "x10, +0x0")).
Proof. split; [split; [discriminate|reflexivity]|]. split; [intros _; vm_compute; discriminate|]. vm_compute; reflexivity. Qed.
