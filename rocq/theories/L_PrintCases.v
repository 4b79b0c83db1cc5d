(** Printing a decoder: concrete cases. *)
From Coq Require Import NArith PeanoNat List Bool String Ascii.
From Verif Require Import M_Base M_Field M_Forms M_Meta M_Extract M_Decoded M_Trie M_Builder M_DTable M_Raw M_Print.
From Verif Require Import S_Trie S_Table S_Shipped S_Print L_Claims G_Tables.
Import ListNotations.
Local Open Scope N_scope.
Local Open Scope string_scope.

Definition printed (recs : list irec) : option (res (list string)) :=
  match make_decoder [] [] 1 [] [] recs with Ok s => Some (print_tree s) | _ => None end.
Lemma printed_ok recs r : printed recs = Some r -> exists s, make_decoder [] [] 1 [] [] recs = Ok s /\ print_tree s = r.
Proof. unfold printed. destruct (make_decoder _ _ _ _ _ _) as [s| | |]; try discriminate. intros H. exists s. split; [reflexivity|congruence]. Qed.

Lemma abort_lemma : exists recs s, make_decoder [] [] 1 [] [] recs = Ok s /\ print_tree s = AssertFail.
Proof. exists small_swapped. apply printed_ok. vm_compute. reflexivity. Qed.

Definition pair_table : list irec := map rec_of isa_rv32zilsd.
Definition pair_text : list string := Eval vm_compute in match printed pair_table with Some (Ok t) => t | _ => [] end.
Lemma misnamed_lemma : exists recs s r n text, make_decoder [] [] 1 [] [] recs = Ok s /\ In r recs /\ asked r = Some n /\
  print_tree s = Ok text /\ Forall (fun l => mentions n l = false) text.
Proof.
  destruct (printed_ok pair_table (Ok pair_text) ltac:(vm_compute; reflexivity)) as (s & E & Q).
  exists pair_table, s. eexists _, "I_load_pair", pair_text. split; [exact E|]. split; [left; reflexivity|]. split; [vm_compute; reflexivity|].
  split; [exact Q|]. repeat constructor.
Qed.
Definition addi_only : list irec := map rec_of (pick ["addi"] raw_rv64).
Definition addi_mv : list irec := map rec_of (pick ["addi"; "mv"] raw_rv64).
Definition addi_text : list string := Eval vm_compute in match printed addi_only with Some (Ok t) => t | _ => [] end.
Lemma overlay_lemma : exists recs recs' s s' text ic, make_decoder [] [] 1 [] [] recs = Ok s /\
  make_decoder [] [] 1 [] [] recs' = Ok s' /\ print_tree s = Ok text /\ print_tree s' = Ok text /\
  name_of (decode (A := unit) (U := unit) s ic) = Ok "addi" /\ name_of (decode (A := unit) (U := unit) s' ic) = Ok "mv".
Proof.
  destruct (printed_ok addi_only (Ok addi_text) ltac:(vm_compute; reflexivity)) as (s & E & Q).
  destruct (printed_ok addi_mv (Ok addi_text) ltac:(vm_compute; reflexivity)) as (s' & E' & Q').
  destruct (names_ok addi_only [0x8093] [Ok "addi"] ltac:(vm_compute; reflexivity)) as (t & F & R).
  destruct (names_ok addi_mv [0x8093] [Ok "mv"] ltac:(vm_compute; reflexivity)) as (t' & F' & R').
  assert (t = s) as -> by congruence. assert (t' = s') as -> by congruence. cbn [map] in R, R'. injection R as R. injection R' as R'.
  exists addi_only, addi_mv, s, s', addi_text, 0x8093. auto 10.
Qed.
Lemma printed_test recs (P : list string -> bool) : match printed recs with Some (Ok t) => P t | _ => false end = true ->
  exists s text, make_decoder [] [] 1 [] [] recs = Ok s /\ print_tree s = Ok text /\ P text = true.
Proof.
  unfold printed. destruct (make_decoder _ _ _ _ _ _) as [s| | |]; try discriminate. destruct (print_tree s) as [t| | |] eqn:E; try discriminate.
  intros H. exists s, t. auto.
Qed.
Lemma small_print : exists s text, make_decoder [] [] 1 [] [] small = Ok s /\ print_tree s = Ok text /\
  List.length (filter about_instruction text) = 11%nat /\ (11 < List.length text)%nat.
Proof.
  destruct (printed_test small (fun t => Nat.eqb (List.length (filter about_instruction t)) 11 && Nat.ltb 11 (List.length t))%bool
              ltac:(vm_compute; reflexivity)) as (s & t & E & Q & H).
  apply andb_true_iff in H as [H1 H2]. apply Nat.eqb_eq in H1. apply Nat.ltb_lt in H2. exists s, t. auto.
Qed.
