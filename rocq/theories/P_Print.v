(** Claim C57: what printing a decoder shows.  The specification is S_Print. *)
From Coq Require Import NArith List Bool String Permutation.
From Verif Require Import M_Base M_Meta M_Decoded M_Trie M_Builder M_DTable M_Print.
From Verif Require Import S_Trie S_Table S_Shipped S_Print L_Claims L_Print L_PrintCases.
Import ListNotations.
Local Open Scope N_scope.

(** C57 (partial: tables whose encodings can be told apart; six extractors go by another name).
    Printing a decoder gives a text with exactly one line for every encoding of the table, and
    the line shows the mnemonic, the fixed bits, the extractor and the factory. *)
Theorem C57_lists_partial : forall uids annos nu incl excl recs s,
  make_decoder uids annos nu incl excl recs = Ok s -> separated (encodings (kept incl excl recs)) ->
  exists text L, print_tree s = Ok text /\ Permutation L (filter about_instruction text) /\
  Forall2 (fun e l => exists r, In r (kept incl excl recs) /\ In e (rec_encs r) /\ shows (kept incl excl recs) r e l)
    (encodings (kept incl excl recs)) L.
Proof. exact lists_lemma. Qed.
Print Assumptions C57_lists_partial.
Example C57_ex : exists s text, make_decoder [] [] 1 [] [] small = Ok s /\ separated (encodings (kept [] [] small)) /\
  print_tree s = Ok text /\ List.length (encodings (kept [] [] small)) = 11%nat /\
  List.length (filter about_instruction text) = 11%nat /\ (11 < List.length text)%nat.
Proof.
  destruct small_print as (s & text & E & Q & L & M). destruct small_decoder as (_ & _ & _ & WF & _).
  exists s, text. split; [exact E|]. split; [exact (wf_cells _ WF)|]. split; [exact Q|]. split; [vm_compute; reflexivity|]. auto.
Qed.
(** C57 is false of other accepted tables: printing the decoder aborts. *)
Theorem C57_abort_refuted : exists recs s, make_decoder [] [] 1 [] [] recs = Ok s /\ print_tree s = AssertFail.
Proof. exact abort_lemma. Qed.
Print Assumptions C57_abort_refuted.
(** C57 is false of some extractors: nowhere in the text is the one the record asks for. *)
Theorem C57_extractor_refuted : exists recs s r n text, make_decoder [] [] 1 [] [] recs = Ok s /\
  In r recs /\ asked r = Some n /\ print_tree s = Ok text /\ Forall (fun l => mentions n l = false) text.
Proof. exact misnamed_lemma. Qed.
Print Assumptions C57_extractor_refuted.
(** The text does not determine what a decoder answers: overlays are not shown. *)
Theorem C57_overlays_refuted : exists recs recs' s s' text ic, make_decoder [] [] 1 [] [] recs = Ok s /\
  make_decoder [] [] 1 [] [] recs' = Ok s' /\ print_tree s = Ok text /\ print_tree s' = Ok text /\
  name_of (decode (A := unit) (U := unit) s ic) = Ok "addi"%string /\
  name_of (decode (A := unit) (U := unit) s' ic) = Ok "mv"%string.
Proof. exact overlay_lemma. Qed.
Print Assumptions C57_overlays_refuted.
