(** Claim C56: which instruction tables are accepted.  The specification is S_Accept: it speaks
    of the records alone, in the order in which they are read. *)
From Coq Require Import NArith List Bool String Permutation.
From Verif Require Import M_Base M_Meta M_Decoded M_Trie M_Builder M_DTable.
From Verif Require Import S_Trie S_Table S_Shipped S_Accept L_Accept L_AcceptOrder L_Claims L_AcceptAlias.
Import ListNotations.
Local Open Scope N_scope.

(** C56.  A table is accepted if every record says what it is, the user's UIDs are usable, every
    record is acceptable after those before it, and the encodings can stand side by side. *)
Theorem C56_accepted : forall uids annos nu incl excl recs,
  let K := read incl excl recs in
  sizes32 recs -> room uids nu (List.length K) ->
  named_all recs -> uids_ok uids -> in_order uids annos K -> fitting (encodings K) ->
  exists s, make_decoder uids annos nu incl excl recs = Ok s.
Proof. exact (fun u a n i e r S R => proj1 (proj2 (accept_lemma u a n i e r S R))). Qed.
Print Assumptions C56_accepted.
Example C56_accepted_ex : let K := read [] [] small in sizes32 small /\ room [] 1 (List.length K) /\ named_all small /\ uids_ok [] /\
  in_order (A := anno) [] [] K /\ fitting (encodings K) /\ List.length (encodings K) = 11%nat.
Proof. exact small_case_lemma. Qed.
(** C56.  An accepted table has these properties, its alias stencils aside. *)
Theorem C56_refused : forall uids annos nu incl excl recs s,
  let K := read incl excl recs in
  sizes32 recs -> room uids nu (List.length K) ->
  make_decoder uids annos nu incl excl recs = Ok s ->
  named_all recs /\ uids_ok uids /\ in_order uids annos K /\ fitting (stencils K).
Proof. exact (fun u a n i e r s S R => proj2 (proj2 (accept_lemma u a n i e r S R)) s). Qed.
Print Assumptions C56_refused.
Example C56_refused_ex : exists s, make_decoder [] [] 1 [] [] small = Ok s.
Proof. exact small_accepted_lemma. Qed.
(** C56.  Without alias stencils: accepted exactly then. *)
Theorem C56_exactly : forall uids annos nu incl excl recs,
  let K := read incl excl recs in
  sizes32 recs -> room uids nu (List.length K) -> Forall (fun r => r_alias r = []) K ->
  (exists s, make_decoder uids annos nu incl excl recs = Ok s) <->
  named_all recs /\ uids_ok uids /\ in_order uids annos K /\ fitting (encodings K).
Proof. exact (fun u a n i e r S R => accept_exactly_lemma u a n i e r S R). Qed.
Print Assumptions C56_exactly.
(** C56.  With alias stencils: exactly then too, if the fixed fields tell all encodings apart. *)
Theorem C56_unambiguous : forall uids annos nu incl excl recs,
  let K := read incl excl recs in
  sizes32 recs -> room uids nu (List.length K) -> unambiguous (encodings K) ->
  (exists s, make_decoder uids annos nu incl excl recs = Ok s) <->
  named_all recs /\ uids_ok uids /\ in_order uids annos K /\ fitting (encodings K).
Proof. exact (fun u a n i e r S R => accept_unamb_lemma u a n i e r S R). Qed.
Print Assumptions C56_unambiguous.
Example C56_unambiguous_ex : let K := read [] [] zba in sizes32 zba /\ room [] 1 (List.length K) /\ unambiguous (encodings K) /\
  List.length K = 8%nat /\ List.length (encodings K) = 9%nat /\ exists s, make_decoder [] [] 1 [] [] zba = Ok s.
Proof. exact zba_lemma. Qed.
(** C56.  Otherwise not: an alias stencil that clashes with another instruction is dropped, and
    the table accepted, if an earlier one of the same record is redundant. *)
Theorem C56_alias_refuted : exists recs s, make_decoder [] [] 1 [] [] recs = Ok s /\ ~ fitting (encodings (read [] [] recs)) /\
  name_of (decode (A := unit) (U := unit) s 0x33) = Ok "add"%string /\
  exists e, In e (encodings (read [] [] recs)) /\ en_mn e = "addi"%string /\ en_stencil e = 0x33.
Proof. exact alias_refuted_lemma. Qed.
Print Assumptions C56_alias_refuted.
(** C56.  A table that is not accepted is refused by an exception or a failed assertion. *)
Theorem C56_no_ub : forall uids annos nu incl excl recs,
  sizes32 recs -> room uids nu (List.length (read incl excl recs)) ->
  make_decoder uids annos nu incl excl recs <> UB.
Proof. exact (fun u a n i e r S R => proj1 (accept_lemma u a n i e r S R)). Qed.
Print Assumptions C56_no_ub.
(** C56.  If no record refers to another one, their order does not matter. *)
Theorem C56_any_order : forall uids annos nu incl excl recs recs',
  sizes32 recs -> room uids nu (List.length (read incl excl recs)) -> Permutation recs recs' ->
  Forall (fun r => r_overlay r = None /\ r_expand r = ""%string /\ r_alias r = []) (read incl excl recs) ->
  (exists s, make_decoder uids annos nu incl excl recs = Ok s) <->
  (exists s, make_decoder uids annos nu incl excl recs' = Ok s).
Proof. exact any_order_lemma. Qed.
Print Assumptions C56_any_order.
Example C56_any_order_ex : sizes32 two_ways /\ room [] 1 (List.length (read [] [] two_ways)) /\ Permutation two_ways two_ways_swapped /\
  Forall (fun r => r_overlay r = None /\ r_expand r = ""%string /\ r_alias r = []) (read [] [] two_ways) /\ List.length (read [] [] two_ways) = 2%nat.
Proof. exact two_ways_case_lemma. Qed.
(** C56.  In general it does: a compressed instruction before its expansion is refused. *)
Theorem C56_any_order_refuted : exists recs,
  (exists s, make_decoder [] [] 1 [] [] recs = Ok s) /\ ~ exists s, make_decoder [] [] 1 [] [] (rev recs) = Ok s.
Proof. exact order_refuted_lemma. Qed.
Print Assumptions C56_any_order_refuted.
