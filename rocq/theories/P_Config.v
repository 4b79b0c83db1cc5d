(** Claim C63: which configurations are accepted, and what of them applies to pseudo-instructions.
    [make_context c nu] is makeContext (and the construction of a Mavis object) with the
    configuration [c], [nu] the process's UID counter; the specification is S_Config. *)
From Coq Require Import NArith List Bool String.
From Verif Require Import M_Base M_Meta M_Decoded M_Registry M_Builder M_DTable M_Direct M_Pseudo M_Context.
From Verif Require Import S_Trie S_Table S_Direct S_Pseudo S_Accept S_Blame S_Anno S_Config L_Config L_PseudoCases L_ConfigCases.
Import ListNotations.
Local Open Scope N_scope.

(** C63.  A set of pseudo-instructions is accepted exactly when no two have the same name and all
    that their records name is known (and the user's UIDs are usable); otherwise an exception
    says what is wrong with the first record that is not in order. *)
Theorem C63_pseudos : forall uids annos nu recs,
  sizes32 (map fst recs) -> room uids nu (List.length (pseudo_names recs)) ->
  ((exists b, make_pseudos uids annos nu recs = Ok b) <-> uids_ok uids /\ pseudos_ok recs) /\
  (forall x, make_pseudos uids annos nu recs = Throw x -> uid_fault uids x \/ first_fault recs x) /\
  make_pseudos uids annos nu recs <> AssertFail /\ make_pseudos uids annos nu recs <> UB.
Proof. exact pseudos_accepted_lemma. Qed.
Print Assumptions C63_pseudos.

(** C63.  A configuration in which everything is in order is accepted. *)
Theorem C63_accepted : forall A U c nu, sizes32 (map fst (c_recs c)) -> enough c nu -> config_ok c ->
  exists v, make_context (A := A) (U := U) c nu = Ok v.
Proof. exact (fun A U c nu S R => proj1 (proj2 (config_lemma (A := A) (U := U) c nu S R))). Qed.
Print Assumptions C63_accepted.
(** C63.  Only such configurations are, the alias stencils of instructions aside (C56); in
    particular not without them, or if the encodings are unambiguous. *)
Theorem C63_only : forall A U c nu v, sizes32 (map fst (c_recs c)) -> enough c nu -> make_context (A := A) (U := U) c nu = Ok v ->
  (uids_ok (c_uids c) /\ ~ S_Anno.repeats (c_files c) /\ named_all (map fst (c_recs c)) /\
   in_order (c_uids c) (List.concat (c_files c)) (read_of c) /\ fitting (stencils (read_of c)) /\ pseudos_ok (c_recs c)) /\
  (clear_cut (read_of c) -> config_ok c).
Proof. exact (fun A U c nu v S R H => conj (proj1 (proj2 (proj2 (config_lemma (A := A) (U := U) c nu S R))) v H) (fun K => proj2 (proj2 (proj2 (config_lemma (A := A) (U := U) c nu S R))) K v H)). Qed.
Print Assumptions C63_only.
(** Thirteen shipped instructions and three pseudo-instructions, with annotations, a user's UID
    and an override. *)
Example C63_accepted_ex : sizes32 (map fst (c_recs whole_cfg)) /\ enough whole_cfg 1 /\ clear_cut (read_of whole_cfg) /\ config_ok whole_cfg /\
  List.length (read_of whole_cfg) = 13%nat /\ pseudo_names (c_recs whole_cfg) = ["P0"; "P1"; "blt"]%string /\
  exists x nu, make_context (A := unit) (U := unit) whole_cfg 1 = Ok (x, nu).
Proof. exact whole_case. Qed.
(** C63.  The exception is about the user's UIDs, an annotation file that describes an instruction
    twice, the instruction records (C58), or the first pseudo-instruction that is not in order. *)
Theorem C63_refused : forall A U c nu x, sizes32 (map fst (c_recs c)) -> enough c nu ->
  make_context (A := A) (U := U) c nu = Throw x ->
  uid_fault (c_uids c) x \/ (x = EAnnotationNotUniqueInFile /\ S_Anno.repeats (c_files c)) \/
  (~ S_Anno.repeats (c_files c) /\ forall annos, anno_files (c_ovs c) (c_files c) [] = Ok annos ->
     make_decoder (c_uids c) annos nu (c_incl c) (c_excl c) (map fst (c_recs c)) = Throw x) \/
  (first_fault (c_recs c) x /\ ~ pseudos_ok (c_recs c)).
Proof. exact refused_lemma. Qed.
Print Assumptions C63_refused.
Example C63_refused_ex :
  Forall (fun p => sizes32 (map fst (fst p)) /\ enough (pseudos_only (fst p)) 1 /\ make_context (A := unit) (U := unit) (pseudos_only (fst p)) 1 = Throw (snd p))
  [(p_twice, EBuildErrorDuplicateMnemonic); (p_field, EUnknownFieldID); (p_special, EUnknownSpecialFieldID); (p_type, EBuildErrorUnknownType)].
Proof. exact refused_cases. Qed.

(** C63.  After any calls of makePseudoInst a pseudo-instruction has the attributes the annotation
    files give its name, the later record counting. *)
Theorem C63_annotation_partial : forall A U c nu (x : ctxt A U) nu', 0 < nu < w32 -> make_context c nu = Ok (x, nu') ->
  forall h p mn d v, Forall uid_fits h -> uid_fits d -> masks_fit (dx_ops d) -> In p (c_recs c) -> r_pseudo (fst p) = Some mn -> asks (cx_pb x) mn d ->
  snd (make_pseudo (pseudo_run (cx_pb x) h) d) = Ok v ->
  d_mnemonic (i_di v) = mn /\
  match i_anno v with
  | None => ~ in_files (c_files c) mn
  | Some a => in_files (c_files c) mn /\ forall k, anno_attr k a = filed (c_files c) mn k
  end.
Proof. exact (fun A U => pseudo_anno_lemma). Qed.
Print Assumptions C63_annotation_partial.
Example C63_annotation_ex : exists x nu v p, 0 < 1 < w32 /\ make_context (A := unit) (U := unit) whole_cfg 1 = Ok (x, nu) /\ In p (c_recs whole_cfg) /\
  r_pseudo (fst p) = Some "P0"%string /\ uid_fits (ask "P0") /\ masks_fit (dx_ops (ask "P0")) /\ asks (cx_pb x) "P0" (ask "P0") /\
  snd (make_pseudo (cx_pb x) (ask "P0")) = Ok v /\ option_map (anno_attr "unit") (i_anno v) = Some (Some "alu"%string).
Proof. exact anno_ex. Qed.
(** C63, finding.  Annotation overrides of the configuration do not apply to pseudo-instructions. *)
Theorem C63_override_refuted : exists c x nu d v mn k w, make_context (A := unit) (U := unit) c 1 = Ok (x, nu) /\
  in_files (c_files c) mn /\ override (c_ovs c) mn k = Some w /\
  snd (make_pseudo (cx_pb x) d) = Ok v /\ d_mnemonic (i_di v) = mn /\ exists a, i_anno v = Some a /\ anno_attr k a <> Some w.
Proof. exact config_override_refuted. Qed.
Print Assumptions C63_override_refuted.
(** C63, finding.  Tag inclusions and exclusions do not apply to them either: a pseudo-instruction
    whose record is filtered out exists all the same, ... *)
Theorem C63_tags_refuted : exists c x nu d v p mn, make_context (A := unit) (U := unit) c 1 = Ok (x, nu) /\
  In p (c_recs c) /\ r_pseudo (fst p) = Some mn /\ pseudo_names (c_recs c) = [mn] /\ kept (c_incl c) (c_excl c) (map fst (c_recs c)) = [] /\
  snd (make_pseudo (cx_pb x) d) = Ok v /\ d_mnemonic (i_di v) = mn.
Proof. exact config_tags_refuted. Qed.
Print Assumptions C63_tags_refuted.
(** ... and one that is filtered out can make the configuration fail. *)
Theorem C63_variants_refuted : exists c, pseudos_ok (filter (fun p => wantedb (c_incl c) (c_excl c) (r_tags (fst p))) (c_recs c)) /\
  make_context (A := unit) (U := unit) c 1 = Throw EBuildErrorDuplicateMnemonic.
Proof. exact config_variants_refuted. Qed.
Print Assumptions C63_variants_refuted.
