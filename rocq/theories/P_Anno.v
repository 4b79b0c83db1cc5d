(** Claims about annotations (C34, C45).  An annotation file is a list of (mnemonic, attributes);
    an override is (mnemonic, attribute, value); [anno_files] is the construction of the
    annotation registry; the specification is S_Anno. *)
From Coq Require Import NArith List Bool String.
From Verif Require Import M_Base M_Decoded M_Registry M_Builder M_DTable.
From Verif Require Import S_Trie S_Table S_Shipped S_Anno L_Anno L_AnnoDecode L_AnnoCases.
Import ListNotations.
Local Open Scope N_scope.

(** C34 (see C34_override_refuted for what does not hold).  Exactly the mnemonics of the files
    have an annotation; each attribute has the value of the last override of it, or else of the
    last record in the files, in order, that sets it. *)
Theorem C34_attributes : forall ovs files reg, anno_files ovs files [] = Ok reg -> forall mn,
  match mfind reg mn with
  | None => ~ in_files files mn
  | Some x => in_files files mn /\
      forall a, anno_attr a x = match override ovs mn a with Some v => Some v | None => filed files mn a end
  end.
Proof. exact attributes_lemma. Qed.
Print Assumptions C34_attributes.
Example C34_attributes_ex : exists x, anno_files two_overrides two_files [] = Ok two_annos /\ mfind two_annos "addi" = Some x /\
  anno_attr "unit" x = Some "any"%string /\ anno_attr "latency" x = Some "2"%string /\ anno_attr "color" x = None.
Proof. eexists. split; [exact two_annos_ok|]. split; [vm_compute; reflexivity|]. vm_compute. auto. Qed.

(** C34.  A mnemonic repeated within one file is rejected; otherwise the files are accepted. *)
Theorem C34_duplicates : forall ovs files,
  (repeats files -> anno_files ovs files [] = Throw EAnnotationNotUniqueInFile) /\
  (~ repeats files -> exists reg, anno_files ovs files [] = Ok reg).
Proof. exact repeats_lemma. Qed.
Print Assumptions C34_duplicates.
Example C34_duplicates_ex : repeats [[("addi", []); ("li", []); ("addi", [])]]%string /\ ~ repeats two_files.
Proof.
  split.
  - eexists. split; [now left|]. cbn. intros H. inversion H as [|? ? H1 H2]. apply H1. right. now left.
  - intros (f & [<-|[<-|[]]] & H); apply H; cbn; repeat constructor; cbn; intuition discriminate.
Qed.
(** C34 for overrides in general is false: one for a mnemonic in no file has no effect. *)
Theorem C34_override_refuted : exists ovs files annos mn a w,
  anno_files ovs files [] = Ok annos /\ override ovs mn a = Some w /\ mfind annos mn = None.
Proof. exact override_refuted_lemma. Qed.
Print Assumptions C34_override_refuted.

(** C45 (see C45_compressed_refuted and C45_factory_refuted for what does not hold).  In a well-formed table the annotation of a decoded instruction is that
    of its factory's name or else its own; for a compressed instruction that of its expansion;
    for an overlay the overlay's or else its base's. *)
Theorem C45_annotation : forall uids annos nu incl excl recs s,
  make_decoder uids annos nu incl excl recs = Ok s -> well_formed (kept incl excl recs) ->
  forall A U ic v, decode (A := A) (U := U) s ic = Ok v ->
  exists r e, listed (kept incl excl recs) r e /\ selected (encodings (kept incl excl recs)) e ic /\
    ((d_mnemonic (i_di v) = en_mn e /\ i_anno v = base_anno annos r (en_mn e)) \/
     ((exists mask, overlay_hit (kept incl excl recs) (d_mnemonic (i_di v)) (en_mn e) mask ic) /\
      i_anno v = either annos (d_mnemonic (i_di v)) (en_mn e))).
Proof. intros uids annos nu incl excl recs s HD WF A U ic v. exact (annotation_lemma uids annos nu incl excl recs s HD WF ic v). Qed.
Print Assumptions C45_annotation.
(** addi, c.addi (the annotation of addi), mv (an annotated overlay) and nop (an overlay of li
    that has no annotation of its own). *)
Example C45_annotation_ex : exists s, make_decoder [] two_annos 1 [] [] small = Ok s /\ well_formed (kept [] [] small) /\
  (exists v, decode (A := unit) (U := unit) s 0x108093 = Ok v /\ d_mnemonic (i_di v) = "addi"%string /\ option_map (anno_attr "unit") (i_anno v) = Some (Some "any"%string)) /\
  (exists v, decode (A := unit) (U := unit) s 0x85 = Ok v /\ d_mnemonic (i_di v) = "c.addi"%string /\ option_map (anno_attr "unit") (i_anno v) = Some (Some "any"%string)) /\
  (exists v, decode (A := unit) (U := unit) s 0x8093 = Ok v /\ d_mnemonic (i_di v) = "mv"%string /\ option_map (anno_attr "unit") (i_anno v) = Some (Some "rename"%string)) /\
  (exists v, decode (A := unit) (U := unit) s 0x13 = Ok v /\ d_mnemonic (i_di v) = "nop"%string /\ option_map (anno_attr "unit") (i_anno v) = Some (Some "move"%string)).
Proof. exact annotated_case. Qed.
(** C45 as a user would expect it, an annotated mnemonic reports its own annotation, is false of
    compressed instructions (theirs are never used) ... *)
Theorem C45_compressed_refuted : exists annos recs s ic v x,
  make_decoder [] annos 1 [] [] recs = Ok s /\ well_formed (kept [] [] recs) /\
  decode (A := unit) (U := unit) s ic = Ok v /\ mfind annos (d_mnemonic (i_di v)) = Some x /\ i_anno v <> Some x.
Proof. exact compressed_anno_refuted. Qed.
Print Assumptions C45_compressed_refuted.
(** ... and of instructions whose factory's name is annotated. *)
Theorem C45_factory_refuted : exists annos recs s ic v x,
  make_decoder [] annos 1 [] [] recs = Ok s /\ (forall r, In r recs -> r_expand r = ""%string) /\
  decode (A := unit) (U := unit) s ic = Ok v /\ mfind annos (d_mnemonic (i_di v)) = Some x /\ i_anno v <> Some x.
Proof. exact factory_anno_refuted. Qed.
Print Assumptions C45_factory_refuted.
