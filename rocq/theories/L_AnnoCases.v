(** Concrete annotation files, overrides and decodes. *)
From Coq Require Import NArith List Bool String.
From Verif Require Import M_Base M_Decoded M_Registry M_Builder M_DTable S_Table S_Shipped S_Anno L_Claims L_Anno L_AnnoDecode.
Import ListNotations.
Local Open Scope string_scope.
Local Open Scope N_scope.

Definition two_files : list (list (string * arec)) :=
  [[("addi", [("unit", "alu"); ("latency", "1")]); ("c.addi", [("unit", "short")]); ("li", [("unit", "move")])];
   [("addi", [("latency", "2")]); ("mv", [("unit", "rename")])]].
Definition two_overrides : list (string * string * string) := [("addi", "unit", "any"); ("mul", "unit", "mulu")].
Definition two_annos : list (string * anno) := match anno_files two_overrides two_files [] with Ok r => r | _ => [] end.
Lemma two_annos_ok : anno_files two_overrides two_files [] = Ok two_annos.
Proof. vm_compute. reflexivity. Qed.
(** What decoding the opcodes says: mnemonic and attribute "unit". *)
Definition units (recs : list irec) (annos : list (string * anno)) (l : list N) :=
  match make_decoder [] annos 1 [] [] recs with
  | Ok s => Some (map (fun ic => match decode (A := unit) (U := unit) s ic with
                                 | Ok v => Some (d_mnemonic (i_di v), option_map (anno_attr "unit") (i_anno v)) | _ => None end) l)
  | _ => None
  end.
Lemma units_ok recs annos l r : units recs annos l = Some r -> exists s, make_decoder [] annos 1 [] [] recs = Ok s /\
  map (fun ic => match decode (A := unit) (U := unit) s ic with
                 | Ok v => Some (d_mnemonic (i_di v), option_map (anno_attr "unit") (i_anno v)) | _ => None end) l = r.
Proof. unfold units. destruct (make_decoder [] annos 1 [] [] recs) as [s| | |]; try discriminate. intros [= <-]. eauto. Qed.
Lemma unit_ok (a : res info) p : match a with Ok v => Some (d_mnemonic (i_di v), option_map (anno_attr "unit") (i_anno v)) | _ => None end = Some p ->
  exists v, a = Ok v /\ d_mnemonic (i_di v) = fst p /\ option_map (anno_attr "unit") (i_anno v) = snd p.
Proof. destruct a as [v| | |]; try discriminate. intros [= <-]. exists v. auto. Qed.
Lemma annotated_case : exists s, make_decoder [] two_annos 1 [] [] small = Ok s /\ well_formed (kept [] [] small) /\
  (exists v, decode (A := unit) (U := unit) s 0x108093 = Ok v /\ d_mnemonic (i_di v) = "addi" /\ option_map (anno_attr "unit") (i_anno v) = Some (Some "any")) /\
  (exists v, decode (A := unit) (U := unit) s 0x85 = Ok v /\ d_mnemonic (i_di v) = "c.addi" /\ option_map (anno_attr "unit") (i_anno v) = Some (Some "any")) /\
  (exists v, decode (A := unit) (U := unit) s 0x8093 = Ok v /\ d_mnemonic (i_di v) = "mv" /\ option_map (anno_attr "unit") (i_anno v) = Some (Some "rename")) /\
  (exists v, decode (A := unit) (U := unit) s 0x13 = Ok v /\ d_mnemonic (i_di v) = "nop" /\ option_map (anno_attr "unit") (i_anno v) = Some (Some "move")).
Proof.
  assert (H : units small two_annos [0x108093; 0x85; 0x8093; 0x13] = Some [Some ("addi", Some (Some "any")); Some ("c.addi", Some (Some "any"));
     Some ("mv", Some (Some "rename")); Some ("nop", Some (Some "move"))]) by (vm_compute; reflexivity).
  apply units_ok in H as (s & E & Q). exists s. split; [exact E|]. split; [rewrite kept_all; exact small_wf|]. cbn [map] in Q.
  injection Q as Q1 Q2 Q3 Q4. split; [exact (unit_ok _ _ Q1)|]. split; [exact (unit_ok _ _ Q2)|]. split; [exact (unit_ok _ _ Q3)|exact (unit_ok _ _ Q4)].
Qed.
Lemma compressed_anno_refuted : exists annos recs s ic v x, make_decoder [] annos 1 [] [] recs = Ok s /\ well_formed (kept [] [] recs) /\
  decode (A := unit) (U := unit) s ic = Ok v /\ mfind annos (d_mnemonic (i_di v)) = Some x /\ i_anno v <> Some x.
Proof.
  destruct annotated_case as (s & E & WF & _ & (v & D & M & Q) & _). exists two_annos, small, s, 0x85, v.
  exists [[("unit", "short")]]. split; [exact E|]. split; [exact WF|]. split; [exact D|]. split; [rewrite M; reflexivity|].
  intros P. rewrite P in Q. vm_compute in Q. discriminate.
Qed.
(** addi alone, made by a factory of another name. *)
Definition renamed_addi : list irec :=
  map (fun r => mkIRec (r_mn r) (r_pseudo r) (r_stencil r) (r_fixed r) (r_ignore r) (r_xform r) (Some "imm") (r_expand r) (r_form r)
                       (r_overlay r) (r_alias r) (r_tags r) (r_meta r)) (firstn 1 small).
Definition imm_annos : list (string * anno) := [("addi", [[("unit", "alu")]]); ("imm", [[("unit", "any")]])].
Lemma factory_anno_refuted : exists annos recs s ic v x, make_decoder [] annos 1 [] [] recs = Ok s /\
  (forall r, In r recs -> r_expand r = "") /\
  decode (A := unit) (U := unit) s ic = Ok v /\ mfind annos (d_mnemonic (i_di v)) = Some x /\ i_anno v <> Some x.
Proof.
  assert (H : units renamed_addi imm_annos [0x108093] = Some [Some ("addi", Some (Some "any"))]) by (vm_compute; reflexivity).
  apply units_ok in H as (s & E & Q). cbn [map] in Q. injection Q as Q. apply unit_ok in Q as (v & D & M & Q). cbn [fst snd] in M, Q.
  exists imm_annos, renamed_addi, s, 0x108093, v, [[("unit", "alu")]]. split; [exact E|]. split.
  { assert (F : forallb (fun r => String.eqb (r_expand r) "") renamed_addi = true) by (vm_compute; reflexivity).
    rewrite forallb_forall in F. intros r Hr. apply String.eqb_eq. now apply F. }
  split; [exact D|]. split; [rewrite M; reflexivity|]. intros P. rewrite P in Q. vm_compute in Q. discriminate.
Qed.
Lemma override_refuted_lemma : exists ovs files annos mn a w, anno_files ovs files [] = Ok annos /\ override ovs mn a = Some w /\ mfind annos mn = None.
Proof. exists two_overrides, two_files, two_annos, "mul", "unit", "mulu". split; [exact two_annos_ok|]. split; vm_compute; reflexivity. Qed.
