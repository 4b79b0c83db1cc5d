(** Lemmas: concrete cases of the texts of exceptions (C67). *)
From Coq Require Import Ascii NArith List Bool String.
From Verif Require Import M_Base M_Field M_Forms M_Meta M_OperandInfo M_Extract M_Decoded M_Registry M_Trie M_Builder M_Raw M_DTable M_What.
From Verif Require Import S_Dasm S_Meta S_Trie S_Accept S_Table S_Shipped S_BlameTables S_Print S_What L_Claims L_What.
Import ListNotations.
Local Open Scope string_scope.
Local Open Scope N_scope.

Fixpoint has (w t : string) : bool :=
  if begins w t then true else match t with "" => false | String _ t => has w t end.
Lemma begins_app w b : begins w (w ++ b) = true.
Proof. induction w as [|c w IH]; cbn [begins append]; [reflexivity|]. now rewrite Ascii.eqb_refl. Qed.
Lemma has_app w a b : has w (a ++ w ++ b) = true.
Proof.
  induction a as [|c a IH].
  - change ("" ++ w ++ b)%string with (w ++ b)%string. pose proof (begins_app w b) as B. destruct (w ++ b)%string; cbn [has]; rewrite B; reflexivity.
  - change (String c a ++ w ++ b)%string with (String c (a ++ w ++ b)). cbn [has]. rewrite IH. now destruct (begins _ _).
Qed.
Lemma silent t w : has ("'" ++ w ++ "'") t = false -> ~ mentions t w.
Proof.
  intros H (a & b & ->). replace (a ++ "'" ++ w ++ "'" ++ b)%string with (a ++ ("'" ++ w ++ "'") ++ b)%string in H by now rewrite !app_assoc_s.
  rewrite has_app in H. discriminate.
Qed.

(** A shipped record with another "xform". *)
Definition with_xform (x : string) (r : irec) : irec :=
  mkIRec (r_mn r) (r_pseudo r) (r_stencil r) (r_fixed r) (r_ignore r) (Some x) (r_factory r) (r_expand r) (r_form r) (r_overlay r) (r_alias r) (r_tags r) (r_meta r).
Definition t_no_xform (n : string) : list irec := map (with_xform "I-lod") (named_rec n).
Definition t_bad_match : list irec :=
  (named_rec "addi" ++ map (with_overlay (mkJO (Some "addi") (Some [0xfff]))) (as_rec "add" "hint" 0 []))%list.

Definition thrown (recs : list irec) : option exn := match make_decoder [] [] 1 [] [] recs with Throw x => Some x | _ => None end.
Lemma thrown_ok recs x : thrown recs = Some x -> make_decoder [] [] 1 [] [] recs = Throw x.
Proof. unfold thrown. destruct (make_decoder _ _ _ _ _ _); congruence. Qed.

Lemma form_refuted_lemma : exists r mn, r_mn r = Some mn /\ make_decoder [] [] 1 [] [] [r] = Throw EBuildErrorUnknownForm /\
  forall file, ~ mentions (make_what file [] [] 1 [] [] [r]) mn.
Proof.
  assert (E : exists r, t_no_xform "lw" = [r]) by (vm_compute; eauto). destruct E as [r E]. exists r, "lw".
  assert (M : map r_mn (t_no_xform "lw") = [Some "lw"]) by (vm_compute; reflexivity). rewrite E in M. cbn [map] in M.
  split; [congruence|]. rewrite <- E. split; [apply thrown_ok; vm_compute; reflexivity|].
  intros file. apply silent. vm_compute. reflexivity.
Qed.
Lemma same_text_lemma : exists r r', r_mn r <> r_mn r' /\ make_decoder [] [] 1 [] [] [r] = Throw EBuildErrorUnknownForm /\ make_decoder [] [] 1 [] [] [r'] = Throw EBuildErrorUnknownForm /\
  forall file, make_what file [] [] 1 [] [] [r] = make_what file [] [] 1 [] [] [r'].
Proof.
  assert (E : exists r, t_no_xform "lw" = [r]) by (vm_compute; eauto). assert (E' : exists r, t_no_xform "ld" = [r]) by (vm_compute; eauto).
  destruct E as [r E], E' as [r' E']. exists r, r'. split.
  - assert (M : map r_mn (t_no_xform "lw") <> map r_mn (t_no_xform "ld")) by (vm_compute; congruence). rewrite E, E' in M. cbn [map] in M. congruence.
  - rewrite <- E, <- E'. split; [apply thrown_ok; vm_compute; reflexivity|]. split; [apply thrown_ok; vm_compute; reflexivity|]. intros file. vm_compute. reflexivity.
Qed.
Lemma catch_refuted_lemma : exists recs x, make_decoder [] [] 1 [] [] recs = Throw x /\ caught_as_std x = false.
Proof. exists t_bad_match, EBuildErrorOverlayBadMatchSpec. split; [apply thrown_ok; vm_compute; reflexivity|reflexivity]. Qed.
Lemma build_cases : Forall (fun p => make_decoder [] [] 1 [] [] (fst (fst p)) = Throw (snd (fst p)) /\ make_what "isa.json" [] [] 1 [] [] (fst (fst p)) = snd p)
  [(t_incompatible, EBuildErrorFieldsIncompatible,
      "Instruction 'b': field 'func5: pos: 27 len: 5 mask: 0x1f >> 27' is incompatible with field 'func7: pos: 25 len: 7 mask: 0x7f >> 25' from a prior instruction");
   (t_short_after, EBuildErrorOpcodeConflict, "Instruction 'b': opcode 0x33 is the same as another instruction, with incompatible form");
   (t_same_name, EBuildErrorDuplicateMnemonic, "Instruction 'add':  has duplicate registry entry. Check the ISA and annotation JSON files for correctness");
   (t_no_expansion, EBuildErrorUnknownExpansion, "Instruction 'c.lwsp':  Expansion factory 'lw' not yet declared. Move this instruction after the named factory in the JSON file");
   (t_no_form, EBuildErrorUnknownForm, "Form 'X' for mnemonic 'add' in JSON ISA file 'isa.json' is unknown");
   (t_no_field, EBuildErrorUnknownFormField, "Field 'imm':  in form 'R' is not known to the decoder (Form<> object)");
   (t_overlay_lost, EBuildErrorOverlayBaseNotFound, "Overlay instruction 'hint'  in JSON ISA file 'isa.json': The overlay's base instruction 'addi' is not found. Check the ISA and annotation JSON files for correctness")].
Proof. repeat apply Forall_cons; try apply Forall_nil; cbn [fst snd]; (split; [apply thrown_ok; vm_compute; reflexivity|vm_compute; reflexivity]). Qed.
Lemma illegal_case : exists s, make_decoder [] [] 1 [] [] lwsp = Ok s /\ separated (encodings (kept [] [] lwsp)) /\
  decode (A := unit) (U := unit) s 0x4002 = Throw EIllegalOpcode /\ decode_what s 0x4002 = "Opcode 0x4002 is illegal for instruction 'c.lwsp'" /\
  decode (A := unit) (U := unit) s 0x13 = Throw EUnknownOpcode /\ decode_what s 0x13 = "Cannot decode opcode 0x13".
Proof.
  destruct C07_illegal_case as (s & E & SP & Q & _). exists s. split; [exact E|]. split; [exact SP|]. split; [exact Q|].
  assert (H : match make_decoder [] [] 1 [] [] lwsp with Ok s => Some (decode_what s 0x4002, decode_what s 0x13,
                match decode (A := unit) (U := unit) s 0x13 with Throw x => Some x | _ => None end) | _ => None end
      = Some ("Opcode 0x4002 is illegal for instruction 'c.lwsp'", "Cannot decode opcode 0x13", Some EUnknownOpcode)) by (vm_compute; reflexivity).
  rewrite E in H. injection H as H1 H2 H3. split; [exact H1|]. split; [|exact H2]. destruct (decode s 0x13); congruence.
Qed.
Lemma special_case : exists s v, make_decoder [] [] 1 [] [] lwsp = Ok s /\ decode (A := unit) (U := unit) s 0x4082 = Ok v /\
  info_special v SF_CSR = Throw EUnsupportedSpecialField /\
  special_what v SF_CSR = "Extractor special field id 'CSR' for instruction 'c.lwsp' (opcode 0x4082) is not supported".
Proof.
  destruct C07_illegal_case as (s & E & _ & _ & v & Q). exists s, v. split; [exact E|]. split; [exact Q|].
  assert (H : match make_decoder [] [] 1 [] [] lwsp with Ok s => match decode (A := unit) (U := unit) s 0x4082 with
                Ok v => Some (match info_special v SF_CSR with Throw x => Some x | _ => None end, special_what v SF_CSR) | _ => None end | _ => None end
      = Some (Some EUnsupportedSpecialField, "Extractor special field id 'CSR' for instruction 'c.lwsp' (opcode 0x4082) is not supported")) by (vm_compute; reflexivity).
  rewrite E, Q in H. pose proof (f_equal (fun o => match o with Some q => fst q | None => None end) H) as H1. pose proof (f_equal (fun o => match o with Some q => snd q | None => "" end) H) as H2.
  cbv beta iota delta [fst snd] in H1, H2. split; [destruct (info_special v SF_CSR); congruence|exact H2].
Qed.
Lemma rs4_lemma : field_name RS4 = Some "rs4" /\ ~ mentions (field_what RS4) "rs4".
Proof. split; [reflexivity|]. apply silent. vm_compute. reflexivity. Qed.
Lemma uids_case : builder_new [("add", 5); ("sub", 7); ("mul", 5)] [] 1 = Throw EInstIDListUIDNotUnique /\
  make_what "isa.json" [("add", 5); ("sub", 7); ("mul", 5)] [] 1 [] [] [] = "Instruction ID '5' for instruction 'mul' is already used in InstIDList provided to builder".
Proof. split; vm_compute; reflexivity. Qed.
Lemma rs4_refuted_lemma : exists o f n, oi_field_value o (Some f) = Throw EOperandInfoInvalidFieldID /\ field_name f = Some n /\ ~ mentions (field_what f) n.
Proof. exists oi_empty, RS4, "rs4". split; [reflexivity|exact rs4_lemma]. Qed.
