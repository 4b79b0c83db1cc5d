(** Model of the text that [std::cout << mavis] writes: the decode tree, one line per node or
    leaf slot.  A text is its list of lines. *)
From Coq Require Import NArith List Bool String.
From Verif Require Import M_Base M_Field M_Forms M_Extract M_Trie M_Meta M_Builder.
Import ListNotations.
Local Open Scope string_scope.

(** mavis/Extractor.h:177-180 and the overrides of getName in impl/forms/ExtractorDerived.h: the
    name of the form the extractor class is written for (the [name] members in
    impl/forms/CompressedForms.h, CommonForms.h, VectorForms.h and DerivedForms.h).
    Extractor<Form_I_load_pair>, <Form_S_Pair>, <Form_HV_load> and <Form_HV_store>
    (ExtractorDerived.h:79-131, 378-439 and the HV classes) do not override it. *)
Definition cls_name (c : xcls) : string :=
  match c with
  | X_AMO => "AMO" | X_B => "B" | X_C0 => "C0" | X_C2 => "C2" | X_C2_sp_store => "C2_sp_store"
  | X_CA => "CA" | X_CB => "CB" | X_CI => "CI" | X_CI_rD_only => "CI_rD_only" | X_CIW => "CIW"
  | X_CIX => "CIX" | X_CJ => "CJ" | X_CJR => "CJR" | X_CSR => "CSR" | X_CSRI => "CSRI"
  | X_FENCE => "FENCE" | X_I => "I" | X_ISH => "ISH" | X_ISHW => "ISHW" | X_J => "J" | X_R => "R"
  | X_Rfloat => "Rfloat" | X_R4 => "R4" | X_S => "S" | X_U => "U" | X_V => "V"
  | X_VF_mem => "VF_mem" | X_V_vsetvli => "V_vsetvli" | X_V_vsetivli => "V_vsetivli"
  | X_V_vsetvl => "V_vsetvl" | X_V_uimm6 => "V_uimm6" | X_I_mv => "I_mv" | X_I_load => "I_load"
  | X_I_load_pair => "I_load" | X_C0_load => "C0_load" | X_C0_load_byte => "C0_load_byte"
  | X_C0_load_half => "C0_load_half" | X_C0_load_word => "C0_load_word"
  | X_C0_load_double => "C0_load_double" | X_C0_load_word_pair => "C0_load_word_pair"
  | X_S_pair => "S" | X_C0_store => "C0_store" | X_C0_store_byte => "C0_store_byte"
  | X_C0_store_half => "C0_store_half" | X_C0_store_word => "C0_store_word"
  | X_C0_store_double => "C0_store_double" | X_C0_store_word_pair => "C0_store_word_pair"
  | X_C1_rsd => "C1_rsd" | X_C1_rsd_I0 => "C1_rsd_I0" | X_C1_rsd_zext_I0 => "C1_rsd_zext_I0"
  | X_C1_rsd_Ineg1 => "C1_rsd_Ineg1" | X_C1_rsd_I0xFF => "C1_rsd_I0xFF" | X_CI_addi => "CI_addi"
  | X_CI_addiw => "CI_addiw" | X_CI_sp => "CI_sp" | X_CIW_sp => "CIW_sp"
  | X_CIX_andi => "CIX_andi" | X_CJAL => "CJAL" | X_CJALR => "CJALR" | X_C2_add => "C2_add"
  | X_C2_mv => "C2_mv" | X_C2_slli => "C2_slli" | X_C2_sp => "C2_sp"
  | X_C2_sp_load => "C2_sp_load" | X_C2_sp_load_word => "C2_sp_load_word"
  | X_C2_sp_load_double => "C2_sp_load_double" | X_C2_sp_load_word_pair => "C2_sp_load_word_pair"
  | X_C2_sp_load_float_single => "C2_sp_load_float_single"
  | X_C2_sp_load_float_double => "C2_sp_load_float_double"
  | X_C2_sp_store_word => "C2_sp_store_word" | X_C2_sp_store_double => "C2_sp_store_double"
  | X_C2_sp_store_word_pair => "C2_sp_store_word_pair" | X_CI_rD_shifted => "CI_rD_shifted"
  | X_V_load => "V_load" | X_V_store => "V_store" | X_V_uimm => "V_uimm" | X_V_simm => "V_simm"
  | X_V_op => "V_op" | X_HV_load => "R" | X_HV_store => "R" | X_V_implied => "V_implied"
  | X_V_op_implied => "V_op_implied" | X_V_uimm_implied => "V_uimm_implied"
  | X_NTL_hint => "NTL_hint" | X_PF_hint => "PF_hint"
  end.

(** mavis/Extractor.h:307-310, ExtractorBase::print. *)
Definition ext_text (c : xcls) : string := "Extractor '" ++ cls_name c ++ "'".
(** IFactory.h:1147-1155, 1322-1327, IFactory::getName; IFactoryCustom.h:23-31 and 56-64 for the
    two factories the builder makes itself, which are the first two of the store
    (IFactoryBuilder.h:43-66). *)
Definition fact_text (i : nat) (f : factory) : string :=
  match i with
  | 0%nat => "CUSTOM IFactory('" ++ fc_name f ++ "'): type = I"
  | 1%nat => "CUSTOM IFactory('" ++ fc_name f ++ "'): type = R"
  | _ => "IFactory('" ++ fc_name f ++ "'), stencil = 0x" ++ hex (fc_stencil f)
  end.
(** "|\t", [level + 1] times. *)
Fixpoint indent (k : nat) : string :=
  match k with O => "" | S j => "|" ++ tab ++ indent j end.
(** A child printed in place: its first line follows the label. *)
Definition labelled (lead : string) (ls : list string) : list string :=
  match ls with [] => [lead] | l :: r => (lead ++ l) :: r end.

(** IFactory.h:347-360: the line of one special-case entry. *)
Definition entry_line (b : builder) (level : nat) (i : N) (e : sentry) : res string :=
  match se_pay e with
  | None => AssertFail
  | Some p =>
      let* f := get_fact b (pay_fact p) in
      Ok (indent (S level) ++ "[" ++ hex i ++ "]: '" ++ se_mn e ++ "', mask=0x" ++ hex (se_mask e) ++
          ", field_set=0x" ++ hex (se_fset e) ++ ", value=0x" ++ hex (se_value e) ++
          ", nfixed=" ++ dec (se_nfixed e) ++ ", extractor=" ++ ext_text (pay_cls p) ++
          ", factory=" ++ fact_text (pay_fact p) f)
  end.
(** IFactory.h:362-371: the line of the default entry.  Simplification: without its
    [", value=0x.."], a member that nothing else reads and that M_Trie leaves out. *)
Definition default_line (b : builder) (level : nat) (mn : string) (p : pay) : res string :=
  let* f := get_fact b (pay_fact p) in
  Ok (indent (S level) ++ "[default]: '" ++ mn ++ "', extractor=" ++ ext_text (pay_cls p) ++
      ", factory=" ++ fact_text (pay_fact p) f).

(** IFactory.h:341-373 and 685-708. *)
Fixpoint print_node (b : builder) (n : node) (level : nat) : res (list string) :=
  match n with
  | Special tab d =>
      let fix go (i : N) (l : list sentry) : res (list string) :=
        match l with
        | [] => match d with
                | None => Ok []
                | Some (mn, p) => let* t := default_line b level mn p in Ok [t]
                end
        | e :: r => let* t := entry_line b level i e in let* ts := go (i + 1)%N r in Ok (t :: ts)
        end in
      let* ts := go 0%N tab in Ok ("IFactorySpecialCaseComposite::Field " :: ts)
  | Dense f tab d =>
      let fix go (l : list N) : res (list string) :=
        match l with
        | [] => match d with
                | None => Ok []
                | Some dn => let* ts := print_node b dn (S level) in
                             Ok (labelled (indent (S level) ++ "[default]: ") ts)
                end
        | i :: r =>
            let* ts := match tab i with
                       | None => Ok []
                       | Some c => let* ts := print_node b c (S level) in
                                   Ok (labelled (indent (S level) ++ "[" ++ hex i ++ "]: ") ts)
                       end in
            let* us := go r in Ok (ts ++ us)%list
        end in
      let* ts := go (nseq 0 (N.to_nat (f_size f))) in
      Ok (("IFactoryDenseComposite::Field " ++ f_name f) :: ts)
  end.
(** IFactory.h:1000-1025, the root node, and Mavis.h:271-283, DTable.h:353-356. *)
Definition print_tree (s : builder * tree) : res (list string) :=
  let fix go (l : list N) : res (list string) :=
    match l with
    | [] => Ok []
    | i :: r =>
        let* ts := match snd s i with
                   | None => Ok []
                   | Some c => let* ts := print_node (fst s) c 1 in
                               Ok (labelled (indent 1 ++ "[" ++ hex i ++ "]: ") ts)
                   end in
        let* us := go r in Ok (ts ++ us)%list
    end in
  let* ts := go (nseq 0 (List.length root_matchers)) in
  Ok (("IFactoryMatchListComposite::Field " ++ f_name family_field) :: ts).
