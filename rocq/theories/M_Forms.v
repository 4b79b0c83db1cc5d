(** Model of the form tables: impl/forms/CommonForms.cpp, CompressedForms.cpp,
    VectorForms.cpp (fields, opcode_fields, immediate_type) and their idType enums
    (CommonForms.h, CompressedForms.h, VectorForms.h), mavis/Form.h,
    impl/FormRegistry.cpp.  Transcribed field by field. *)
From Coq Require Import NArith List Bool String.
From Verif Require Import M_Base M_Field.
Import ListNotations.
Open Scope N_scope.
Open Scope string_scope.

(** mavis/Form.h:10-15 *)
Inductive imm_type := ImmNone | ImmUnsigned | ImmSigned.

(** mavis/Form.h:52-110, class Form<FormType>: the static tables of a form.
    [fm_names] is the key set of fmap/imap with the index each name maps to;
    in every shipped form both maps have the same keys and map a name to the
    field of that index. *)
Record form := mkForm {
  fm_name : string;
  fm_fields : list field;
  fm_names : list (string * nat);
  fm_ocfields : list field;
  fm_imm : imm_type }.

(** impl/forms/CommonForms.cpp:10-58 (and the enum in CommonForms.h). *)
Definition AMO_FUNC5 : field := mkF "func5" 27 5.
Definition AMO_AQ : field := mkF "aq" 26 1.
Definition AMO_WD : field := mkF "wd" 26 1.
Definition AMO_RL : field := mkF "rl" 25 1.
Definition AMO_VM : field := mkF "vm" 25 1.
Definition AMO_RS2 : field := mkF "rs2" 20 5.
Definition AMO_RS1 : field := mkF "rs1" 15 5.
Definition AMO_FUNC3 : field := mkF "func3" 12 3.
Definition AMO_WIDTH : field := mkF "width" 12 3.
Definition AMO_RD : field := mkF "rd" 7 5.
Definition AMO_OPCODE : field := mkF "opcode" 0 7.
Definition form_AMO : form := mkForm "AMO"
  [AMO_FUNC5; AMO_AQ; AMO_WD; AMO_RL; AMO_VM; AMO_RS2; AMO_RS1; AMO_FUNC3; AMO_WIDTH; AMO_RD; AMO_OPCODE]
  [("func5", 0%nat); ("aq", 1%nat); ("wd", 2%nat); ("rl", 3%nat); ("vm", 4%nat); ("rs2", 5%nat); ("rs1", 6%nat); ("func3", 7%nat); ("width", 8%nat); ("rd", 9%nat); ("opcode", 10%nat)]
  [AMO_OPCODE; AMO_FUNC3; AMO_FUNC5] ImmNone.

(** impl/forms/CommonForms.cpp:65-97 (and the enum in CommonForms.h). *)
Definition B_IMM7 : field := mkF "imm7" 25 7.
Definition B_RS2 : field := mkF "rs2" 20 5.
Definition B_RS1 : field := mkF "rs1" 15 5.
Definition B_FUNC3 : field := mkF "func3" 12 3.
Definition B_IMM5 : field := mkF "imm5" 7 5.
Definition B_OPCODE : field := mkF "opcode" 0 7.
Definition form_B : form := mkForm "B"
  [B_IMM7; B_RS2; B_RS1; B_FUNC3; B_IMM5; B_OPCODE]
  [("imm7", 0%nat); ("rs2", 1%nat); ("rs1", 2%nat); ("func3", 3%nat); ("imm5", 4%nat); ("opcode", 5%nat)]
  [B_OPCODE; B_FUNC3] ImmSigned.

(** impl/forms/CommonForms.cpp:104-133 (and the enum in CommonForms.h). *)
Definition CSR_CSR : field := mkF "csr" 20 12.
Definition CSR_RS1 : field := mkF "rs1" 15 5.
Definition CSR_FUNC3 : field := mkF "func3" 12 3.
Definition CSR_RD : field := mkF "rd" 7 5.
Definition CSR_OPCODE : field := mkF "opcode" 0 7.
Definition form_CSR : form := mkForm "CSR"
  [CSR_CSR; CSR_RS1; CSR_FUNC3; CSR_RD; CSR_OPCODE]
  [("csr", 0%nat); ("rs1", 1%nat); ("func3", 2%nat); ("rd", 3%nat); ("opcode", 4%nat)]
  [CSR_OPCODE; CSR_FUNC3] ImmNone.

(** impl/forms/CommonForms.cpp:140-169 (and the enum in CommonForms.h). *)
Definition CSRI_CSR : field := mkF "csr" 20 12.
Definition CSRI_UIMM : field := mkF "uimm" 15 5.
Definition CSRI_FUNC3 : field := mkF "func3" 12 3.
Definition CSRI_RD : field := mkF "rd" 7 5.
Definition CSRI_OPCODE : field := mkF "opcode" 0 7.
Definition form_CSRI : form := mkForm "CSRI"
  [CSRI_CSR; CSRI_UIMM; CSRI_FUNC3; CSRI_RD; CSRI_OPCODE]
  [("csr", 0%nat); ("uimm", 1%nat); ("func3", 2%nat); ("rd", 3%nat); ("opcode", 4%nat)]
  [CSRI_OPCODE; CSRI_FUNC3] ImmUnsigned.

(** impl/forms/CommonForms.cpp:176-211 (and the enum in CommonForms.h). *)
Definition FENCE_FM : field := mkF "fm" 28 4.
Definition FENCE_PRED : field := mkF "pred" 24 4.
Definition FENCE_SUCC : field := mkF "succ" 20 4.
Definition FENCE_RS1 : field := mkF "rs1" 15 5.
Definition FENCE_FUNC3 : field := mkF "func3" 12 3.
Definition FENCE_RD : field := mkF "rd" 7 5.
Definition FENCE_OPCODE : field := mkF "opcode" 0 7.
Definition form_FENCE : form := mkForm "FENCE"
  [FENCE_FM; FENCE_PRED; FENCE_SUCC; FENCE_RS1; FENCE_FUNC3; FENCE_RD; FENCE_OPCODE]
  [("fm", 0%nat); ("pred", 1%nat); ("succ", 2%nat); ("rs1", 3%nat); ("func3", 4%nat); ("rd", 5%nat); ("opcode", 6%nat)]
  [FENCE_OPCODE; FENCE_FUNC3] ImmNone.

(** impl/forms/CommonForms.cpp:218-247 (and the enum in CommonForms.h). *)
Definition I_IMM : field := mkF "imm" 20 12.
Definition I_RS1 : field := mkF "rs1" 15 5.
Definition I_FUNC3 : field := mkF "func3" 12 3.
Definition I_RD : field := mkF "rd" 7 5.
Definition I_OPCODE : field := mkF "opcode" 0 7.
Definition form_I : form := mkForm "I"
  [I_IMM; I_RS1; I_FUNC3; I_RD; I_OPCODE]
  [("imm", 0%nat); ("rs1", 1%nat); ("func3", 2%nat); ("rd", 3%nat); ("opcode", 4%nat)]
  [I_OPCODE; I_FUNC3] ImmSigned.

(** impl/forms/CommonForms.cpp:254-287 (and the enum in CommonForms.h). *)
Definition ISH_FUNC6 : field := mkF "func6" 26 6.
Definition ISH_SHAMT : field := mkF "shamt" 20 6.
Definition ISH_RS1 : field := mkF "rs1" 15 5.
Definition ISH_FUNC3 : field := mkF "func3" 12 3.
Definition ISH_RD : field := mkF "rd" 7 5.
Definition ISH_OPCODE : field := mkF "opcode" 0 7.
Definition form_ISH : form := mkForm "ISH"
  [ISH_FUNC6; ISH_SHAMT; ISH_RS1; ISH_FUNC3; ISH_RD; ISH_OPCODE]
  [("func6", 0%nat); ("shamt", 1%nat); ("rs1", 2%nat); ("func3", 3%nat); ("rd", 4%nat); ("opcode", 5%nat)]
  [ISH_OPCODE; ISH_FUNC3; ISH_FUNC6] ImmSigned.

(** impl/forms/CommonForms.cpp:294-327 (and the enum in CommonForms.h). *)
Definition ISHW_FUNC7 : field := mkF "func7" 25 7.
Definition ISHW_SHAMTW : field := mkF "shamtw" 20 5.
Definition ISHW_RS1 : field := mkF "rs1" 15 5.
Definition ISHW_FUNC3 : field := mkF "func3" 12 3.
Definition ISHW_RD : field := mkF "rd" 7 5.
Definition ISHW_OPCODE : field := mkF "opcode" 0 7.
Definition form_ISHW : form := mkForm "ISHW"
  [ISHW_FUNC7; ISHW_SHAMTW; ISHW_RS1; ISHW_FUNC3; ISHW_RD; ISHW_OPCODE]
  [("func7", 0%nat); ("shamtw", 1%nat); ("rs1", 2%nat); ("func3", 3%nat); ("rd", 4%nat); ("opcode", 5%nat)]
  [ISHW_OPCODE; ISHW_FUNC3; ISHW_FUNC7] ImmSigned.

(** impl/forms/CommonForms.cpp:334-355 (and the enum in CommonForms.h). *)
Definition J_IMM20 : field := mkF "imm20" 12 20.
Definition J_RD : field := mkF "rd" 7 5.
Definition J_OPCODE : field := mkF "opcode" 0 7.
Definition form_J : form := mkForm "J"
  [J_IMM20; J_RD; J_OPCODE]
  [("imm20", 0%nat); ("rd", 1%nat); ("opcode", 2%nat)]
  [J_OPCODE] ImmSigned.

(** impl/forms/CommonForms.cpp:362-395 (and the enum in CommonForms.h). *)
Definition R_FUNC7 : field := mkF "func7" 25 7.
Definition R_RS2 : field := mkF "rs2" 20 5.
Definition R_RS1 : field := mkF "rs1" 15 5.
Definition R_FUNC3 : field := mkF "func3" 12 3.
Definition R_RD : field := mkF "rd" 7 5.
Definition R_OPCODE : field := mkF "opcode" 0 7.
Definition form_R : form := mkForm "R"
  [R_FUNC7; R_RS2; R_RS1; R_FUNC3; R_RD; R_OPCODE]
  [("func7", 0%nat); ("rs2", 1%nat); ("rs1", 2%nat); ("func3", 3%nat); ("rd", 4%nat); ("opcode", 5%nat)]
  [R_OPCODE; R_FUNC3; R_FUNC7] ImmNone.

(** impl/forms/CommonForms.cpp:402-434 (and the enum in CommonForms.h). *)
Definition Rfloat_FUNC7 : field := mkF "func7" 25 7.
Definition Rfloat_RS2 : field := mkF "rs2" 20 5.
Definition Rfloat_RS1 : field := mkF "rs1" 15 5.
Definition Rfloat_RM : field := mkF "rm" 12 3.
Definition Rfloat_RD : field := mkF "rd" 7 5.
Definition Rfloat_OPCODE : field := mkF "opcode" 0 7.
Definition form_Rfloat : form := mkForm "Rfloat"
  [Rfloat_FUNC7; Rfloat_RS2; Rfloat_RS1; Rfloat_RM; Rfloat_RD; Rfloat_OPCODE]
  [("func7", 0%nat); ("rs2", 1%nat); ("rs1", 2%nat); ("rm", 3%nat); ("rd", 4%nat); ("opcode", 5%nat)]
  [Rfloat_OPCODE; Rfloat_FUNC7] ImmNone.

(** impl/forms/CommonForms.cpp:441-476 (and the enum in CommonForms.h). *)
Definition R4_RS3 : field := mkF "rs3" 27 5.
Definition R4_FUNC2 : field := mkF "func2" 25 2.
Definition R4_RS2 : field := mkF "rs2" 20 5.
Definition R4_RS1 : field := mkF "rs1" 15 5.
Definition R4_RM : field := mkF "rm" 12 3.
Definition R4_RD : field := mkF "rd" 7 5.
Definition R4_OPCODE : field := mkF "opcode" 0 7.
Definition form_R4 : form := mkForm "R4"
  [R4_RS3; R4_FUNC2; R4_RS2; R4_RS1; R4_RM; R4_RD; R4_OPCODE]
  [("rs3", 0%nat); ("func2", 1%nat); ("rs2", 2%nat); ("rs1", 3%nat); ("rm", 4%nat); ("rd", 5%nat); ("opcode", 6%nat)]
  [R4_OPCODE; R4_FUNC2] ImmNone.

(** impl/forms/CommonForms.cpp:483-515 (and the enum in CommonForms.h). *)
Definition S_IMM7 : field := mkF "imm7" 25 7.
Definition S_RS2 : field := mkF "rs2" 20 5.
Definition S_RS1 : field := mkF "rs1" 15 5.
Definition S_FUNC3 : field := mkF "func3" 12 3.
Definition S_IMM5 : field := mkF "imm5" 7 5.
Definition S_OPCODE : field := mkF "opcode" 0 7.
Definition form_S : form := mkForm "S"
  [S_IMM7; S_RS2; S_RS1; S_FUNC3; S_IMM5; S_OPCODE]
  [("imm7", 0%nat); ("rs2", 1%nat); ("rs1", 2%nat); ("func3", 3%nat); ("imm5", 4%nat); ("opcode", 5%nat)]
  [S_OPCODE; S_FUNC3] ImmSigned.

(** impl/forms/CommonForms.cpp:522-544 (and the enum in CommonForms.h). *)
Definition U_IMM20 : field := mkF "imm20" 12 20.
Definition U_RD : field := mkF "rd" 7 5.
Definition U_OPCODE : field := mkF "opcode" 0 7.
Definition form_U : form := mkForm "U"
  [U_IMM20; U_RD; U_OPCODE]
  [("imm20", 0%nat); ("rd", 1%nat); ("opcode", 2%nat)]
  [U_OPCODE] ImmUnsigned.

(** impl/forms/CompressedForms.cpp:10-46 (and the enum in CompressedForms.h). *)
Definition C0_FUNC3 : field := mkF "func3" 13 3.
Definition C0_IMM3 : field := mkF "imm3" 10 3.
Definition C0_RS1 : field := mkF "rs1" 7 3.
Definition C0_FUNC2A : field := mkF "func2A" 6 1.
Definition C0_IMM2 : field := mkF "imm2" 5 2.
Definition C0_RD : field := mkF "rd" 2 3.
Definition C0_OPCODE : field := mkF "opcode" 0 2.
Definition form_C0 : form := mkForm "C0"
  [C0_FUNC3; C0_IMM3; C0_RS1; C0_FUNC2A; C0_IMM2; C0_RD; C0_OPCODE]
  [("func3", 0%nat); ("imm3", 1%nat); ("rs1", 2%nat); ("func2A", 3%nat); ("imm2", 4%nat); ("rd", 5%nat); ("opcode", 6%nat)]
  [C0_OPCODE; C0_FUNC3; C0_FUNC2A] ImmUnsigned.

(** impl/forms/CompressedForms.cpp:53-94 (and the enum in CompressedForms.h). *)
Definition C1_FUNC3 : field := mkF "func3" 13 3.
Definition C1_FUNC1 : field := mkF "func1" 12 1.
Definition C1_FUNC2 : field := mkF "func2" 10 2.
Definition C1_RS1 : field := mkF "rs1" 7 3.
Definition C1_RD : field := mkF "rd" 7 3.
Definition C1_FUNC2B : field := mkF "func2b" 5 2.
Definition C1_RS2 : field := mkF "rs2" 2 3.
Definition C1_OPCODE : field := mkF "opcode" 0 2.
Definition form_C1 : form := mkForm "C1"
  [C1_FUNC3; C1_FUNC1; C1_FUNC2; C1_RS1; C1_RD; C1_FUNC2B; C1_RS2; C1_OPCODE]
  [("func3", 0%nat); ("func1", 1%nat); ("func2", 2%nat); ("rs1", 3%nat); ("rd", 4%nat); ("func2b", 5%nat); ("rs2", 6%nat); ("opcode", 7%nat)]
  [C1_OPCODE; C1_FUNC3; C1_FUNC2; C1_FUNC2B; C1_FUNC1] ImmNone.

(** impl/forms/CompressedForms.cpp:101-143 (and the enum in CompressedForms.h). *)
Definition C2_FUNC3 : field := mkF "func3" 13 3.
Definition C2_FUNC1 : field := mkF "func1" 12 1.
Definition C2_SHAMT1 : field := mkF "shamt1" 12 1.
Definition C2_RD : field := mkF "rd" 7 5.
Definition C2_RS1 : field := mkF "rs1" 7 5.
Definition C2_RS : field := mkF "rs" 2 5.
Definition C2_RS2 : field := mkF "rs2" 2 5.
Definition C2_SHAMT5 : field := mkF "shamt5" 2 5.
Definition C2_OPCODE : field := mkF "opcode" 0 2.
Definition form_C2 : form := mkForm "C2"
  [C2_FUNC3; C2_FUNC1; C2_SHAMT1; C2_RD; C2_RS1; C2_RS; C2_RS2; C2_SHAMT5; C2_OPCODE]
  [("func3", 0%nat); ("func1", 1%nat); ("shamt1", 2%nat); ("rd", 3%nat); ("rs1", 4%nat); ("rs", 5%nat); ("rs2", 6%nat); ("shamt5", 7%nat); ("opcode", 8%nat)]
  [C2_OPCODE; C2_FUNC3; C2_FUNC1] ImmNone.

(** impl/forms/CompressedForms.cpp:150-176 (and the enum in CompressedForms.h). *)
Definition C2_sp_store_FUNC3 : field := mkF "func3" 13 3.
Definition C2_sp_store_IMM : field := mkF "imm" 7 6.
Definition C2_sp_store_RS2 : field := mkF "rs2" 2 5.
Definition C2_sp_store_OPCODE : field := mkF "opcode" 0 2.
Definition form_C2_sp_store : form := mkForm "C2_sp_store"
  [C2_sp_store_FUNC3; C2_sp_store_IMM; C2_sp_store_RS2; C2_sp_store_OPCODE]
  [("func3", 0%nat); ("imm", 1%nat); ("rs2", 2%nat); ("opcode", 3%nat)]
  [C2_sp_store_OPCODE; C2_sp_store_FUNC3] ImmUnsigned.

(** impl/forms/CompressedForms.cpp:183-216 (and the enum in CompressedForms.h). *)
Definition CA_FUNC6 : field := mkF "func6" 10 6.
Definition CA_RS1 : field := mkF "rs1" 7 3.
Definition CA_RD : field := mkF "rd" 7 3.
Definition CA_FUNC2 : field := mkF "func2" 5 2.
Definition CA_RS2 : field := mkF "rs2" 2 3.
Definition CA_OPCODE : field := mkF "opcode" 0 2.
Definition form_CA : form := mkForm "CA"
  [CA_FUNC6; CA_RS1; CA_RD; CA_FUNC2; CA_RS2; CA_OPCODE]
  [("func6", 0%nat); ("rs1", 1%nat); ("rd", 2%nat); ("func2", 3%nat); ("rs2", 4%nat); ("opcode", 5%nat)]
  [CA_OPCODE; CA_FUNC6; CA_FUNC2] ImmNone.

(** impl/forms/CompressedForms.cpp:223-252 (and the enum in CompressedForms.h). *)
Definition CB_FUNC3 : field := mkF "func3" 13 3.
Definition CB_IMM3 : field := mkF "imm3" 10 3.
Definition CB_RS1 : field := mkF "rs1" 7 3.
Definition CB_IMM5 : field := mkF "imm5" 2 5.
Definition CB_OPCODE : field := mkF "opcode" 0 2.
Definition form_CB : form := mkForm "CB"
  [CB_FUNC3; CB_IMM3; CB_RS1; CB_IMM5; CB_OPCODE]
  [("func3", 0%nat); ("imm3", 1%nat); ("rs1", 2%nat); ("imm5", 3%nat); ("opcode", 4%nat)]
  [CB_OPCODE; CB_FUNC3] ImmSigned.

(** impl/forms/CompressedForms.cpp:259-291 (and the enum in CompressedForms.h). *)
Definition CI_FUNC3 : field := mkF "func3" 13 3.
Definition CI_IMM1 : field := mkF "imm1" 12 1.
Definition CI_RS1 : field := mkF "rs1" 7 5.
Definition CI_RD : field := mkF "rd" 7 5.
Definition CI_IMM5 : field := mkF "imm5" 2 5.
Definition CI_OPCODE : field := mkF "opcode" 0 2.
Definition form_CI : form := mkForm "CI"
  [CI_FUNC3; CI_IMM1; CI_RS1; CI_RD; CI_IMM5; CI_OPCODE]
  [("func3", 0%nat); ("imm1", 1%nat); ("rs1", 2%nat); ("rd", 3%nat); ("imm5", 4%nat); ("opcode", 5%nat)]
  [CI_OPCODE; CI_FUNC3] ImmUnsigned.

(** impl/forms/CompressedForms.cpp:298-327 (and the enum in CompressedForms.h). *)
Definition CI_rD_only_FUNC3 : field := mkF "func3" 13 3.
Definition CI_rD_only_IMM1 : field := mkF "imm1" 12 1.
Definition CI_rD_only_RD : field := mkF "rd" 7 5.
Definition CI_rD_only_IMM5 : field := mkF "imm5" 2 5.
Definition CI_rD_only_OPCODE : field := mkF "opcode" 0 2.
Definition form_CI_rD_only : form := mkForm "CI_rD_only"
  [CI_rD_only_FUNC3; CI_rD_only_IMM1; CI_rD_only_RD; CI_rD_only_IMM5; CI_rD_only_OPCODE]
  [("func3", 0%nat); ("imm1", 1%nat); ("rd", 2%nat); ("imm5", 3%nat); ("opcode", 4%nat)]
  [CI_rD_only_OPCODE; CI_rD_only_FUNC3] ImmSigned.

(** impl/forms/CompressedForms.cpp:334-360 (and the enum in CompressedForms.h). *)
Definition CIW_FUNC3 : field := mkF "func3" 13 3.
Definition CIW_IMM8 : field := mkF "imm8" 5 8.
Definition CIW_RD : field := mkF "rd" 2 3.
Definition CIW_OPCODE : field := mkF "opcode" 0 2.
Definition form_CIW : form := mkForm "CIW"
  [CIW_FUNC3; CIW_IMM8; CIW_RD; CIW_OPCODE]
  [("func3", 0%nat); ("imm8", 1%nat); ("rd", 2%nat); ("opcode", 3%nat)]
  [CIW_OPCODE; CIW_FUNC3] ImmSigned.

(** impl/forms/CompressedForms.cpp:367-403 (and the enum in CompressedForms.h). *)
Definition CIX_FUNC3 : field := mkF "func3" 13 3.
Definition CIX_SHAMT1 : field := mkF "shamt1" 12 1.
Definition CIX_FUNC2 : field := mkF "func2" 10 2.
Definition CIX_RS1 : field := mkF "rs1" 7 3.
Definition CIX_RD : field := mkF "rd" 7 3.
Definition CIX_SHAMT5 : field := mkF "shamt5" 2 5.
Definition CIX_OPCODE : field := mkF "opcode" 0 2.
Definition form_CIX : form := mkForm "CIX"
  [CIX_FUNC3; CIX_SHAMT1; CIX_FUNC2; CIX_RS1; CIX_RD; CIX_SHAMT5; CIX_OPCODE]
  [("func3", 0%nat); ("shamt1", 1%nat); ("func2", 2%nat); ("rs1", 3%nat); ("rd", 4%nat); ("shamt5", 5%nat); ("opcode", 6%nat)]
  [CIX_OPCODE; CIX_FUNC3; CIX_FUNC2] ImmUnsigned.

(** impl/forms/CompressedForms.cpp:410-433 (and the enum in CompressedForms.h). *)
Definition CJ_FUNC3 : field := mkF "func3" 13 3.
Definition CJ_IMM11 : field := mkF "imm11" 2 11.
Definition CJ_OPCODE : field := mkF "opcode" 0 2.
Definition form_CJ : form := mkForm "CJ"
  [CJ_FUNC3; CJ_IMM11; CJ_OPCODE]
  [("func3", 0%nat); ("imm11", 1%nat); ("opcode", 2%nat)]
  [CJ_OPCODE; CJ_FUNC3] ImmSigned.

(** impl/forms/CompressedForms.cpp:440-466 (and the enum in CompressedForms.h). *)
Definition CJR_FUNC4 : field := mkF "func4" 12 4.
Definition CJR_RS1 : field := mkF "rs1" 7 5.
Definition CJR_RS2 : field := mkF "rs2" 2 5.
Definition CJR_OPCODE : field := mkF "opcode" 0 2.
Definition form_CJR : form := mkForm "CJR"
  [CJR_FUNC4; CJR_RS1; CJR_RS2; CJR_OPCODE]
  [("func4", 0%nat); ("rs1", 1%nat); ("rs2", 2%nat); ("opcode", 3%nat)]
  [CJR_OPCODE; CJR_FUNC4] ImmNone.

(** impl/forms/VectorForms.cpp:10-61 (and the enum in VectorForms.h). *)
Definition V_FUNC1A : field := mkF "func1a" 31 1.
Definition V_FUNC1B : field := mkF "func1b" 30 1.
Definition V_FUNC3A : field := mkF "func3a" 27 3.
Definition V_FUNC1C : field := mkF "func1c" 26 1.
Definition V_VM : field := mkF "vm" 25 1.
Definition V_RS2 : field := mkF "rs2" 20 5.
Definition V_RS1 : field := mkF "rs1" 15 5.
Definition V_SIMM5 : field := mkF "simm5" 15 5.
Definition V_FUNC3B : field := mkF "func3b" 12 3.
Definition V_RD : field := mkF "rd" 7 5.
Definition V_OPCODE : field := mkF "opcode" 0 7.
Definition form_V : form := mkForm "V"
  [V_FUNC1A; V_FUNC1B; V_FUNC3A; V_FUNC1C; V_VM; V_RS2; V_RS1; V_SIMM5; V_FUNC3B; V_RD; V_OPCODE]
  [("func1a", 0%nat); ("func1b", 1%nat); ("func3a", 2%nat); ("func1c", 3%nat); ("vm", 4%nat); ("rs2", 5%nat); ("rs1", 6%nat); ("simm5", 7%nat); ("func3b", 8%nat); ("rd", 9%nat); ("opcode", 10%nat)]
  [V_OPCODE; V_FUNC3A; V_FUNC1A; V_FUNC1B; V_FUNC1C; V_FUNC3B] ImmNone.

(** impl/forms/VectorForms.cpp:68-110 (and the enum in VectorForms.h). *)
Definition VF_mem_NF : field := mkF "nf" 29 3.
Definition VF_mem_MEWOP : field := mkF "mewop" 26 3.
Definition VF_mem_VM : field := mkF "vm" 25 1.
Definition VF_mem_RS2 : field := mkF "rs2" 20 5.
Definition VF_mem_RS1 : field := mkF "rs1" 15 5.
Definition VF_mem_WIDTH : field := mkF "width" 12 3.
Definition VF_mem_RD : field := mkF "rd" 7 5.
Definition VF_mem_RS3 : field := mkF "rs3" 7 5.
Definition VF_mem_OPCODE : field := mkF "opcode" 0 7.
Definition form_VF_mem : form := mkForm "VF_mem"
  [VF_mem_NF; VF_mem_MEWOP; VF_mem_VM; VF_mem_RS2; VF_mem_RS1; VF_mem_WIDTH; VF_mem_RD; VF_mem_RS3; VF_mem_OPCODE]
  [("nf", 0%nat); ("mewop", 1%nat); ("vm", 2%nat); ("rs2", 3%nat); ("rs1", 4%nat); ("width", 5%nat); ("rd", 6%nat); ("rs3", 7%nat); ("opcode", 8%nat)]
  [VF_mem_OPCODE; VF_mem_WIDTH; VF_mem_MEWOP] ImmNone.

(** impl/forms/VectorForms.cpp:117-150 (and the enum in VectorForms.h). *)
Definition V_vsetvli_FUNC1 : field := mkF "func1" 31 1.
Definition V_vsetvli_IMM11 : field := mkF "imm11" 20 11.
Definition V_vsetvli_RS1 : field := mkF "rs1" 15 5.
Definition V_vsetvli_FUNC3 : field := mkF "func3" 12 3.
Definition V_vsetvli_RD : field := mkF "rd" 7 5.
Definition V_vsetvli_OPCODE : field := mkF "opcode" 0 7.
Definition form_V_vsetvli : form := mkForm "V_vsetvli"
  [V_vsetvli_FUNC1; V_vsetvli_IMM11; V_vsetvli_RS1; V_vsetvli_FUNC3; V_vsetvli_RD; V_vsetvli_OPCODE]
  [("func1", 0%nat); ("imm11", 1%nat); ("rs1", 2%nat); ("func3", 3%nat); ("rd", 4%nat); ("opcode", 5%nat)]
  [V_vsetvli_OPCODE; V_vsetvli_FUNC3; V_vsetvli_FUNC1] ImmUnsigned.

(** impl/forms/VectorForms.cpp:157-190 (and the enum in VectorForms.h). *)
Definition V_vsetivli_FUNC2 : field := mkF "func2" 30 2.
Definition V_vsetivli_IMM10 : field := mkF "imm10" 20 10.
Definition V_vsetivli_AVL : field := mkF "avl" 15 5.
Definition V_vsetivli_FUNC3 : field := mkF "func3" 12 3.
Definition V_vsetivli_RD : field := mkF "rd" 7 5.
Definition V_vsetivli_OPCODE : field := mkF "opcode" 0 7.
Definition form_V_vsetivli : form := mkForm "V_vsetivli"
  [V_vsetivli_FUNC2; V_vsetivli_IMM10; V_vsetivli_AVL; V_vsetivli_FUNC3; V_vsetivli_RD; V_vsetivli_OPCODE]
  [("func2", 0%nat); ("imm10", 1%nat); ("avl", 2%nat); ("func3", 3%nat); ("rd", 4%nat); ("opcode", 5%nat)]
  [V_vsetivli_OPCODE; V_vsetivli_FUNC3; V_vsetivli_FUNC2] ImmUnsigned.

(** impl/forms/VectorForms.cpp:197-229 (and the enum in VectorForms.h). *)
Definition V_vsetvl_FUNC7 : field := mkF "func7" 25 7.
Definition V_vsetvl_RS2 : field := mkF "rs2" 20 5.
Definition V_vsetvl_RS1 : field := mkF "rs1" 15 5.
Definition V_vsetvl_FUNC3 : field := mkF "func3" 12 3.
Definition V_vsetvl_RD : field := mkF "rd" 7 5.
Definition V_vsetvl_OPCODE : field := mkF "opcode" 0 7.
Definition form_V_vsetvl : form := mkForm "V_vsetvl"
  [V_vsetvl_FUNC7; V_vsetvl_RS2; V_vsetvl_RS1; V_vsetvl_FUNC3; V_vsetvl_RD; V_vsetvl_OPCODE]
  [("func7", 0%nat); ("rs2", 1%nat); ("rs1", 2%nat); ("func3", 3%nat); ("rd", 4%nat); ("opcode", 5%nat)]
  [V_vsetvl_OPCODE; V_vsetvl_FUNC7] ImmNone.

(** impl/forms/VectorForms.cpp:236-275 (and the enum in VectorForms.h). *)
Definition V_uimm6_FUNC5 : field := mkF "func5" 27 5.
Definition V_uimm6_I5 : field := mkF "i5" 26 1.
Definition V_uimm6_VM : field := mkF "vm" 25 1.
Definition V_uimm6_RS2 : field := mkF "rs2" 20 5.
Definition V_uimm6_UIMM5 : field := mkF "uimm5" 15 5.
Definition V_uimm6_FUNC3 : field := mkF "func3" 12 3.
Definition V_uimm6_RD : field := mkF "rd" 7 5.
Definition V_uimm6_OPCODE : field := mkF "opcode" 0 7.
Definition form_V_uimm6 : form := mkForm "V_uimm6"
  [V_uimm6_FUNC5; V_uimm6_I5; V_uimm6_VM; V_uimm6_RS2; V_uimm6_UIMM5; V_uimm6_FUNC3; V_uimm6_RD; V_uimm6_OPCODE]
  [("func5", 0%nat); ("i5", 1%nat); ("vm", 2%nat); ("rs2", 3%nat); ("uimm5", 4%nat); ("func3", 5%nat); ("rd", 6%nat); ("opcode", 7%nat)]
  [V_uimm6_OPCODE; V_uimm6_FUNC3; V_uimm6_FUNC5] ImmNone.

(** impl/FormRegistry.cpp:9-41, form_registry_. *)
Definition form_registry : list form :=
  [form_AMO; form_B; form_C0; form_C1; form_C2; form_CA; form_CB; form_CI; form_CI_rD_only; form_CIW; form_CIX; form_CJ; form_CJR; form_CSR; form_CSRI; form_FENCE; form_I; form_ISH; form_ISHW; form_J; form_R; form_Rfloat; form_R4; form_S; form_U; form_V; form_VF_mem; form_V_vsetvl; form_V_vsetvli; form_V_vsetivli; form_V_uimm6].

(** impl/FormRegistry.cpp:54-62, getFormWrapper. *)
Definition get_form (fname : string) : res form :=
  match find (fun fm => String.eqb (fm_name fm) fname) form_registry with
  | Some fm => Ok fm
  | None => Throw EBuildErrorUnknownForm
  end.

(** mavis/Form.h:76-83 and 69-72, getField(name) / getFieldIndex(name). *)
Definition get_field_index (fm : form) (fname : string) : res nat :=
  match find (fun p => String.eqb (fst p) fname) (fm_names fm) with
  | Some (_, i) => Ok i
  | None => Throw EBuildErrorUnknownFormField
  end.
Definition get_field (fm : form) (fname : string) : res field :=
  let* i := get_field_index fm fname in
  match nth_error (fm_fields fm) i with
  | Some f => Ok f
  | None => UB
  end.

(** mavis/Form.h:37-44, getFieldIDSet: fset |= (1u << index). *)
Fixpoint get_field_id_set (fm : form) (flist : list string) : res N :=
  match flist with
  | [] => Ok 0
  | f :: fs =>
      let* i := get_field_index fm f in
      let* r := get_field_id_set fm fs in
      if (32 <=? N.of_nat i)%N then UB else Ok (N.lor (N.shiftl 1 (N.of_nat i)) r)
  end.
