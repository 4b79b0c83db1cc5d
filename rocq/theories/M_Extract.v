(** Model of the extractors: mavis/Extractor.h, impl/forms/ExtractorForms.h,
    impl/forms/ExtractorDerived.h and impl/ExtractorRegistry.cpp.

    Virtual dispatch.  A C++ class is modelled by a function from [self] (the
    object as seen through its vtable) to its method record; a derived class
    takes the record of its base class (applied to the same [self]) and
    replaces the methods it overrides.  [x_src self] is a virtual call,
    [x_src base] a qualified call [Extractor<Base>::getSourceRegs].  [tie]
    closes the recursion; the nesting depth of virtual calls in the source is
    at most three (typed masks -> getSourceRegs -> getSourceDataRegs), and the
    object below the last level answers [UB] everywhere, so that a result other
    than [UB] never used it.

    Not modelled: dasmAnnotate, print and getName (text output), and the overload of
    dasmString without meta-data where the one with meta-data does not use it. *)
From Coq Require Import NArith ZArith List Bool String Ascii DecimalString HexadecimalString.
From Verif Require Import M_Base M_Field M_Forms M_Meta M_OperandInfo.
Import ListNotations.
Local Open Scope N_scope.

(** mavis/DecoderConsts.h:7-11. *)
Definition REGISTER_X0 : N := 0.
Definition REGISTER_LINK : N := 1.
Definition REGISTER_SP : N := 2.
Definition REGISTER_ALT_LINK : N := 5.
Definition MAX_REG_NUM : N := 31.

(** mavis/Extractor.h:26-41, enum SpecialField (SF__N is the __N enumerator). *)
Inductive sfid := SF_AQ | SF_AVL | SF_CSR | SF_FM | SF_NF | SF_PRED | SF_RL | SF_RM
                | SF_SUCC | SF_VM | SF_WD | SF_HINT | SF__N.

(** mavis/Extractor.h:14-163, the virtual interface ExtractorIF. *)
Record Ext := mkX {
  x_illop : N -> res bool;                       (* isIllop *)
  x_hint : N -> res bool;                        (* isHint *)
  x_src : N -> res N;                            (* getSourceRegs *)
  x_addr : N -> res N;                           (* getSourceAddressRegs *)
  x_data : N -> res N;                           (* getSourceDataRegs *)
  x_dst : N -> res N;                            (* getDestRegs *)
  x_srcT : N -> meta -> kind -> res N;           (* getSourceOperTypeRegs *)
  x_dstT : N -> meta -> kind -> res N;           (* getDestOperTypeRegs *)
  x_srcI : N -> meta -> bool -> res opinfo;      (* getSourceOperandInfo *)
  x_dstI : N -> meta -> bool -> res opinfo;      (* getDestOperandInfo *)
  x_immT : imm_type;                             (* getImmediateType *)
  x_imm : N -> res N;                            (* getImmediate *)
  x_soff : N -> res Z;                           (* getSignedOffset *)
  x_spec : sfid -> N -> res N;                   (* getSpecialField *)
  x_dasm : string -> N -> meta -> res string }.  (* dasmString(mnemonic, icode, meta) *)

(** Overriding one method. *)
Definition o_illop v (b : Ext) : Ext :=
  mkX v (x_hint b) (x_src b) (x_addr b) (x_data b) (x_dst b) (x_srcT b) (x_dstT b) (x_srcI b) (x_dstI b) (x_immT b) (x_imm b) (x_soff b) (x_spec b) (x_dasm b).
Definition o_hint v (b : Ext) : Ext :=
  mkX (x_illop b) v (x_src b) (x_addr b) (x_data b) (x_dst b) (x_srcT b) (x_dstT b) (x_srcI b) (x_dstI b) (x_immT b) (x_imm b) (x_soff b) (x_spec b) (x_dasm b).
Definition o_src v (b : Ext) : Ext :=
  mkX (x_illop b) (x_hint b) v (x_addr b) (x_data b) (x_dst b) (x_srcT b) (x_dstT b) (x_srcI b) (x_dstI b) (x_immT b) (x_imm b) (x_soff b) (x_spec b) (x_dasm b).
Definition o_addr v (b : Ext) : Ext :=
  mkX (x_illop b) (x_hint b) (x_src b) v (x_data b) (x_dst b) (x_srcT b) (x_dstT b) (x_srcI b) (x_dstI b) (x_immT b) (x_imm b) (x_soff b) (x_spec b) (x_dasm b).
Definition o_data v (b : Ext) : Ext :=
  mkX (x_illop b) (x_hint b) (x_src b) (x_addr b) v (x_dst b) (x_srcT b) (x_dstT b) (x_srcI b) (x_dstI b) (x_immT b) (x_imm b) (x_soff b) (x_spec b) (x_dasm b).
Definition o_dst v (b : Ext) : Ext :=
  mkX (x_illop b) (x_hint b) (x_src b) (x_addr b) (x_data b) v (x_srcT b) (x_dstT b) (x_srcI b) (x_dstI b) (x_immT b) (x_imm b) (x_soff b) (x_spec b) (x_dasm b).
Definition o_srcT v (b : Ext) : Ext :=
  mkX (x_illop b) (x_hint b) (x_src b) (x_addr b) (x_data b) (x_dst b) v (x_dstT b) (x_srcI b) (x_dstI b) (x_immT b) (x_imm b) (x_soff b) (x_spec b) (x_dasm b).
Definition o_dstT v (b : Ext) : Ext :=
  mkX (x_illop b) (x_hint b) (x_src b) (x_addr b) (x_data b) (x_dst b) (x_srcT b) v (x_srcI b) (x_dstI b) (x_immT b) (x_imm b) (x_soff b) (x_spec b) (x_dasm b).
Definition o_srcI v (b : Ext) : Ext :=
  mkX (x_illop b) (x_hint b) (x_src b) (x_addr b) (x_data b) (x_dst b) (x_srcT b) (x_dstT b) v (x_dstI b) (x_immT b) (x_imm b) (x_soff b) (x_spec b) (x_dasm b).
Definition o_dstI v (b : Ext) : Ext :=
  mkX (x_illop b) (x_hint b) (x_src b) (x_addr b) (x_data b) (x_dst b) (x_srcT b) (x_dstT b) (x_srcI b) v (x_immT b) (x_imm b) (x_soff b) (x_spec b) (x_dasm b).
Definition o_immT v (b : Ext) : Ext :=
  mkX (x_illop b) (x_hint b) (x_src b) (x_addr b) (x_data b) (x_dst b) (x_srcT b) (x_dstT b) (x_srcI b) (x_dstI b) v (x_imm b) (x_soff b) (x_spec b) (x_dasm b).
Definition o_imm v (b : Ext) : Ext :=
  mkX (x_illop b) (x_hint b) (x_src b) (x_addr b) (x_data b) (x_dst b) (x_srcT b) (x_dstT b) (x_srcI b) (x_dstI b) (x_immT b) v (x_soff b) (x_spec b) (x_dasm b).
Definition o_soff v (b : Ext) : Ext :=
  mkX (x_illop b) (x_hint b) (x_src b) (x_addr b) (x_data b) (x_dst b) (x_srcT b) (x_dstT b) (x_srcI b) (x_dstI b) (x_immT b) (x_imm b) v (x_spec b) (x_dasm b).
Definition o_spec v (b : Ext) : Ext :=
  mkX (x_illop b) (x_hint b) (x_src b) (x_addr b) (x_data b) (x_dst b) (x_srcT b) (x_dstT b) (x_srcI b) (x_dstI b) (x_immT b) (x_imm b) (x_soff b) v (x_dasm b).
Definition o_dasm v (b : Ext) : Ext :=
  mkX (x_illop b) (x_hint b) (x_src b) (x_addr b) (x_data b) (x_dst b) (x_srcT b) (x_dstT b) (x_srcI b) (x_dstI b) (x_immT b) (x_imm b) (x_soff b) (x_spec b) v.

(** The object below the last level of [tie]. *)
Definition bottom : Ext :=
  mkX (fun _ => UB) (fun _ => UB) (fun _ => UB) (fun _ => UB) (fun _ => UB) (fun _ => UB)
      (fun _ _ _ => UB) (fun _ _ _ => UB) (fun _ _ _ => UB) (fun _ _ _ => UB) ImmNone
      (fun _ => UB) (fun _ => UB) (fun _ _ => UB) (fun _ _ _ => UB).
Definition tie (c : Ext -> Ext) : Ext := c (c (c (c bottom))).

(** mavis/Extractor.h:253-284, ExtractorBase::getSpecialField. *)
Definition spec_base (s : sfid) (_ : N) : res N :=
  match s with SF__N => Throw EInvalidSpecialField | _ => Throw EUnsupportedSpecialField end.

(** mavis/Extractor.h:174-289, ExtractorBase<FormType> with FormType::immediate_type = [it].
    getSignedOffset converts uint64_t to int64_t (two's complement on every supported compiler).
    dasmString is pure here; see [dasm]. *)
Definition x_base (it : imm_type) (self : Ext) : Ext :=
  mkX (fun _ => Ok false) (fun _ => Ok false)
      (fun _ => Ok 0) (fun _ => Ok 0) (fun _ => Ok 0) (fun _ => Ok 0)
      (fun _ _ _ => Ok 0) (fun _ _ _ => Ok 0)
      (fun _ _ _ => Ok oi_empty) (fun _ _ _ => Ok oi_empty)
      it (fun _ => Ok 0)
      (fun ic => let* i := x_imm self ic in Ok (to_i64 i))
      spec_base (fun _ _ _ => UB).

(** mavis/Extractor.h:333-336, isMaskedField_. *)
Definition masked (f : field) (mask : N) : bool := negb (N.land (f_smask f) mask =? 0).
(** [1ull << n]; the shift amount is a register number, below 64. *)
Definition bit1 (n : N) : N := shl64 1 n.
(** mavis/Extractor.h:351-358, extractUnmaskedIndexBit_. *)
Definition ubit (f : field) (ic mask : N) : N :=
  if masked f mask then 0 else bit1 (f_extract f ic).
(** mavis/Extractor.h:360-363, extractCompressedRegister_. *)
Definition creg (f : field) (ic : N) : N := f_extract f ic + 8.
(** mavis/Extractor.h:374-381, extractUnmaskedCompressedIndexBit_. *)
Definition ucbit (f : field) (ic mask : N) : N :=
  if masked f mask then 0 else bit1 (creg f ic).
(** mavis/Extractor.h:400-411 and 413-424, appendUnmaskedOperandInfo_ and
    appendUnmaskedImpliedOperandInfo_ ([imp] distinguishes them).  The register
    number is at most 31, so its conversion to uint32_t is the identity. *)
Definition app_u (imp : bool) (o : opinfo) (ic : N) (m : meta) (mid : fid) (mask : N) (f : field)
    (sdata sx0 : bool) : res opinfo :=
  if masked f mask then Ok o
  else let reg := f_extract f ic in
       if negb sx0 || negb (reg =? REGISTER_X0)
       then add_elem o (mkE (Some mid) (mt_otype m mid) reg sdata imp)
       else Ok o.
(** mavis/Extractor.h:437-446, appendUnmaskedCompressedOperandInfo_. *)
Definition app_c (o : opinfo) (ic : N) (m : meta) (mid : fid) (mask : N) (f : field)
    (sdata : bool) : res opinfo :=
  if masked f mask then Ok o
  else add_elem o (mkE (Some mid) (mt_otype m mid) (creg f ic) sdata false).

(** The shape shared by every getSourceRegs/getDestRegs built from fields:
    the OR of extractUnmasked(Compressed)IndexBit_ over the listed fields. *)
Definition or_bits (bit : field -> N -> N -> N) (ffm : N) (l : list field) (ic : N) : N :=
  fold_left (fun acc f => N.lor acc (bit f ic ffm)) l 0.
(** The shape shared by every get{Source,Dest}OperTypeRegs: none -> 0,
    all -> the (virtual) full mask, otherwise the typed fields. *)
Definition typed (all : N -> res N) (bit : field -> N -> N -> N) (ffm : N) (l : list (fid * field))
    (ic : N) (m : meta) (k : kind) : res N :=
  if is_none_ot m k then Ok 0
  else if is_all_ot m k then all ic
  else Ok (fold_left (fun acc p => if is_ot m (fst p) k then N.lor acc (bit (snd p) ic ffm) else acc) l 0).
(** The shape shared by every get{Source,Dest}OperandInfo: the listed appends in order. *)
Fixpoint infos (ffm : N) (l : list (fid * field * bool)) (o : opinfo) (ic : N) (m : meta) (sx0 : bool)
    : res opinfo :=
  match l with
  | [] => Ok o
  | (mid, f, sd) :: r => let* o' := app_u false o ic m mid ffm f sd sx0 in infos ffm r o' ic m sx0
  end.
Fixpoint cinfos (ffm : N) (l : list (fid * field * bool)) (o : opinfo) (ic : N) (m : meta)
    : res opinfo :=
  match l with
  | [] => Ok o
  | (mid, f, sd) :: r => let* o' := app_c o ic m mid ffm f sd in cinfos ffm r o' ic m
  end.
(** olist.addElement(fid, type, value, false). *)
Definition add_plain (o : opinfo) (f : fid) (t : option kind) (v : N) : res opinfo :=
  add_elem o (mkE (Some f) t v false false).

(** Source/destination methods of a class that reads plain register fields. *)
Definition m_src (ffm : N) (self : Ext) (l : list (fid * field)) (b : Ext) : Ext :=
  o_src (fun ic => Ok (or_bits ubit ffm (map snd l) ic))
  (o_srcT (typed (x_src self) ubit ffm l)
  (o_srcI (infos ffm (map (fun p => (p, false)) l) oi_empty) b)).
Definition m_dst (ffm : N) (self : Ext) (l : list (fid * field)) (b : Ext) : Ext :=
  o_dst (fun ic => Ok (or_bits ubit ffm (map snd l) ic))
  (o_dstT (typed (x_dst self) ubit ffm l)
  (o_dstI (infos ffm (map (fun p => (p, false)) l) oi_empty) b)).
(** The same for compressed (3-bit) register fields. *)
Definition m_csrc (ffm : N) (self : Ext) (l : list (fid * field)) (b : Ext) : Ext :=
  o_src (fun ic => Ok (or_bits ucbit ffm (map snd l) ic))
  (o_srcT (typed (x_src self) ucbit ffm l)
  (o_srcI (fun ic m _ => cinfos ffm (map (fun p => (p, false)) l) oi_empty ic m) b)).
Definition m_cdst (ffm : N) (self : Ext) (l : list (fid * field)) (b : Ext) : Ext :=
  o_dst (fun ic => Ok (or_bits ucbit ffm (map snd l) ic))
  (o_dstT (typed (x_dst self) ucbit ffm l)
  (o_dstI (fun ic m _ => cinfos ffm (map (fun p => (p, false)) l) oi_empty ic m) b)).

(** Special fields: a table of fields with a flag "throws when the field is fixed". *)
Definition spec_of (ffm : N) (l : list (sfid * field * bool)) (s : sfid) (ic : N) : res N :=
  match find (fun p => match fst (fst p), s with
                       | SF_AQ, SF_AQ | SF_AVL, SF_AVL | SF_CSR, SF_CSR | SF_FM, SF_FM
                       | SF_NF, SF_NF | SF_PRED, SF_PRED | SF_RL, SF_RL | SF_RM, SF_RM
                       | SF_SUCC, SF_SUCC | SF_VM, SF_VM | SF_WD, SF_WD | SF_HINT, SF_HINT => true
                       | _, _ => false end) l with
  | Some (_, f, chk) =>
      if chk && masked f ffm then Throw EUnsupportedSpecialField else Ok (f_extract f ic)
  | None => spec_base s ic
  end.

(** signExtend_(getImmediate(icode), pos) with the virtual getImmediate. *)
Definition soff (self : Ext) (pos ic : N) : res Z :=
  let* i := x_imm self ic in sign_extend i pos.
(** Swizzler::extract(imm, R..., R...). *)
Fixpoint sequence {A} (l : list (res A)) : res (list A) :=
  match l with
  | [] => Ok []
  | r :: rs => let* a := r in let* b := sequence rs in Ok (a :: b)
  end.
Definition swz (x : N) (rs : list (res range)) : res N :=
  let* l := sequence rs in Ok (sw_extract x l).
Notation "a .|. b" := (N.lor a b) (at level 50, left associativity).
Notation "a .&. b" := (N.land a b) (at level 45, left associativity).

(* ------------------------------------------------------------------ *)
(** * impl/forms/ExtractorForms.h *)

(** ExtractorForms.h:40-182. *)
Definition c_AMO (ffm : N) (self : Ext) : Ext :=
  m_src ffm self [(RS1, AMO_RS1); (RS2, AMO_RS2)] (m_dst ffm self [(RD, AMO_RD)]
  (o_spec (spec_of ffm [(SF_AQ, AMO_AQ, false); (SF_RL, AMO_RL, false);
                        (SF_VM, AMO_VM, false); (SF_WD, AMO_WD, false)])
  (x_base ImmNone self))).

(** ExtractorForms.h:188-286. *)
Definition c_B (ffm : N) (self : Ext) : Ext :=
  m_src ffm self [(RS1, B_RS1); (RS2, B_RS2)]
  (o_immT ImmSigned
  (o_imm (fun ic =>
     let imm7 := f_extract B_IMM7 (andnot64 ic ffm) in
     let imm5 := f_extract B_IMM5 (andnot64 ic ffm) in
     Ok (shl64 (imm7 .&. 0x40) 6 .|. shl64 (imm5 .&. 0x01) 11 .|.
         shl64 (imm7 .&. 0x3f) 5 .|. (imm5 .&. 0x1e)))
  (o_soff (soff self 12)
  (x_base ImmSigned self)))).

(** ExtractorForms.h:292-390. *)
Definition c_C0 (ffm : N) (self : Ext) : Ext :=
  m_csrc ffm self [(RS1, C0_RS1)] (m_cdst ffm self [(RD, C0_RD)] (x_base ImmUnsigned self)).

(** ExtractorForms.h:396-496. *)
Definition c_C2 (ffm : N) (self : Ext) : Ext :=
  m_src ffm self [(RS2, C2_RS)] (m_dst ffm self [(RD, C2_RD)] (x_base ImmNone self)).

(** ExtractorForms.h:503-592. *)
Definition c_C2_sp_store (ffm : N) (self : Ext) : Ext :=
  o_src (fun ic => Ok (ubit C2_sp_store_RS2 ic ffm .|. bit1 REGISTER_SP))
  (o_addr (fun _ => Ok (bit1 REGISTER_SP))
  (o_data (fun ic => Ok (ubit C2_sp_store_RS2 ic ffm))
  (o_srcT (fun ic m k =>
     if is_none_ot m k then Ok 0
     else if is_all_ot m k then x_src self ic
     else Ok ((if is_ot m RS1 k then bit1 REGISTER_SP else 0) .|.
              (if is_ot m RS2 k then ubit C2_sp_store_RS2 ic ffm else 0)))
  (o_srcI (fun ic m sx0 =>
     let* o := add_plain oi_empty RS1 (mt_otype m RS1) REGISTER_SP in
     app_u false o ic m RS2 ffm C2_sp_store_RS2 true sx0)
  (x_base ImmUnsigned self))))).

(** ExtractorForms.h:598-703. *)
Definition c_CA (ffm : N) (self : Ext) : Ext :=
  m_csrc ffm self [(RS1, CA_RS1); (RS2, CA_RS2)] (m_cdst ffm self [(RD, CA_RD)]
  (x_base ImmNone self)).

(** ExtractorForms.h:709-801. *)
Definition c_CB (ffm : N) (self : Ext) : Ext :=
  o_src (fun ic => Ok (ucbit CB_RS1 ic ffm .|. bit1 REGISTER_X0))
  (o_srcT (fun ic m k =>
     if is_none_ot m k then Ok 0
     else if is_all_ot m k then x_src self ic
     else Ok (if is_ot m RS1 k then ucbit CB_RS1 ic ffm .|. bit1 REGISTER_X0 else 0))
  (o_srcI (fun ic m _ =>
     let* o := app_c oi_empty ic m RS1 ffm CB_RS1 false in
     add_plain o RS2 (mt_otype m RS1) REGISTER_X0)
  (o_immT ImmSigned
  (o_imm (fun ic =>
     let imm3 := f_extract CB_IMM3 ic in
     let imm5 := f_extract CB_IMM5 ic in
     Ok (shl64 (imm3 .&. 0x04) 6 .|. shl64 (imm5 .&. 0x18) 3 .|. shl64 (imm5 .&. 0x01) 5 .|.
         shl64 (imm3 .&. 0x03) 3 .|. (imm5 .&. 0x06)))
  (o_soff (soff self 8)
  (x_base ImmSigned self)))))).

(** ExtractorForms.h:807-929. *)
Definition c_CI (ffm : N) (self : Ext) : Ext :=
  m_src ffm self [(RS1, CI_RS1)] (m_dst ffm self [(RD, CI_RD)]
  (o_immT ImmSigned
  (o_imm (fun ic => Ok (shl64 (f_extract CI_IMM1 ic) 5 .|. f_extract CI_IMM5 ic))
  (o_soff (soff self 5)
  (x_base ImmUnsigned self))))).

(** The typed x0 of CI_rD_only's source and CJ/CJR's destination. *)
Definition typed_x0 (all : N -> res N) (r : N) (ic : N) (m : meta) (k : kind) : res N :=
  if is_none_ot m k then Ok 0
  else if is_all_ot m k then all ic
  else match k with KLong | KWord => Ok (bit1 r) | _ => Ok 0 end.

(** ExtractorForms.h:936-1060. *)
Definition c_CI_rD_only (ffm : N) (self : Ext) : Ext :=
  o_hint (fun ic => let* d := x_dst self ic in Ok (negb (d .&. bit1 REGISTER_X0 =? 0)))
  (o_src (fun _ => Ok (bit1 REGISTER_X0))
  (o_srcT (typed_x0 (x_src self) REGISTER_X0)
  (o_srcI (fun _ m sx0 =>
     if sx0 then Ok oi_empty else add_plain oi_empty RS1 (mt_otype m RD) REGISTER_X0)
  (m_dst ffm self [(RD, CI_rD_only_RD)]
  (o_immT ImmSigned
  (o_imm (fun ic => Ok (shl64 (f_extract CI_rD_only_IMM1 ic) 5 .|. f_extract CI_rD_only_IMM5 ic))
  (o_soff (soff self 5)
  (x_base ImmSigned self)))))))).

(** ExtractorForms.h:1066-1134. *)
Definition c_CIW (ffm : N) (self : Ext) : Ext :=
  m_cdst ffm self [(RD, CIW_RD)] (x_base ImmSigned self).

(** ExtractorForms.h:1140-1249. *)
Definition c_CIX (ffm : N) (self : Ext) : Ext :=
  o_hint (fun ic => let* i := x_imm self ic in Ok (i =? 0))
  (m_csrc ffm self [(RS1, CIX_RS1)] (m_cdst ffm self [(RD, CIX_RD)]
  (o_imm (fun ic => Ok (shl64 (f_extract CIX_SHAMT1 ic) 5 .|. f_extract CIX_SHAMT5 ic))
  (x_base ImmUnsigned self)))).

(** ExtractorForms.h:1255-1338. *)
Definition c_CJ (ffm : N) (self : Ext) : Ext :=
  o_dst (fun _ => Ok (bit1 REGISTER_X0))
  (o_dstT (typed_x0 (x_dst self) REGISTER_X0)
  (o_dstI (fun _ _ sx0 =>
     if sx0 then Ok oi_empty else add_plain oi_empty RD (Some KLong) REGISTER_X0)
  (o_immT ImmSigned
  (o_imm (fun ic =>
     let imm11 := f_extract CJ_IMM11 (andnot64 ic ffm) in
     Ok (shl64 (imm11 .&. 0x400) 1 .|. shl64 (imm11 .&. 0x040) 4 .|. shl64 (imm11 .&. 0x180) 1 .|.
         shl64 (imm11 .&. 0x010) 3 .|. shl64 (imm11 .&. 0x020) 1 .|. shl64 (imm11 .&. 0x001) 5 .|.
         N.shiftr (imm11 .&. 0x200) 5 .|. (imm11 .&. 0x00E)))
  (o_soff (soff self 11)
  (x_base ImmSigned self)))))).

(** ExtractorForms.h:1344-1450. *)
Definition c_CJR (ffm : N) (self : Ext) : Ext :=
  o_illop (fun ic => let* s := x_src self ic in Ok (negb (s .&. bit1 REGISTER_X0 =? 0)))
  (m_src ffm self [(RS1, CJR_RS1)]
  (o_dst (fun _ => Ok (bit1 REGISTER_X0))
  (o_dstT (typed_x0 (x_dst self) REGISTER_X0)
  (o_dstI (fun _ _ sx0 =>
     if sx0 then Ok oi_empty else add_plain oi_empty RD (Some KLong) REGISTER_X0)
  (x_base ImmNone self))))).

(** ExtractorForms.h:1456-1580. *)
Definition c_CSR (ffm : N) (self : Ext) : Ext :=
  m_src ffm self [(RS1, CSR_RS1)] (m_dst ffm self [(RD, CSR_RD)]
  (o_spec (spec_of ffm [(SF_CSR, CSR_CSR, false)])
  (x_base ImmNone self))).

(** ExtractorForms.h:1586-1684. *)
Definition c_CSRI (ffm : N) (self : Ext) : Ext :=
  m_dst ffm self [(RD, CSRI_RD)]
  (o_imm (fun ic => Ok (f_extract CSRI_UIMM (andnot64 ic ffm)))
  (o_spec (spec_of ffm [(SF_CSR, CSRI_CSR, false)])
  (x_base ImmUnsigned self))).

(** ExtractorForms.h:1690-1819. *)
Definition c_FENCE (ffm : N) (self : Ext) : Ext :=
  m_src ffm self [(RS1, FENCE_RS1)] (m_dst ffm self [(RD, FENCE_RD)]
  (o_spec (spec_of ffm [(SF_FM, FENCE_FM, false); (SF_PRED, FENCE_PRED, false);
                        (SF_HINT, FENCE_PRED, false); (SF_SUCC, FENCE_SUCC, false)])
  (x_base ImmNone self))).

(** ExtractorForms.h:1826-1943. *)
Definition c_I (ffm : N) (self : Ext) : Ext :=
  m_src ffm self [(RS1, I_RS1)] (m_dst ffm self [(RD, I_RD)]
  (o_immT ImmSigned
  (o_imm (fun ic => Ok (f_extract I_IMM ic))
  (o_soff (soff self 11)
  (x_base ImmSigned self))))).

(** ExtractorForms.h:1949-2058. *)
Definition c_ISH (ffm : N) (self : Ext) : Ext :=
  m_src ffm self [(RS1, ISH_RS1)] (m_dst ffm self [(RD, ISH_RD)]
  (o_imm (fun ic => Ok (f_extract ISH_SHAMT ic))
  (x_base ImmSigned self))).

(** ExtractorForms.h:2064-2170. *)
Definition c_ISHW (ffm : N) (self : Ext) : Ext :=
  m_src ffm self [(RS1, ISHW_RS1)] (m_dst ffm self [(RD, ISHW_RD)]
  (o_imm (fun ic => Ok (f_extract ISHW_SHAMTW ic))
  (x_base ImmSigned self))).

(** ExtractorForms.h:2176-2263. *)
Definition c_J (ffm : N) (self : Ext) : Ext :=
  m_dst ffm self [(RD, J_RD)]
  (o_immT ImmSigned
  (o_imm (fun ic =>
     let imm20 := f_extract J_IMM20 (andnot64 ic ffm) in
     Ok (shl64 (imm20 .&. 0x80000) 1 .|. shl64 (imm20 .&. 0x000FF) 12 .|.
         shl64 (imm20 .&. 0x00100) 3 .|. N.shiftr (imm20 .&. 0x7FE00) 8))
  (o_soff (soff self 20)
  (x_base ImmSigned self)))).

(** ExtractorForms.h:2269-2377. *)
Definition c_R (ffm : N) (self : Ext) : Ext :=
  m_src ffm self [(RS1, R_RS1); (RS2, R_RS2)] (m_dst ffm self [(RD, R_RD)]
  (x_base ImmNone self)).

(** ExtractorForms.h:2383-2521. *)
Definition c_Rfloat (ffm : N) (self : Ext) : Ext :=
  m_src ffm self [(RS1, Rfloat_RS1); (RS2, Rfloat_RS2)] (m_dst ffm self [(RD, Rfloat_RD)]
  (o_spec (spec_of ffm [(SF_RM, Rfloat_RM, false)])
  (x_base ImmNone self))).

(** ExtractorForms.h:2527-2674. *)
Definition c_R4 (ffm : N) (self : Ext) : Ext :=
  m_src ffm self [(RS1, R4_RS1); (RS2, R4_RS2); (RS3, R4_RS3)] (m_dst ffm self [(RD, R4_RD)]
  (o_spec (spec_of ffm [(SF_RM, R4_RM, false)])
  (x_base ImmNone self))).

(** ExtractorForms.h:2682-2785. *)
Definition c_S (ffm : N) (self : Ext) : Ext :=
  o_srcI (infos ffm [(RS1, S_RS1, false); (RS2, S_RS2, true)] oi_empty)
  (m_src ffm self [(RS1, S_RS1); (RS2, S_RS2)]
  (o_addr (fun ic => Ok (ubit S_RS1 ic ffm))
  (o_data (fun ic => Ok (ubit S_RS2 ic ffm))
  (o_immT ImmSigned
  (o_imm (fun ic => Ok (shl64 (f_extract S_IMM7 (andnot64 ic ffm)) 5 .|.
                        f_extract S_IMM5 (andnot64 ic ffm)))
  (o_soff (soff self 11)
  (x_base ImmSigned self))))))).

(** ExtractorForms.h:2791-2874.  getDestRegs does not test the fixed-field mask;
    it clears the fixed bits of the opcode instead. *)
Definition c_U (ffm : N) (self : Ext) : Ext :=
  o_dst (fun ic => Ok (bit1 (f_extract U_RD (andnot64 ic ffm))))
  (m_dst ffm self [(RD, U_RD)]
  (o_immT ImmSigned
  (o_imm (fun ic => Ok (shl64 (f_extract U_IMM20 (andnot64 ic ffm)) 12))
  (o_soff (soff self 31)
  (x_base ImmUnsigned self))))).

(** ExtractorForms.h:2880-3027. *)
Definition c_V (ffm : N) (self : Ext) : Ext :=
  m_src ffm self [(RS1, V_RS1); (RS2, V_RS2)] (m_dst ffm self [(RD, V_RD)]
  (o_spec (spec_of ffm [(SF_VM, V_VM, true)])
  (x_base ImmNone self))).

(** ExtractorForms.h:3033-3212. *)
Definition c_VF_mem (ffm : N) (self : Ext) : Ext :=
  m_src ffm self [(RS1, VF_mem_RS1); (RS2, VF_mem_RS2)] (m_dst ffm self [(RD, VF_mem_RD)]
  (o_spec (spec_of ffm [(SF_NF, VF_mem_NF, true); (SF_VM, VF_mem_VM, true)])
  (x_base ImmNone self))).

(** ExtractorForms.h:3218-3344. *)
Definition c_V_vsetvli (ffm : N) (self : Ext) : Ext :=
  m_src ffm self [(RS1, V_vsetvli_RS1)] (m_dst ffm self [(RD, V_vsetvli_RD)]
  (o_imm (fun ic => Ok (f_extract V_vsetvli_IMM11 (andnot64 ic ffm)))
  (x_base ImmUnsigned self))).

(** ExtractorForms.h:3350-3437. *)
Definition c_V_vsetivli (ffm : N) (self : Ext) : Ext :=
  m_dst ffm self [(RD, V_vsetivli_RD)]
  (o_spec (spec_of ffm [(SF_AVL, V_vsetivli_AVL, false)])
  (o_imm (fun ic => Ok (f_extract V_vsetivli_IMM10 (andnot64 ic ffm)))
  (x_base ImmUnsigned self))).

(** ExtractorForms.h:3443-3571. *)
Definition c_V_vsetvl (ffm : N) (self : Ext) : Ext :=
  m_src ffm self [(RS1, V_vsetvl_RS1); (RS2, V_vsetvl_RS2)] (m_dst ffm self [(RD, V_vsetvl_RD)]
  (x_base ImmNone self)).

(** ExtractorForms.h:3577-3729. *)
Definition c_V_uimm6 (ffm : N) (self : Ext) : Ext :=
  m_src ffm self [(RS2, V_uimm6_RS2)] (m_dst ffm self [(RD, V_uimm6_RD)]
  (o_spec (spec_of ffm [(SF_VM, V_uimm6_VM, true)])
  (o_immT ImmUnsigned
  (o_imm (fun ic => Ok (shl64 (f_extract V_uimm6_I5 (andnot64 ic ffm)) 5 .|.
                        f_extract V_uimm6_UIMM5 (andnot64 ic ffm)))
  (x_base ImmNone self))))).

(* ------------------------------------------------------------------ *)
(** * impl/forms/ExtractorDerived.h *)

(** ExtractorDerived.h:14-38. *)
Definition c_I_mv (ffm : N) (self : Ext) : Ext := o_immT ImmNone (c_I ffm self).
(** ExtractorDerived.h:45-70. *)
Definition c_I_load (ffm : N) (self : Ext) : Ext := o_addr (x_src self) (c_I ffm self).

(** The register-pair idiom of the *_pair extractors:
    [mask |= 1ull << (64 - __builtin_clzll(mask))]; clzll(0) is undefined;
    for a non-zero mask 64 - clzll(mask) = log2(mask) + 1 (a shift of 64 is undefined). *)
Definition pair_up (mask : N) : res N :=
  if mask =? 0 then UB
  else let pos := N.log2 mask + 1 in
       if 64 <=? pos then UB else Ok (mask .|. bit1 pos).
(** [auto e = olist.getElements().at(i); e.field_id = f; ++e.field_value; olist.addElement(e)]. *)
Definition add_second (o : opinfo) (i : nat) (f : fid) : res opinfo :=
  match nth_error (oi_elems o) i with
  | None => Throw EStdOutOfRange
  | Some e => add_elem o (mkE (Some f) (e_type e) (u32 (e_val e + 1)) (e_sdata e) (e_implied e))
  end.
(** The same with the assert that element [i] is RS2. *)
Definition add_second_rs2 (o : opinfo) (i : nat) (f : fid) : res opinfo :=
  match nth_error (oi_elems o) i with
  | None => Throw EStdOutOfRange
  | Some e =>
      let* _ := rassert (ofid_eqb (e_fid e) (Some RS2)) in
      add_elem o (mkE (Some f) (e_type e) (u32 (e_val e + 1)) (e_sdata e) (e_implied e))
  end.
Definition odd_field (f : field) (ic : N) : bool := negb (f_extract f ic .&. 1 =? 0).

(** ExtractorDerived.h:79-128. *)
Definition c_I_load_pair (ffm : N) (self : Ext) : Ext :=
  let base := c_I_load ffm self in
  o_illop (fun ic => Ok (odd_field I_RD ic))
  (o_dst (fun ic => if f_extract I_RD ic =? REGISTER_X0 then Ok 0 else pair_up (ubit I_RD ic ffm))
  (o_dstI (fun ic m sx0 =>
     if f_extract I_RD ic =? REGISTER_X0 then Ok oi_empty
     else let* o := x_dstI base ic m sx0 in add_second o 0 RD2)
  base)).

(** ExtractorDerived.h:134-181. *)
Definition c_C0_load (ffm : N) (self : Ext) : Ext := o_addr (x_src self) (c_C0 ffm self).
Definition imm_C0_byte (ic : N) : res N := swz (f_extract C0_IMM2 ic) [rng1 1; rng1 0].
Definition imm_C0_half (ic : N) : res N := Ok (shl64 (f_extract C0_IMM2 ic .&. 1) 1).
Definition imm_C0_32 (ic : N) : N := shl64 (f_extract C0_IMM3 ic) 2 .|. f_extract C0_IMM2 ic.
Definition imm_C0_word (ic : N) : res N := swz (imm_C0_32 ic) [rng1 6; rng1 2; rng 3 5].
Definition imm_C0_double (ic : N) : res N := swz (imm_C0_32 ic) [rng 6 7; rng 3 5].
(** ExtractorDerived.h:187-214. *)
Definition c_C0_load_byte (ffm : N) (self : Ext) : Ext := o_imm imm_C0_byte (c_C0_load ffm self).
(** ExtractorDerived.h:220-244. *)
Definition c_C0_load_half (ffm : N) (self : Ext) : Ext := o_imm imm_C0_half (c_C0_load ffm self).
(** ExtractorDerived.h:250-278. *)
Definition c_C0_load_word (ffm : N) (self : Ext) : Ext := o_imm imm_C0_word (c_C0_load ffm self).
(** ExtractorDerived.h:284-313. *)
Definition c_C0_load_double (ffm : N) (self : Ext) : Ext := o_imm imm_C0_double (c_C0_load ffm self).
(** ExtractorDerived.h:319-372. *)
Definition c_C0_load_word_pair (ffm : N) (self : Ext) : Ext :=
  o_illop (fun ic => Ok (odd_field C0_RD ic))
  (o_dst (fun ic => pair_up (ucbit C0_RD ic ffm))
  (o_dstI (fun ic m _ =>
     let* o := app_c oi_empty ic m RD ffm C0_RD false in add_second o 0 RD2)
  (c_C0_load_double ffm self))).

(** ExtractorDerived.h:378-435. *)
Definition c_S_pair (ffm : N) (self : Ext) : Ext :=
  let base := c_S ffm self in
  o_src (fun ic => let* a := x_src base ic in let* d := x_data self ic in Ok (a .|. d))
  (o_illop (fun ic => Ok (odd_field S_RS2 ic))
  (o_data (fun ic => if f_extract S_RS2 ic =? REGISTER_X0 then Ok 0 else pair_up (ubit S_RS2 ic ffm))
  (o_srcI (fun ic m sx0 =>
     let* o := app_u false oi_empty ic m RS1 ffm S_RS1 false sx0 in
     if f_extract S_RS2 ic =? REGISTER_X0 then Ok o
     else let* o := app_u false o ic m RS2 ffm S_RS2 false sx0 in add_second_rs2 o 1 RS3)
  base))).

(** ExtractorDerived.h:442-541.  getDestOperTypeRegs is inherited from C0. *)
Definition c_C0_store (ffm : N) (self : Ext) : Ext :=
  o_srcI (fun ic m _ => cinfos ffm [(RS1, C0_RS1, false); (RS2, C0_RD, true)] oi_empty ic m)
  (m_csrc ffm self [(RS1, C0_RS1); (RS2, C0_RD)]
  (o_dst (fun _ => Ok 0)
  (o_addr (fun ic => Ok (ucbit C0_RS1 ic ffm))
  (o_data (fun ic => Ok (ucbit C0_RD ic ffm))
  (o_dstI (fun _ _ _ => Ok oi_empty)
  (c_C0 ffm self)))))).
(** ExtractorDerived.h:548-575. *)
Definition c_C0_store_byte (ffm : N) (self : Ext) : Ext := o_imm imm_C0_byte (c_C0_store ffm self).
(** ExtractorDerived.h:582-606. *)
Definition c_C0_store_half (ffm : N) (self : Ext) : Ext := o_imm imm_C0_half (c_C0_store ffm self).
(** ExtractorDerived.h:613-641. *)
Definition c_C0_store_word (ffm : N) (self : Ext) : Ext := o_imm imm_C0_word (c_C0_store ffm self).
(** ExtractorDerived.h:648-678. *)
Definition c_C0_store_double (ffm : N) (self : Ext) : Ext := o_imm imm_C0_double (c_C0_store ffm self).
(** ExtractorDerived.h:685-750. *)
Definition c_C0_store_word_pair (ffm : N) (self : Ext) : Ext :=
  let base := c_C0_store_double ffm self in
  o_src (fun ic => let* a := x_src base ic in let* d := x_data self ic in Ok (a .|. d))
  (o_illop (fun ic => Ok (odd_field C0_RD ic))
  (o_data (fun ic => pair_up (ucbit C0_RD ic ffm))
  (o_srcI (fun ic m sx0 => let* o := x_srcI base ic m sx0 in add_second_rs2 o 1 RS3)
  base))).

(** ExtractorDerived.h:756-859 (the class has its own fixed_field_mask_ member). *)
Definition c_C1_rsd (ffm : N) (self : Ext) : Ext :=
  m_csrc ffm self [(RS1, C1_RS1)] (m_cdst ffm self [(RD, C1_RD)] (x_base ImmNone self)).
(** ExtractorDerived.h:865-894. *)
Definition c_C1_rsd_I0 (ffm : N) (self : Ext) : Ext :=
  o_immT ImmUnsigned (o_imm (fun _ => Ok 0) (c_C1_rsd ffm self)).
(** ExtractorDerived.h:901-960. *)
Definition c_C1_rsd_zext_I0 (ffm : N) (self : Ext) : Ext :=
  let base := c_C1_rsd ffm self in
  o_src (fun ic => let* s := x_src base ic in Ok (s .|. bit1 REGISTER_X0))
  (o_srcT (fun ic m k =>
     if is_none_ot m k then Ok 0
     else if is_all_ot m k then let* s := x_srcT base ic m k in Ok (s .|. bit1 REGISTER_X0)
     else let* s := x_srcT base ic m k in
          Ok (if is_ot m RS1 k then s .|. bit1 REGISTER_X0 else s))
  (o_srcI (fun ic m sx0 =>
     let* o := x_srcI base ic m sx0 in add_plain o RS2 (mt_otype m RS1) REGISTER_X0)
  (o_immT ImmUnsigned (o_imm (fun _ => Ok 0) base)))).
(** ExtractorDerived.h:966-995. *)
Definition c_C1_rsd_Ineg1 (ffm : N) (self : Ext) : Ext :=
  o_immT ImmSigned (o_imm (fun _ => Ok (N.ones 64)) (c_C1_rsd ffm self)).
(** ExtractorDerived.h:1001-1030. *)
Definition c_C1_rsd_I0xFF (ffm : N) (self : Ext) : Ext :=
  o_immT ImmUnsigned (o_imm (fun _ => Ok 0xFF) (c_C1_rsd ffm self)).

(** ExtractorDerived.h:1036-1060. *)
Definition c_CI_addi (ffm : N) (self : Ext) : Ext :=
  o_hint (fun ic => let* i := x_imm self ic in Ok (i =? 0)) (c_CI ffm self).
(** ExtractorDerived.h:1066-1090. *)
Definition c_CI_addiw (ffm : N) (self : Ext) : Ext :=
  o_illop (fun ic => let* d := x_dst self ic in Ok (negb (d .&. bit1 REGISTER_X0 =? 0)))
  (c_CI ffm self).
(** ExtractorDerived.h:1141-1150, generateFFMask (idType indices RS1 = 2, RD = 3). *)
Definition ci_sp_ffmask (ffm : N) : N :=
  andnot64 (andnot64 ffm (f_smask CI_RS1 .|. f_smask CI_RD)) (bit1 2 .|. bit1 3).
(** ExtractorDerived.h:1097-1156; the default constructor has mask 0, and
    [ci_sp_ffmask 0 = 0]. *)
Definition c_CI_sp (ffm : N) (self : Ext) : Ext :=
  o_illop (fun ic => Ok ((f_extract CI_IMM1 ic =? 0) && (f_extract CI_IMM5 ic =? 0)))
  (o_immT ImmSigned
  (o_imm (fun ic => swz (shl64 (f_extract CI_IMM1 ic) 5 .|. f_extract CI_IMM5 ic)
                      [rng1 5; rng 7 8; rng1 6; rng1 4; rng1 9])
  (o_soff (soff self 9)
  (c_CI (ci_sp_ffmask ffm) self)))).

(** [x & ~0x1ull]. *)
Definition clear_x0 (x : N) : N := andnot64 x 1.

(** ExtractorDerived.h:1165-1277. *)
Definition c_CIW_sp (ffm : N) (self : Ext) : Ext :=
  let base := c_CIW ffm self in
  o_illop (fun ic => Ok (f_extract CIW_IMM8 (andnot64 ic ffm) =? 0))
  (o_src (fun ic => let* s := x_src base ic in Ok (clear_x0 (s .|. bit1 REGISTER_SP)))
  (o_srcT (fun ic m k =>
     if is_none_ot m k then Ok 0
     else if is_all_ot m k then
       let* s := x_srcT base ic m k in Ok (clear_x0 (s .|. bit1 REGISTER_SP))
     else let* s := x_srcT base ic m k in
          Ok (if is_ot m RD k then clear_x0 (s .|. bit1 REGISTER_SP) else s))
  (o_srcI (fun _ m _ => add_plain oi_empty RS1 (mt_otype m RD) REGISTER_SP)
  (o_imm (fun ic => swz (f_extract CIW_IMM8 (andnot64 ic ffm)) [rng1 3; rng1 2; rng 6 9; rng 4 5])
  base)))).

(** ExtractorDerived.h:1283-1317. *)
Definition c_CIX_andi (ffm : N) (self : Ext) : Ext :=
  o_hint (fun _ => Ok false) (o_immT ImmSigned (o_soff (soff self 5) (c_CIX ffm self))).

(** ExtractorDerived.h:1323-1382. *)
Definition c_CJAL (ffm : N) (self : Ext) : Ext :=
  o_dst (fun _ => Ok (bit1 REGISTER_LINK))
  (o_dstT (typed_x0 (x_dst self) REGISTER_LINK)
  (o_dstI (fun _ m _ => add_plain oi_empty RD (mt_otype m RS1) REGISTER_LINK)
  (c_CJ ffm self))).

(** ExtractorDerived.h:1389-1488. *)
Definition c_CJALR (ffm : N) (self : Ext) : Ext :=
  let base := c_CJR ffm self in
  o_dst (fun _ => Ok (bit1 REGISTER_LINK))
  (o_dstT (fun ic m k =>
     if is_none_ot m k then Ok 0
     else if is_all_ot m k then
       let* d := x_dstT base ic m k in Ok (clear_x0 (d .|. bit1 REGISTER_LINK))
     else let* d := x_dstT base ic m k in
          Ok (if is_ot m RS1 k then clear_x0 (d .|. bit1 REGISTER_LINK) else d))
  (o_dstI (fun _ m _ => add_plain oi_empty RD (mt_otype m RS1) REGISTER_LINK)
  base)).

(** [(getDestRegs(icode) & (1ull << REGISTER_X0)) != 0]. *)
Definition dst_has_x0 (self : Ext) (ic : N) : res bool :=
  let* d := x_dst self ic in Ok (negb (d .&. bit1 REGISTER_X0 =? 0)).

(** ExtractorDerived.h:1494-1577.  RS1 is an alias of RD; the typed mask tests RD's type. *)
Definition c_C2_add (ffm : N) (self : Ext) : Ext :=
  o_hint (dst_has_x0 self)
  (o_src (fun ic => Ok (ubit C2_RS1 ic ffm .|. ubit C2_RS2 ic ffm))
  (o_srcT (typed (x_src self) ubit ffm [(RD, C2_RS1); (RS2, C2_RS2)])
  (o_srcI (fun ic m _ => infos ffm [(RS1, C2_RS1, false); (RS2, C2_RS2, false)] oi_empty ic m false)
  (c_C2 ffm self)))).

(** ExtractorDerived.h:1589-1673. *)
Definition c_C2_mv (ffm : N) (self : Ext) : Ext :=
  let base := c_C2 ffm self in
  o_hint (dst_has_x0 self)
  (o_src (fun ic => let* s := x_src base ic in Ok (s .|. bit1 REGISTER_X0))
  (o_srcT (fun ic m k =>
     if is_none_ot m k then Ok 0
     else if is_all_ot m k then let* s := x_srcT base ic m k in Ok (s .|. bit1 REGISTER_X0)
     else let* s := x_srcT base ic m k in
          Ok (if is_ot m RS1 k then s .|. bit1 REGISTER_X0 else s))
  (o_srcI (fun ic m sx0 =>
     let* o := add_plain oi_empty RS1 (mt_otype m RS1) REGISTER_X0 in
     app_u false o ic m RS2 ffm C2_RS false sx0)
  base))).

(** ExtractorDerived.h:1681-1766 (getImmediateType is inherited: NONE). *)
Definition c_C2_slli (ffm : N) (self : Ext) : Ext :=
  o_hint (fun ic => let* h := dst_has_x0 self ic in
                    if h then Ok true else let* i := x_imm self ic in Ok (i =? 0))
  (m_src ffm self [(RS1, C2_RS1)]
  (o_imm (fun ic => Ok (shl64 (f_extract C2_SHAMT1 ic) 5 .|. f_extract C2_SHAMT5 ic))
  (c_C2 ffm self))).

(** ExtractorDerived.h:1775-1858. *)
Definition c_C2_sp (ffm : N) (self : Ext) : Ext :=
  let base := c_C2 ffm self in
  o_src (fun ic => let* s := x_src base ic in Ok (clear_x0 (s .|. bit1 REGISTER_SP)))
  (o_srcT (fun ic m k =>
     if is_none_ot m k then Ok 0
     else if is_all_ot m k then
       let* s := x_srcT base ic m k in Ok (clear_x0 (s .|. bit1 REGISTER_SP))
     else let* s := x_srcT base ic m k in
          Ok (if is_ot m RS1 k then clear_x0 (s .|. bit1 REGISTER_SP) else s))
  (o_srcI (fun ic m sx0 =>
     let* o := add_plain oi_empty RS1 (mt_otype m RS1) REGISTER_SP in
     app_u false o ic m RS2 ffm C2_RS false sx0)
  (o_immT ImmUnsigned base))).

(** ExtractorDerived.h:1864-1912. *)
Definition c_C2_sp_load (ffm : N) (self : Ext) : Ext :=
  o_illop (dst_has_x0 self)
  (o_src (fun _ => Ok (bit1 REGISTER_SP))
  (o_addr (x_src self)
  (o_srcI (fun _ m _ => add_plain oi_empty RS1 (mt_otype m RS1) REGISTER_SP)
  (o_immT ImmUnsigned (c_C2_sp ffm self))))).
Definition imm_C2_6 (ic : N) : N := shl64 (f_extract C2_SHAMT1 ic) 5 .|. f_extract C2_SHAMT5 ic.
(** ExtractorDerived.h:1918-1946. *)
Definition c_C2_sp_load_word (ffm : N) (self : Ext) : Ext :=
  o_imm (fun ic => swz (imm_C2_6 ic) [rng 6 7; rng 2 4; rng1 5]) (c_C2_sp_load ffm self).
(** ExtractorDerived.h:1952-1982. *)
Definition c_C2_sp_load_double (ffm : N) (self : Ext) : Ext :=
  o_imm (fun ic => swz (imm_C2_6 ic) [rng 6 8; rng 3 4; rng1 5]) (c_C2_sp_load ffm self).
(** ExtractorDerived.h:1988-2047. *)
Definition c_C2_sp_load_word_pair (ffm : N) (self : Ext) : Ext :=
  let base := c_C2_sp_load_double ffm self in
  o_illop (fun ic => Ok (odd_field C2_RD ic))
  (o_dst (fun ic => if f_extract C2_RD ic =? REGISTER_X0 then Ok 0 else pair_up (ubit C2_RD ic ffm))
  (o_dstI (fun ic m sx0 =>
     if f_extract C2_RD ic =? REGISTER_X0 then Ok oi_empty
     else let* o := x_dstI base ic m sx0 in add_second o 0 RD2)
  base)).
(** ExtractorDerived.h:2053-2077. *)
Definition c_C2_sp_load_float_single (ffm : N) (self : Ext) : Ext :=
  o_illop (fun _ => Ok false) (c_C2_sp_load_word ffm self).
(** ExtractorDerived.h:2083-2107. *)
Definition c_C2_sp_load_float_double (ffm : N) (self : Ext) : Ext :=
  o_illop (fun _ => Ok false) (c_C2_sp_load_double ffm self).

(** ExtractorDerived.h:2113-2140. *)
Definition c_C2_sp_store_word (ffm : N) (self : Ext) : Ext :=
  o_imm (fun ic => swz (f_extract C2_sp_store_IMM ic) [rng 6 7; rng 2 5]) (c_C2_sp_store ffm self).
(** ExtractorDerived.h:2146-2175. *)
Definition c_C2_sp_store_double (ffm : N) (self : Ext) : Ext :=
  o_imm (fun ic => swz (f_extract C2_sp_store_IMM ic) [rng 6 8; rng 3 5]) (c_C2_sp_store ffm self).
(** ExtractorDerived.h:2181-2249. *)
Definition c_C2_sp_store_word_pair (ffm : N) (self : Ext) : Ext :=
  let base := c_C2_sp_store_double ffm self in
  o_src (fun ic => let* a := x_src base ic in let* d := x_data self ic in Ok (a .|. d))
  (o_illop (fun ic => Ok (odd_field C2_sp_store_RS2 ic))
  (o_data (fun ic => if f_extract C2_sp_store_RS2 ic =? REGISTER_X0 then Ok 0
                     else pair_up (ubit C2_sp_store_RS2 ic ffm))
  (o_srcI (fun ic m sx0 =>
     if f_extract C2_sp_store_RS2 ic =? REGISTER_X0 then Ok oi_empty
     else let* o := x_srcI base ic m sx0 in add_second_rs2 o 1 RS3)
  base))).

(** ExtractorDerived.h:2256-2344. *)
Definition c_CI_rD_shifted (ffm : N) (self : Ext) : Ext :=
  let base := c_CI_rD_only ffm self in
  o_illop (fun ic => let* i := x_imm self ic in Ok (i =? 0))
  (o_src (fun _ => Ok 0)
  (o_srcT (fun _ _ _ => Ok 0)
  (o_srcI (fun _ _ _ => Ok oi_empty)
  (o_immT ImmSigned
  (o_imm (fun ic => let* i := x_imm base ic in Ok (shl64 i 12))
  (o_soff (soff self 17)
  base)))))).

(** ExtractorDerived.h:2350-2369. *)
Definition c_V_load (ffm : N) (self : Ext) : Ext := c_VF_mem ffm self.
(** ExtractorDerived.h:2375-2502. *)
Definition c_V_store (ffm : N) (self : Ext) : Ext :=
  o_srcI (infos ffm [(RS1, VF_mem_RS1, false); (RS2, VF_mem_RS2, false); (RS3, VF_mem_RS3, true)] oi_empty)
  (m_src ffm self [(RS1, VF_mem_RS1); (RS2, VF_mem_RS2); (RS3, VF_mem_RS3)]
  (o_addr (fun ic => Ok (ubit VF_mem_RS1 ic ffm .|. ubit VF_mem_RS2 ic ffm))
  (o_data (fun ic => Ok (ubit VF_mem_RS3 ic ffm))
  (o_dst (fun _ => Ok 0)
  (o_dstT (fun _ _ _ => Ok 0)
  (o_dstI (fun _ _ _ => Ok oi_empty)
  (c_VF_mem ffm self))))))).

(** ExtractorDerived.h:2508-2628. *)
Definition c_V_uimm (ffm : N) (self : Ext) : Ext :=
  m_src ffm self [(RS2, V_RS2)]
  (o_spec (spec_of ffm [(SF_VM, V_VM, true)])
  (o_imm (fun ic => Ok (f_extract V_SIMM5 (andnot64 ic ffm)))
  (o_immT ImmUnsigned
  (c_V ffm self)))).
(** ExtractorDerived.h:2634-2701. *)
Definition c_V_simm (ffm : N) (self : Ext) : Ext :=
  o_src (fun ic => Ok (ubit V_RS2 ic ffm))
  (o_immT ImmSigned (o_soff (soff self 4) (c_V_uimm ffm self))).
(** ExtractorDerived.h:2707-2759. *)
Definition c_V_op (ffm : N) (self : Ext) : Ext := c_V ffm self.

(** ExtractorDerived.h:2765-2805. *)
Definition c_HV_load (ffm : N) (self : Ext) : Ext := o_addr (x_src self) (c_R ffm self).
(** ExtractorDerived.h:2811-2896. *)
Definition c_HV_store (ffm : N) (self : Ext) : Ext :=
  o_srcI (infos ffm [(RS1, R_RS1, false); (RS2, R_RS2, true)] oi_empty)
  (m_src ffm self [(RS1, R_RS1); (RS2, R_RS2)]
  (o_addr (fun ic => Ok (ubit R_RS1 ic ffm))
  (o_data (fun ic => Ok (ubit R_RS2 ic ffm))
  (x_base ImmNone self)))).

(** ExtractorDerived.h:2904-2951 (V_implied), 2959-3006 (V_op_implied) and
    3014-3061 (V_uimm_implied): the same additions to the three base classes. *)
Definition implied_rd (ffm : N) (base : Ext) : Ext :=
  o_src (fun ic => let* s := x_src base ic in Ok (s .|. ubit V_RD ic ffm))
  (o_srcT (fun ic m k =>
     let* s := x_srcT base ic m k in
     Ok (if negb (is_none_ot m k || is_all_ot m k) && is_ot m RD k
         then s .|. ubit V_RD ic ffm else s))
  (o_srcI (fun ic m sx0 =>
     let* o := x_srcI base ic m sx0 in app_u true o ic m RD ffm V_RD false sx0)
  base)).
Definition c_V_implied (ffm : N) (self : Ext) : Ext := implied_rd ffm (c_V ffm self).
Definition c_V_op_implied (ffm : N) (self : Ext) : Ext := implied_rd ffm (c_V_op ffm self).
Definition c_V_uimm_implied (ffm : N) (self : Ext) : Ext := implied_rd ffm (c_V_uimm ffm self).

(** ExtractorDerived.h:3067-3100 (derives from ExtractorBase<Form_R>). *)
Definition c_NTL_hint (ffm : N) (self : Ext) : Ext := x_base ImmNone self.
(** ExtractorDerived.h:3106-3207 (derives from ExtractorBase<Form_I>). *)
Definition c_PF_hint (ffm : N) (self : Ext) : Ext :=
  m_src ffm self [(RS1, I_RS1)]
  (o_immT ImmSigned
  (o_imm (fun ic => Ok (N.shiftr (f_extract I_IMM ic) 5))
  (o_soff (soff self 7)
  (x_base ImmSigned self)))).

(** The extractor classes. *)
Inductive xcls :=
| X_AMO | X_B | X_C0 | X_C2 | X_C2_sp_store | X_CA | X_CB | X_CI | X_CI_rD_only | X_CIW | X_CIX 
| X_CJ | X_CJR | X_CSR | X_CSRI | X_FENCE | X_I | X_ISH | X_ISHW | X_J | X_R | X_Rfloat | X_R4 
| X_S | X_U | X_V | X_VF_mem | X_V_vsetvli | X_V_vsetivli | X_V_vsetvl | X_V_uimm6 | X_I_mv 
| X_I_load | X_I_load_pair | X_C0_load | X_C0_load_byte | X_C0_load_half | X_C0_load_word | X_C0_load_double 
| X_C0_load_word_pair | X_S_pair | X_C0_store | X_C0_store_byte | X_C0_store_half | X_C0_store_word 
| X_C0_store_double | X_C0_store_word_pair | X_C1_rsd | X_C1_rsd_I0 | X_C1_rsd_zext_I0 | X_C1_rsd_Ineg1 
| X_C1_rsd_I0xFF | X_CI_addi | X_CI_addiw | X_CI_sp | X_CIW_sp | X_CIX_andi | X_CJAL | X_CJALR 
| X_C2_add | X_C2_mv | X_C2_slli | X_C2_sp | X_C2_sp_load | X_C2_sp_load_word | X_C2_sp_load_double 
| X_C2_sp_load_word_pair | X_C2_sp_load_float_single | X_C2_sp_load_float_double | X_C2_sp_store_word 
| X_C2_sp_store_double | X_C2_sp_store_word_pair | X_CI_rD_shifted | X_V_load | X_V_store | X_V_uimm 
| X_V_simm | X_V_op | X_HV_load | X_HV_store | X_V_implied | X_V_op_implied | X_V_uimm_implied 
| X_NTL_hint | X_PF_hint .

Definition all_xcls : list xcls :=
  [X_AMO; X_B; X_C0; X_C2; X_C2_sp_store; X_CA; X_CB; X_CI; X_CI_rD_only; X_CIW; X_CIX; X_CJ; X_CJR; X_CSR; X_CSRI; X_FENCE; X_I; X_ISH; X_ISHW; X_J; X_R; X_Rfloat; X_R4; X_S; X_U; X_V; X_VF_mem; X_V_vsetvli; X_V_vsetivli; X_V_vsetvl; X_V_uimm6; X_I_mv; X_I_load; X_I_load_pair; X_C0_load; X_C0_load_byte; X_C0_load_half; X_C0_load_word; X_C0_load_double; X_C0_load_word_pair; X_S_pair; X_C0_store; X_C0_store_byte; X_C0_store_half; X_C0_store_word; X_C0_store_double; X_C0_store_word_pair; X_C1_rsd; X_C1_rsd_I0; X_C1_rsd_zext_I0; X_C1_rsd_Ineg1; X_C1_rsd_I0xFF; X_CI_addi; X_CI_addiw; X_CI_sp; X_CIW_sp; X_CIX_andi; X_CJAL; X_CJALR; X_C2_add; X_C2_mv; X_C2_slli; X_C2_sp; X_C2_sp_load; X_C2_sp_load_word; X_C2_sp_load_double; X_C2_sp_load_word_pair; X_C2_sp_load_float_single; X_C2_sp_load_float_double; X_C2_sp_store_word; X_C2_sp_store_double; X_C2_sp_store_word_pair; X_CI_rD_shifted; X_V_load; X_V_store; X_V_uimm; X_V_simm; X_V_op; X_HV_load; X_HV_store; X_V_implied; X_V_op_implied; X_V_uimm_implied; X_NTL_hint; X_PF_hint].

Definition xcls_body (c : xcls) : N -> Ext -> Ext :=
  match c with
  | X_AMO => c_AMO
  | X_B => c_B
  | X_C0 => c_C0
  | X_C2 => c_C2
  | X_C2_sp_store => c_C2_sp_store
  | X_CA => c_CA
  | X_CB => c_CB
  | X_CI => c_CI
  | X_CI_rD_only => c_CI_rD_only
  | X_CIW => c_CIW
  | X_CIX => c_CIX
  | X_CJ => c_CJ
  | X_CJR => c_CJR
  | X_CSR => c_CSR
  | X_CSRI => c_CSRI
  | X_FENCE => c_FENCE
  | X_I => c_I
  | X_ISH => c_ISH
  | X_ISHW => c_ISHW
  | X_J => c_J
  | X_R => c_R
  | X_Rfloat => c_Rfloat
  | X_R4 => c_R4
  | X_S => c_S
  | X_U => c_U
  | X_V => c_V
  | X_VF_mem => c_VF_mem
  | X_V_vsetvli => c_V_vsetvli
  | X_V_vsetivli => c_V_vsetivli
  | X_V_vsetvl => c_V_vsetvl
  | X_V_uimm6 => c_V_uimm6
  | X_I_mv => c_I_mv
  | X_I_load => c_I_load
  | X_I_load_pair => c_I_load_pair
  | X_C0_load => c_C0_load
  | X_C0_load_byte => c_C0_load_byte
  | X_C0_load_half => c_C0_load_half
  | X_C0_load_word => c_C0_load_word
  | X_C0_load_double => c_C0_load_double
  | X_C0_load_word_pair => c_C0_load_word_pair
  | X_S_pair => c_S_pair
  | X_C0_store => c_C0_store
  | X_C0_store_byte => c_C0_store_byte
  | X_C0_store_half => c_C0_store_half
  | X_C0_store_word => c_C0_store_word
  | X_C0_store_double => c_C0_store_double
  | X_C0_store_word_pair => c_C0_store_word_pair
  | X_C1_rsd => c_C1_rsd
  | X_C1_rsd_I0 => c_C1_rsd_I0
  | X_C1_rsd_zext_I0 => c_C1_rsd_zext_I0
  | X_C1_rsd_Ineg1 => c_C1_rsd_Ineg1
  | X_C1_rsd_I0xFF => c_C1_rsd_I0xFF
  | X_CI_addi => c_CI_addi
  | X_CI_addiw => c_CI_addiw
  | X_CI_sp => c_CI_sp
  | X_CIW_sp => c_CIW_sp
  | X_CIX_andi => c_CIX_andi
  | X_CJAL => c_CJAL
  | X_CJALR => c_CJALR
  | X_C2_add => c_C2_add
  | X_C2_mv => c_C2_mv
  | X_C2_slli => c_C2_slli
  | X_C2_sp => c_C2_sp
  | X_C2_sp_load => c_C2_sp_load
  | X_C2_sp_load_word => c_C2_sp_load_word
  | X_C2_sp_load_double => c_C2_sp_load_double
  | X_C2_sp_load_word_pair => c_C2_sp_load_word_pair
  | X_C2_sp_load_float_single => c_C2_sp_load_float_single
  | X_C2_sp_load_float_double => c_C2_sp_load_float_double
  | X_C2_sp_store_word => c_C2_sp_store_word
  | X_C2_sp_store_double => c_C2_sp_store_double
  | X_C2_sp_store_word_pair => c_C2_sp_store_word_pair
  | X_CI_rD_shifted => c_CI_rD_shifted
  | X_V_load => c_V_load
  | X_V_store => c_V_store
  | X_V_uimm => c_V_uimm
  | X_V_simm => c_V_simm
  | X_V_op => c_V_op
  | X_HV_load => c_HV_load
  | X_HV_store => c_HV_store
  | X_V_implied => c_V_implied
  | X_V_op_implied => c_V_op_implied
  | X_V_uimm_implied => c_V_uimm_implied
  | X_NTL_hint => c_NTL_hint
  | X_PF_hint => c_PF_hint
  end.

(** ** Disassembly *)
(** The dasmString(mnemonic, icode, meta) methods.  Simplification: [dasm] gives the body of the
    method by class, with the inherited bodies at the classes that inherit them, instead of
    overriding it class by class; the virtual calls it makes (getImmediate, getSignedOffset,
    getSpecialField) go to [x].  The overload without meta-data is modelled where the other one
    is not overridden (CJ, CJAL, V_vsetivli): mavis/Extractor.h:148-151 then calls it. *)
Local Open Scope string_scope.

(** [ss << std::dec << n] and [ss << std::hex << n] for unsigned n. *)
Definition dec (n : N) : string := DecimalString.NilZero.string_of_uint (N.to_uint n).
Definition hex (n : N) : string := HexadecimalString.NilZero.string_of_uint (N.to_hex_uint n).
(** [std::dec] and [std::hex] of an int64_t: hexadecimal output shows the unsigned value. *)
Definition sdec (z : Z) : string :=
  if (z <? 0)%Z then "-" ++ dec (Z.abs_N z) else dec (Z.to_N z).
Definition shex (z : Z) : string := hex (Z.to_N (z mod 18446744073709551616)%Z).
Definition tab : string := String (ascii_of_nat 9) "".

(** mavis/Extractor.h:455-479, dasmFormatReg_. *)
Definition reg_name (m : meta) (mid : fid) (n : N) : string :=
  match mt_otype m mid with
  | Some KWord | Some KLong => "x" ++ dec n
  | Some KSingle | Some KDouble | Some KQuad => "f" ++ dec n
  | Some KVector => "v" ++ dec n
  | None => dec n
  end.

(** mavis/Extractor.h:487-505 and 507-525, dasmFormatRegList_ ([get] = extract_) and
    dasmFormatCompressedRegList_ ([get] = extractCompressedRegister_). *)
Fixpoint reg_list (get : field -> N -> N) (ffm : N) (m : meta) (ic : N) (first : bool)
    (l : list (field * fid)) : string :=
  match l with
  | [] => ""
  | (f, mid) :: r =>
      if masked f ffm then reg_list get ffm m ic first r
      else (if first then "" else ",") ++ reg_name m mid (get f ic) ++
           reg_list get ffm m ic false r
  end.

(** impl/forms/ExtractorForms.h:13-31, dasmVsetImmediate. *)
Definition vtype_text (i : N) : string :=
  "e" ++ dec (N.shiftl 1 (3 + N.shiftr (N.land i 0x38) 3)%N) ++ "," ++
  (let v := N.land i 0x7 in
   if (v <? 4)%N then "m" ++ dec (N.shiftl 1 v) ++ "," else "mf" ++ dec (N.shiftl 1 (8 - v)%N) ++ ",") ++
  (if (N.land i 0x40 =? 0)%N then "tu," else "ta,") ++
  (if (N.land i 0x80 =? 0)%N then "mu" else "ma").

(** std::string::substr(0, k) + "seg" + std::to_string(nf + 1) + substr(k, npos);
    substr throws when its first argument is beyond the end. *)
Definition with_seg (mn : string) (k : nat) (nf : N) : res string :=
  if Nat.ltb (String.length mn) k then Throw EStdOutOfRange
  else Ok (substring 0 k mn ++ "seg" ++ dec (nf + 1)%N ++ substring k (String.length mn - k) mn).
(** impl/forms/ExtractorForms.h:3145-3168, getVectorMemoryMnemonic. *)
Definition vmem_name (ffm : N) (mn : string) (ic : N) : res string :=
  if masked VF_mem_NF ffm then Ok mn
  else let nf := f_extract VF_mem_NF ic in
       if (nf =? 0)%N then Ok mn
       else match f_extract VF_mem_MEWOP ic with
            | 0 => with_seg mn 2 nf
            | 1 => with_seg mn 4 nf
            | 3 => with_seg mn 4 nf
            | 2 => with_seg mn 3 nf
            | _ => Throw EUnsupportedSpecialField
            end.

(** "Show the vm operand if masking mode is on". *)
Definition vm_text (f : field) (ffm ic : N) : string :=
  if masked f ffm then "" else if (f_extract f ic =? 0)%N then ",v0.t" else "".

(** The line ranges of the bodies in ExtractorForms.h: AMO 163-174, B 269-278, C0 373-381,
    C2 479-487, C2_sp_store 575-583, CA 686-695, CB 785-793, CI 907-920, CI_rD_only 1043-1051,
    CIW 1117-1125, CIX 1232-1240, CJ 1324-1330, CJR 1434-1441, CSR 1562-1571, CSRI 1666-1675,
    FENCE 1800-1811, I 1925-1934, ISH 2039-2050, ISHW 2153-2162, J 2247-2255, R 2360-2369,
    Rfloat 2500-2513, R4 2652-2666, S 2768-2777, U 2858-2866, V 3003-3018, VF_mem 3188-3203,
    V_vsetvli 3327-3336, V_vsetivli 3421-3429, V_vsetvl 3554-3563, V_uimm6 3693-3708.
    In ExtractorDerived.h: C0_load 166-175, C0_store 526-535, C1_rsd 842-850, CIW_sp 1263-1271,
    CJAL 1370-1376, CJALR 1474-1482, C2_add 1562-1571, C2_mv 1657-1667, C2_slli 1751-1760,
    C2_sp 1844-1852, CI_rD_shifted 2330-2338, V_store 2481-2496, V_uimm 2607-2622,
    V_simm 2680-2695, V_op 2738-2753, HV_load 2791-2799, HV_store 2880-2888,
    NTL_hint 3089-3092, PF_hint 3191-3199.
    The other classes inherit: see the alternatives of the match.  The mask of a
    CI_sp object is the one its constructor computes (ExtractorDerived.h:1141-1155). *)
Definition dasm (x : Ext) (c : xcls) (ffm : N) (mn : string) (ic : N) (m : meta) : res string :=
  let r l := reg_list f_extract ffm m ic true l in
  let cr l := reg_list creg ffm m ic true l in
  let head := mn ++ tab in
  match c with
  | X_AMO =>
      let* aq := x_spec x SF_AQ ic in
      let* rl := x_spec x SF_RL ic in
      Ok (head ++ r [(AMO_RD, RD); (AMO_RS1, RS1); (AMO_RS2, RS2)] ++
          ", aq/wd=" ++ dec aq ++ ", rl/vm=" ++ dec rl)
  | X_B =>
      let* o := x_soff x ic in
      Ok (head ++ r [(B_RS1, RS1); (B_RS2, RS2)] ++ " +0x" ++ shex o)
  | X_C0 => Ok (head ++ cr [(C0_RD, RD); (C0_RS1, RS1)])
  | X_C2 => Ok (head ++ r [(C2_RD, RD); (C2_RS, RS1)])
  | X_C2_sp_store | X_C2_sp_store_word | X_C2_sp_store_double | X_C2_sp_store_word_pair =>
      let* i := x_imm x ic in
      Ok (head ++ r [(C2_sp_store_RS2, RS2)] ++ ", SP, IMM=" ++ dec i)
  | X_CA => Ok (head ++ cr [(CA_RD, RD); (CA_RS1, RS1); (CA_RS2, RS2)])
  | X_CB =>
      let* o := x_soff x ic in
      Ok (head ++ cr [(CB_RS1, RS1)] ++ ", x0, +0x" ++ shex o)
  | X_CI | X_CI_addi | X_CI_addiw =>
      let* o := x_soff x ic in
      Ok (head ++ r [(CI_RD, RD); (CI_RS1, RS1)] ++
          (if negb (masked CI_RD ffm) || negb (masked CI_RS1 ffm) then ", " else "") ++
          "+0x" ++ shex o)
  | X_CI_sp =>
      let ffm := ci_sp_ffmask ffm in
      let* o := x_soff x ic in
      Ok (head ++ reg_list f_extract ffm m ic true [(CI_RD, RD); (CI_RS1, RS1)] ++
          (if negb (masked CI_RD ffm) || negb (masked CI_RS1 ffm) then ", " else "") ++
          "+0x" ++ shex o)
  | X_CI_rD_only =>
      let* o := x_soff x ic in
      Ok (head ++ r [(CI_rD_only_RD, RD)] ++ ", x0, +0x" ++ shex o)
  | X_CI_rD_shifted =>
      let* o := x_soff x ic in
      Ok (head ++ r [(CI_rD_only_RD, RD)] ++ ", +0x" ++ shex o)
  | X_CIW =>
      Ok (head ++ cr [(CIW_RD, RD)] ++ ", IMM=" ++ dec (f_extract CIW_IMM8 (andnot64 ic ffm)))
  | X_CIW_sp =>
      let* i := x_imm x ic in
      Ok (head ++ cr [(CIW_RD, RD)] ++ ", SP, IMM=" ++ dec i)
  | X_CIX | X_CIX_andi =>
      let* i := x_imm x ic in
      Ok (head ++ cr [(CIX_RD, RD)] ++ ", IMM=" ++ dec i)
  | X_CJ =>
      let* o := x_soff x ic in
      Ok (head ++ "x0, +0x" ++ shex o)
  | X_CJAL =>
      let* o := x_soff x ic in
      Ok (head ++ "x1, +0x" ++ shex o)
  | X_CJR => Ok (head ++ "x0, " ++ r [(CJR_RS1, RS1)])
  | X_CJALR =>
      let* i := x_imm x ic in
      Ok (head ++ " x" ++ dec REGISTER_LINK ++ ", " ++ r [(CJR_RS1, RS1)] ++ ", IMM=" ++ dec i)
  | X_CSR =>
      let* s := x_spec x SF_CSR ic in
      Ok (head ++ r [(CSR_RD, RD); (CSR_RS1, RS1)] ++ ", CSR=0x" ++ hex s)
  | X_CSRI =>
      let* i := x_imm x ic in
      let* s := x_spec x SF_CSR (andnot64 ic ffm) in
      Ok (head ++ r [(CSRI_RD, RD)] ++ ", IMM=" ++ dec i ++ ", CSR=0x" ++ hex s)
  | X_FENCE =>
      let* fm := x_spec x SF_FM ic in
      let* pr := x_spec x SF_PRED ic in
      let* su := x_spec x SF_SUCC ic in
      Ok (head ++ r [(FENCE_RD, RD); (FENCE_RS1, RS1)] ++ ", fm=0x" ++ hex fm ++
          ", pred=0x" ++ hex pr ++ ", succ=0x" ++ hex su)
  | X_I | X_I_mv | X_I_load | X_I_load_pair =>
      let* o := x_soff x ic in
      Ok (head ++ r [(I_RD, RD); (I_RS1, RS1)] ++ ", +0x" ++ shex o)
  | X_ISH =>
      let* t := if masked ISH_SHAMT ffm then Ok ""
                else let* i := x_imm x ic in Ok (", SHAMT=" ++ dec i) in
      Ok (head ++ r [(ISH_RD, RD); (ISH_RS1, RS1)] ++ t)
  | X_ISHW =>
      let* i := x_imm x ic in
      Ok (head ++ r [(ISHW_RD, RD); (ISHW_RS1, RS1)] ++ ", SHAMTW=" ++ dec i)
  | X_J =>
      let* o := x_soff x ic in
      Ok (head ++ r [(J_RD, RD)] ++ ", +0x" ++ shex o)
  | X_R => Ok (head ++ r [(R_RD, RD); (R_RS1, RS1); (R_RS2, RS2)])
  | X_Rfloat =>
      let* t := if masked Rfloat_RM ffm then Ok ""
                else let* s := x_spec x SF_RM ic in Ok (", RM=" ++ dec s) in
      Ok (head ++ r [(Rfloat_RD, RD); (Rfloat_RS1, RS1); (Rfloat_RS2, RS2)] ++ t)
  | X_R4 =>
      let* t := if masked R4_RM ffm then Ok ""
                else let* s := x_spec x SF_RM ic in Ok (", RM=" ++ dec s) in
      Ok (head ++ r [(R4_RD, RD); (R4_RS1, RS1); (R4_RS2, RS2); (R4_RS3, RS3)] ++ t)
  | X_S | X_S_pair =>
      let* o := x_soff x ic in
      Ok (head ++ r [(S_RS2, RS2); (S_RS1, RS1)] ++ ", +0x" ++ shex o)
  | X_U =>
      let* o := x_soff x ic in
      Ok (head ++ r [(U_RD, RD)] ++ ", +0x" ++ shex o)
  | X_V | X_V_implied =>
      Ok (head ++ r [(V_RD, RD); (V_RS1, RS1); (V_RS2, RS2)] ++ vm_text V_VM ffm ic)
  | X_V_op | X_V_op_implied =>
      Ok (head ++ r [(V_RD, RD); (V_RS2, RS2); (V_RS1, RS1)] ++ vm_text V_VM ffm ic)
  | X_VF_mem | X_V_load =>
      let* n := vmem_name ffm mn ic in
      Ok (n ++ tab ++ r [(VF_mem_RD, RD); (VF_mem_RS1, RS1); (VF_mem_RS2, RS2)] ++
          vm_text VF_mem_VM ffm ic)
  | X_V_store =>
      let* n := vmem_name ffm mn ic in
      Ok (n ++ tab ++ r [(VF_mem_RS3, RS3); (VF_mem_RS1, RS1); (VF_mem_RS2, RS2)] ++
          vm_text VF_mem_VM ffm ic)
  | X_V_vsetvli =>
      let* i := x_imm x ic in
      Ok (head ++ r [(V_vsetvli_RD, RD); (V_vsetvli_RS1, RS1)] ++ ", " ++ vtype_text i)
  | X_V_vsetivli =>
      let* a := x_spec x SF_AVL ic in
      let* i := x_imm x ic in
      Ok (head ++ "x" ++ dec (f_extract V_vsetivli_RD (andnot64 ic ffm)) ++ ",avl=" ++ dec a ++
          ", " ++ vtype_text i)
  | X_V_vsetvl => Ok (head ++ r [(V_vsetvl_RD, RD); (V_vsetvl_RS1, RS1); (V_vsetvl_RS2, RS2)])
  | X_V_uimm6 =>
      let* i := x_imm x ic in
      Ok (head ++ r [(V_uimm6_RD, RD); (V_uimm6_RS2, RS2)] ++ ", IMM=" ++ dec i ++
          vm_text V_uimm6_VM ffm ic)
  | X_V_uimm | X_V_uimm_implied =>
      let* i := x_imm x ic in
      Ok (head ++ r [(V_RD, RD); (V_RS2, RS2)] ++ ", IMM=" ++ dec i ++ vm_text V_VM ffm ic)
  | X_V_simm =>
      let* o := x_soff x ic in
      Ok (head ++ r [(V_RD, RD); (V_RS2, RS2)] ++ "," ++ sdec o ++ vm_text V_VM ffm ic)
  | X_C0_load | X_C0_load_byte | X_C0_load_half | X_C0_load_word | X_C0_load_double
  | X_C0_load_word_pair =>
      let* i := x_imm x ic in
      Ok (head ++ cr [(C0_RD, RD); (C0_RS1, RS1)] ++ ", IMM=" ++ dec i)
  | X_C0_store | X_C0_store_byte | X_C0_store_half | X_C0_store_word | X_C0_store_double
  | X_C0_store_word_pair =>
      let* i := x_imm x ic in
      Ok (head ++ cr [(C0_RD, RS2); (C0_RS1, RS1)] ++ ", IMM=" ++ dec i)
  | X_C1_rsd | X_C1_rsd_I0 | X_C1_rsd_zext_I0 | X_C1_rsd_Ineg1 | X_C1_rsd_I0xFF =>
      Ok (head ++ cr [(C1_RD, RD); (C1_RS1, RS1)])
  | X_C2_add => Ok (head ++ r [(C2_RD, RD); (C2_RS1, RS1); (C2_RS2, RS2)])
  | X_C2_mv => Ok (head ++ r [(C2_RD, RD)] ++ ", " ++ r [(C2_RS2, RS2)])
  | X_C2_slli =>
      let* i := x_imm x ic in
      Ok (head ++ r [(C2_RD, RD); (C2_RS1, RS1)] ++ ", IMM=" ++ dec i)
  | X_C2_sp | X_C2_sp_load | X_C2_sp_load_word | X_C2_sp_load_double | X_C2_sp_load_word_pair
  | X_C2_sp_load_float_single | X_C2_sp_load_float_double =>
      let* i := x_imm x ic in
      Ok (head ++ r [(C2_RD, RD)] ++ ", SP, IMM=" ++ dec i)
  | X_HV_load => Ok (head ++ r [(R_RD, RD); (R_RS1, RS1)])
  | X_HV_store => Ok (head ++ r [(R_RS2, RS2); (R_RS1, RS1)])
  | X_NTL_hint => Ok mn
  | X_PF_hint =>
      let* o := x_soff x ic in
      Ok (head ++ r [(I_RS1, RS1)] ++ ", +0x" ++ shex o)
  end.

Local Close Scope string_scope.

(** An extractor object of class [c] built with fixed-field mask [ffm]. *)
Definition ext (c : xcls) (ffm : N) : Ext :=
  o_dasm (dasm (tie (xcls_body c ffm)) c ffm) (tie (xcls_body c ffm)).

(** specialCaseClone: every class clones to itself except four.  I_load_pair and
    S_pair do not override the method and so inherit the one of I_load
    (ExtractorDerived.h:50-53) and S (ExtractorForms.h:2687-2690);
    C2_sp_load_word_pair (ExtractorDerived.h:1993-1996) and C2_sp_store_word_pair
    (2186-2189) construct the *_double class. *)
Definition clone_cls (c : xcls) : xcls :=
  match c with
  | X_I_load_pair => X_I_load
  | X_S_pair => X_S
  | X_C2_sp_load_word_pair => X_C2_sp_load_double
  | X_C2_sp_store_word_pair => X_C2_sp_store_double
  | c => c
  end.

(** impl/ExtractorRegistry.cpp:11-92, the registry (names are the Form's name string). *)
Definition ext_registry : list (string * xcls) :=
  [("AMO"%string, X_AMO);
   ("B"%string, X_B);
   ("C0"%string, X_C0);
   ("C0_load_double"%string, X_C0_load_double);
   ("C0_load_word"%string, X_C0_load_word);
   ("C0_load_word_pair"%string, X_C0_load_word_pair);
   ("C0_load_byte"%string, X_C0_load_byte);
   ("C0_load_half"%string, X_C0_load_half);
   ("C0_store_double"%string, X_C0_store_double);
   ("C0_store_word"%string, X_C0_store_word);
   ("C0_store_word_pair"%string, X_C0_store_word_pair);
   ("C0_store_byte"%string, X_C0_store_byte);
   ("C0_store_half"%string, X_C0_store_half);
   ("C1_rsd"%string, X_C1_rsd);
   ("C1_rsd_I0"%string, X_C1_rsd_I0);
   ("C1_rsd_zext_I0"%string, X_C1_rsd_zext_I0);
   ("C1_rsd_Ineg1"%string, X_C1_rsd_Ineg1);
   ("C1_rsd_I0xFF"%string, X_C1_rsd_I0xFF);
   ("C2"%string, X_C2);
   ("C2_add"%string, X_C2_add);
   ("C2_mv"%string, X_C2_mv);
   ("C2_slli"%string, X_C2_slli);
   ("C2_sp"%string, X_C2_sp);
   ("C2_sp_load_double"%string, X_C2_sp_load_double);
   ("C2_sp_load_float_single"%string, X_C2_sp_load_float_single);
   ("C2_sp_load_float_double"%string, X_C2_sp_load_float_double);
   ("C2_sp_load_word"%string, X_C2_sp_load_word);
   ("C2_sp_load_word_pair"%string, X_C2_sp_load_word_pair);
   ("C2_sp_store_double"%string, X_C2_sp_store_double);
   ("C2_sp_store_word"%string, X_C2_sp_store_word);
   ("C2_sp_store_word_pair"%string, X_C2_sp_store_word_pair);
   ("CA"%string, X_CA);
   ("CB"%string, X_CB);
   ("CI"%string, X_CI);
   ("CI_addi"%string, X_CI_addi);
   ("CI_addiw"%string, X_CI_addiw);
   ("CI_rD_only"%string, X_CI_rD_only);
   ("CI_rD_shifted"%string, X_CI_rD_shifted);
   ("CI_sp"%string, X_CI_sp);
   ("CIW"%string, X_CIW);
   ("CIW_sp"%string, X_CIW_sp);
   ("CIX"%string, X_CIX);
   ("CIX_andi"%string, X_CIX_andi);
   ("CJ"%string, X_CJ);
   ("CJAL"%string, X_CJAL);
   ("CJR"%string, X_CJR);
   ("CJALR"%string, X_CJALR);
   ("CSR"%string, X_CSR);
   ("CSRI"%string, X_CSRI);
   ("FENCE"%string, X_FENCE);
   ("HV_load"%string, X_HV_load);
   ("HV_store"%string, X_HV_store);
   ("I"%string, X_I);
   ("I_load"%string, X_I_load);
   ("I_load_pair"%string, X_I_load_pair);
   ("I_mv"%string, X_I_mv);
   ("ISH"%string, X_ISH);
   ("ISHW"%string, X_ISHW);
   ("J"%string, X_J);
   ("NTL_hint"%string, X_NTL_hint);
   ("PF_hint"%string, X_PF_hint);
   ("R"%string, X_R);
   ("Rfloat"%string, X_Rfloat);
   ("R4"%string, X_R4);
   ("S"%string, X_S);
   ("S_pair"%string, X_S_pair);
   ("U"%string, X_U);
   ("V"%string, X_V);
   ("VF_mem"%string, X_VF_mem);
   ("V_load"%string, X_V_load);
   ("V_store"%string, X_V_store);
   ("V_vsetvl"%string, X_V_vsetvl);
   ("V_vsetvli"%string, X_V_vsetvli);
   ("V_vsetivli"%string, X_V_vsetivli);
   ("V_simm"%string, X_V_simm);
   ("V_uimm"%string, X_V_uimm);
   ("V_uimm6"%string, X_V_uimm6);
   ("V_op"%string, X_V_op);
   ("V_implied"%string, X_V_implied);
   ("V_op_implied"%string, X_V_op_implied);
   ("V_uimm_implied"%string, X_V_uimm_implied)].

(** impl/ExtractorRegistry.cpp:8-99, getExtractor: unknown names throw BuildErrorUnknownForm. *)
Definition get_extractor (name : string) : res xcls :=
  match find (fun p => String.eqb (fst p) name) ext_registry with
  | Some (_, c) => Ok c
  | None => Throw EBuildErrorUnknownForm
  end.
