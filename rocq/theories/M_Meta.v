(** Model of mavis/InstMetaData.h. *)
From Coq Require Import NArith ZArith List Bool String.
From Verif Require Import M_Base.
Import ListNotations.
Open Scope N_scope.

(** InstMetaData.h:104-115, enum OperandTypes without NONE/__N.
    A value of the C++ enum is [option kind], [None] being OperandTypes::NONE.
    Passing NONE where an array index is formed is out of bounds in C++; the
    model's queries take a [kind] and so do not cover that call. *)
Inductive kind := KWord | KLong | KSingle | KDouble | KQuad | KVector.
Definition all_kinds : list kind := [KWord; KLong; KSingle; KDouble; KQuad; KVector].
Definition kind_eqb (a b : kind) : bool :=
  match a, b with
  | KWord, KWord | KLong, KLong | KSingle, KSingle
  | KDouble, KDouble | KQuad, KQuad | KVector, KVector => true
  | _, _ => false
  end.
Definition okind_eqb (a b : option kind) : bool :=
  match a, b with
  | None, None => true
  | Some x, Some y => kind_eqb x y
  | _, _ => false
  end.

(** InstMetaData.h:118-145, enum OperandFieldID without NONE/__N
    ([option fid] with [None] for NONE). *)
Inductive fid :=
| RS1 | RS2 | RS3 | RS4 | RS_MAX
| FUSED_SD_0 | FUSED_SD_1 | TEMP_RS1 | TEMP_RS2 | TEMP_RS3
| RD | RD2 | RD_MAX
| FUSED_RD_0 | FUSED_RD_1 | TEMP_RD | TEMP_RD2.
Definition all_fids : list fid :=
  [RS1; RS2; RS3; RS4; RS_MAX; FUSED_SD_0; FUSED_SD_1; TEMP_RS1; TEMP_RS2; TEMP_RS3;
   RD; RD2; RD_MAX; FUSED_RD_0; FUSED_RD_1; TEMP_RD; TEMP_RD2].
(** The underlying enumerator value. *)
Definition fid_idx (f : fid) : N :=
  match f with
  | RS1 => 0 | RS2 => 1 | RS3 => 2 | RS4 => 3 | RS_MAX => 4
  | FUSED_SD_0 => 5 | FUSED_SD_1 => 6 | TEMP_RS1 => 7 | TEMP_RS2 => 8 | TEMP_RS3 => 9
  | RD => 10 | RD2 => 11 | RD_MAX => 12
  | FUSED_RD_0 => 13 | FUSED_RD_1 => 14 | TEMP_RD => 15 | TEMP_RD2 => 16
  end.
Definition fid_eqb (a b : fid) : bool := fid_idx a =? fid_idx b.
Definition ofid_eqb (a b : option fid) : bool :=
  match a, b with
  | None, None => true
  | Some x, Some y => fid_eqb x y
  | _, _ => false
  end.

(** InstMetaData.h:208-225, ofimap_; 646-654 getFieldID (unknown name -> NONE). *)
Definition ofimap : list (string * fid) :=
  [("rs1", RS1); ("rs2", RS2); ("rs3", RS3); ("rs4", RS4);
   ("fused_sd_0", FUSED_SD_0); ("fused_sd_1", FUSED_SD_1);
   ("temp_rs1", TEMP_RS1); ("temp_rs2", TEMP_RS2); ("temp_rs3", TEMP_RS3);
   ("rd", RD); ("rd2", RD2);
   ("fused_rd_0", FUSED_RD_0); ("fused_rd_1", FUSED_RD_1);
   ("temp_rd", TEMP_RD); ("temp_rd2", TEMP_RD2)]%string.
Definition get_fid (s : string) : option fid :=
  option_map snd (find (fun p => String.eqb (fst p) s) ofimap).
(** InstMetaData.h:227-246 and 640-644, getFieldIDName ("rd4" for RS4 is in the source). *)
Definition fid_name (f : fid) : string :=
  match f with
  | RS1 => "rs1" | RS2 => "rs2" | RS3 => "rs3" | RS4 => "rd4" | RS_MAX => "rs_max"
  | FUSED_SD_0 => "fused_sd_0" | FUSED_SD_1 => "fused_sd_1"
  | TEMP_RS1 => "temp_rs1" | TEMP_RS2 => "temp_rs2" | TEMP_RS3 => "temp_rs3"
  | RD => "rd" | RD2 => "rd2" | RD_MAX => "rd_max"
  | FUSED_RD_0 => "fused_rd_0" | FUSED_RD_1 => "fused_rd_1"
  | TEMP_RD => "temp_rd" | TEMP_RD2 => "temp_rd2"
  end%string.

(** InstMetaData.h:30-71, InstructionTypes (one-hot), and 150-190, tmap_. *)
Definition IT_INT : N := N.shiftl 1 0.
Definition IT_ARITH : N := N.shiftl 1 2.
Definition IT_BRANCH : N := N.shiftl 1 5.
Definition IT_CONDITIONAL : N := N.shiftl 1 7.
Definition IT_JAL : N := N.shiftl 1 8.
Definition IT_JALR : N := N.shiftl 1 9.
Definition IT_LOAD : N := N.shiftl 1 10.
Definition IT_STORE : N := N.shiftl 1 11.
Definition IT_MOVE : N := N.shiftl 1 16.
Definition tmap : list (string * N) :=
  [("int", 0); ("float", 1); ("arith", 2); ("mul", 3); ("div", 4); ("branch", 5);
   ("pc", 6); ("cond", 7); ("jal", 8); ("jalr", 9); ("load", 10); ("store", 11);
   ("mac", 12); ("sqrt", 13); ("convert", 14); ("compare", 15); ("move", 16);
   ("classify", 17); ("vector", 18); ("maskable", 19); ("unit_stride", 20);
   ("stride", 21); ("ordered_indexed", 22); ("unordered_indexed", 23);
   ("segment", 24); ("faultfirst", 25); ("whole", 26); ("mask", 27);
   ("widening", 28); ("hypervisor", 29); ("crypto", 30);
   ("prefetch", 56); ("ntl", 57); ("hint", 58); ("cache", 59); ("atomic", 60);
   ("fence", 61); ("system", 62); ("csr", 63)]%string.
Definition itype_of (s : string) : option N :=
  option_map (fun p => N.shiftl 1 (snd p)) (find (fun p => String.eqb (fst p) s) tmap).

(** InstMetaData.h:73-87, ISAExtensionIndex by letter; 192-204 isamap_. *)
Definition isamap : list (string * N) :=
  [("A", 0); ("B", 1); ("C", 2); ("D", 3); ("F", 4); ("G", 5); ("H", 6);
   ("I", 7); ("M", 8); ("Q", 9); ("V", 10)]%string.

(** InstMetaData.h:657-665, the data members.  The three std::arrays are
    total functions on their index enums. *)
Record meta := mkMeta {
  mt_compressed : bool;
  mt_types : N;               (* inst_types_, uint64_t *)
  mt_isa : N;                 (* isa_ext_, uint64_t *)
  mt_isaw : N -> N;           (* isa_width_ *)
  mt_fset : kind -> N;        (* field_set_, uint32_t each *)
  mt_otype : fid -> option kind; (* oper_type_ *)
  mt_fixed : fid -> bool;     (* fixed_fields_ *)
  mt_data : N;                (* data_size_, uint32_t *)
  mt_tags : list string }.

Definition meta_init (compressed : bool) (tags : list string) : meta :=
  mkMeta compressed 0 0 (fun _ => 0) (fun _ => 0) (fun _ => None) (fun _ => false) 0 tags.

(** One "*-oper" clause of the JSON record: the word "all" or a field-name list. *)
Inductive oper_clause := OperAll | OperList (l : list string).

(** The part of a JSON record the InstMetaData constructor reads.  The textual
    parts (JSON syntax; the regex that splits an "isa" string into an optional
    width and a letter) are not modelled: [jm_isa] holds the split result. *)
Record jmeta := mkJ {
  jm_type : option (list string);
  jm_data : option N;          (* already converted to uint32_t *)
  jm_oper : kind -> option oper_clause;
  jm_isa : list (option N * string) }.

(** InstMetaData.h:667-680, parseTypeStanza_. *)
Fixpoint add_types (ts : list string) (acc : N) : res N :=
  match ts with
  | [] => Ok acc
  | t :: r =>
      match itype_of t with
      | None => Throw EBuildErrorUnknownType
      | Some b => add_types r (N.lor acc b)
      end
  end.
Definition set_types (m : meta) (t : N) : meta :=
  mkMeta (mt_compressed m) t (mt_isa m) (mt_isaw m) (mt_fset m) (mt_otype m) (mt_fixed m) (mt_data m) (mt_tags m).
Definition parse_type (j : option (list string)) (m : meta) : res meta :=
  match j with
  | None => Ok m
  | Some ts => let* t := add_types ts (mt_types m) in Ok (set_types m t)
  end.

(** InstMetaData.h:682-692, parseDataSizeStanza_ (uint32_t arithmetic;
    [data - 1] wraps for 0). *)
Definition data_size_bad (d : N) : bool :=
  negb (N.land d (u32 (d + w32 - 1)) =? 0) || (2147483648 <=? d).
Definition parse_data (j : option N) (m : meta) : res meta :=
  match j with
  | None => Ok m
  | Some d =>
      if data_size_bad d then Throw EBuildErrorInvalidDataSize
      else Ok (mkMeta (mt_compressed m) (mt_types m) (mt_isa m) (mt_isaw m) (mt_fset m)
                      (mt_otype m) (mt_fixed m) d (mt_tags m))
  end.

(** InstMetaData.h:703-710 and 694-701, getFieldIDSet_ / getFieldIndex_
    (unknown names throw BuildErrorUnknownFormField). *)
Fixpoint meta_field_set (l : list string) : res N :=
  match l with
  | [] => Ok 0
  | f :: r =>
      match get_fid f with
      | None => Throw EBuildErrorUnknownFormField
      | Some i => let* s := meta_field_set r in Ok (N.lor (N.shiftl 1 (fid_idx i)) s)
      end
  end.
Definition set_oper (m : meta) (fs : kind -> N) (ot : fid -> option kind) : meta :=
  mkMeta (mt_compressed m) (mt_types m) (mt_isa m) (mt_isaw m) fs ot (mt_fixed m) (mt_data m) (mt_tags m).
(** InstMetaData.h:719-724, setAllOperandsType_; -1u is the 32-bit all-ones word. *)
Definition set_all_operands (k : kind) (m : meta) : meta :=
  set_oper m (fun k' => if kind_eqb k' k then N.ones 32 else mt_fset m k') (fun _ => Some k).
(** InstMetaData.h:712-717, setOperandsType_. *)
Definition set_operands (l : list string) (k : kind) (m : meta) : res meta :=
  let* s := meta_field_set l in
  Ok (set_oper m (fun k' => if kind_eqb k' k then s else mt_fset m k')
        (fun f => if existsb (fun n => ofid_eqb (get_fid n) (Some f)) l then Some k else mt_otype m f)).
(** InstMetaData.h:278-342, the six clauses in the order w, l, s, d, q, v. *)
Definition parse_oper (c : option oper_clause) (k : kind) (m : meta) : res meta :=
  match c with
  | None => Ok m
  | Some OperAll => Ok (set_all_operands k m)
  | Some (OperList l) => set_operands l k m
  end.
Definition parse_opers (j : kind -> option oper_clause) (m : meta) : res meta :=
  let* m := parse_oper (j KWord) KWord m in
  let* m := parse_oper (j KLong) KLong m in
  let* m := parse_oper (j KSingle) KSingle m in
  let* m := parse_oper (j KDouble) KDouble m in
  let* m := parse_oper (j KQuad) KQuad m in
  parse_oper (j KVector) KVector m.

(** InstMetaData.h:543-547, setISAWidth. *)
Definition set_isa_width (i w : N) (m : meta) : res meta :=
  let* _ := rassert (negb (w =? 0) && (N.land w (w - 1) =? 0)) in
  Ok (mkMeta (mt_compressed m) (mt_types m) (mt_isa m)
        (fun j => if j =? i then N.lor (mt_isaw m i) w else mt_isaw m j)
        (mt_fset m) (mt_otype m) (mt_fixed m) (mt_data m) (mt_tags m)).
(** InstMetaData.h:346-376, the "isa" clause. *)
Fixpoint parse_isa (l : list (option N * string)) (m : meta) : res meta :=
  match l with
  | [] => Ok m
  | (w, letter) :: r =>
      match find (fun p => String.eqb (fst p) letter) isamap with
      | None => Throw EBuildErrorInvalidISAExtension
      | Some (_, i) =>
          let m1 := mkMeta (mt_compressed m) (mt_types m) (N.lor (mt_isa m) (N.shiftl 1 i)) (mt_isaw m)
                      (mt_fset m) (mt_otype m) (mt_fixed m) (mt_data m) (mt_tags m) in
          let* m2 :=
            match w with
            | None => Ok m1
            | Some n =>
                if (n =? 0) || negb (N.land n (n - 1) =? 0) then Throw EBuildErrorInvalidISAWidth
                else set_isa_width i n m1
            end in
          parse_isa r m2
      end
  end.

(** InstMetaData.h:267-377, the JSON constructor. *)
Definition make_meta (j : jmeta) (compressed : bool) (tags : list string) : res meta :=
  let* m := parse_type (jm_type j) (meta_init compressed tags) in
  let* m := parse_data (jm_data j) m in
  let* m := parse_opers (jm_oper j) m in
  parse_isa (jm_isa j) m.

(** InstMetaData.h:395-411, the ISA constructor (case RV64I; RV32I likewise with WORD). *)
Definition meta_rv64i : meta := set_types (set_all_operands KLong (meta_init false [])) IT_INT.
Definition meta_rv32i : meta := set_types (set_all_operands KWord (meta_init false [])) IT_INT.

(** InstMetaData.h:419-424, merge. *)
Definition meta_merge (m other : meta) : meta :=
  mkMeta (mt_compressed other) (N.lor (mt_types m) (mt_types other)) (mt_isa m) (mt_isaw m)
    (mt_fset m) (mt_otype m) (mt_fixed m) (mt_data m) (mt_tags m).
(** InstMetaData.h:428-440, parseOverrides. *)
Definition meta_overrides (j : jmeta) (tags : list string) (m : meta) : res meta :=
  let* m := parse_type (jm_type j) m in
  let* m := parse_data (jm_data j) m in
  Ok (mkMeta (mt_compressed m) (mt_types m) (mt_isa m) (mt_isaw m) (mt_fset m)
        (mt_otype m) (mt_fixed m) (mt_data m) (mt_tags m ++ tags)).
(** InstMetaData.h:442-449, setInstType. *)
Definition set_inst_type (l : list N) (m : meta) : meta :=
  set_types m (fold_left N.lor l (mt_types m)).

(** InstMetaData.h:456-460, isInstType. *)
Definition is_inst_type (m : meta) (t : N) : bool := N.land t (mt_types m) =? t.
(** InstMetaData.h:462-472, isInstTypeAnyOf. *)
Definition is_inst_type_any (m : meta) (l : list N) : bool := existsb (is_inst_type m) l.
(** InstMetaData.h:474-484, isInstTypeAllOf. *)
Definition is_inst_type_all (m : meta) (l : list N) : bool := forallb (is_inst_type m) l.
(** InstMetaData.h:486-501, isInstTypeSameAs. *)
Definition is_inst_type_same (m : meta) (other : N) (l : list N) : bool :=
  match l with
  | [] => mt_types m =? other
  | _ => forallb (fun i => N.land i (mt_types m) =? N.land i other) l
  end.
(** InstMetaData.h:737-745, ISAtoBits_. *)
Definition isa_to_bits (l : list N) : N := fold_left N.lor l 0.
(** InstMetaData.h:508-512, isISA. *)
Definition is_isa (m : meta) (isa : N) : bool := N.land (mt_isa m) isa =? isa.
(** InstMetaData.h:514-518, isISAAnyOf. *)
Definition is_isa_any (m : meta) (l : list N) : bool :=
  negb (N.land (isa_to_bits l) (mt_isa m) =? 0).
(** InstMetaData.h:520-525, isISAAllOf. *)
Definition is_isa_all (m : meta) (l : list N) : bool :=
  N.land (isa_to_bits l) (mt_isa m) =? isa_to_bits l.
(** InstMetaData.h:527-535, isISASameAs. *)
Definition is_isa_same (m : meta) (other : N) (l : list N) : bool :=
  let check := isa_to_bits l in
  if check =? 0 then mt_isa m =? other
  else N.land (N.land (mt_isa m) other) check =? check.
(** InstMetaData.h:549-553, isISAWidth. *)
Definition is_isa_width (m : meta) (i w : N) : bool :=
  is_isa m (N.shiftl 1 i) && (N.land w (mt_isaw m i) =? w).

(** InstMetaData.h:555-558, isNoneOperandType. *)
Definition is_none_ot (m : meta) (k : kind) : bool := mt_fset m k =? 0.
(** InstMetaData.h:560-563, isAllOperandType. *)
Definition is_all_ot (m : meta) (k : kind) : bool := mt_fset m k =? N.ones 32.
(** InstMetaData.h:565-569, isOperandType. *)
Definition is_ot (m : meta) (f : fid) (k : kind) : bool :=
  negb (N.land (N.shiftl 1 (fid_idx f)) (mt_fset m k) =? 0).
(** InstMetaData.h:248-259, source_fields_ and dest_fields_. *)
Definition source_fields : N :=
  fold_left (fun a f => N.lor a (N.shiftl 1 (fid_idx f))) [RS1; RS2; RS3; FUSED_SD_0; FUSED_SD_1] 0.
Definition dest_fields : N :=
  fold_left (fun a f => N.lor a (N.shiftl 1 (fid_idx f))) [RD; FUSED_RD_0; FUSED_RD_1] 0.
(** InstMetaData.h:586-596 and 599-609. *)
Definition default_source_type (m : meta) : option kind :=
  find (fun k => negb (N.land source_fields (mt_fset m k) =? 0)) all_kinds.
Definition default_dest_type (m : meta) : option kind :=
  find (fun k => negb (N.land dest_fields (mt_fset m k) =? 0)) all_kinds.
(** InstMetaData.h:611-619, addFixedFields. *)
Definition add_fixed_fields (l : list string) (m : meta) : meta :=
  mkMeta (mt_compressed m) (mt_types m) (mt_isa m) (mt_isaw m) (mt_fset m) (mt_otype m)
    (fun f => mt_fixed m f || existsb (fun n => ofid_eqb (get_fid n) (Some f)) l)
    (mt_data m) (mt_tags m).
(** InstMetaData.h:621-628, isOperandFixed ([None] is NONE). *)
Definition is_operand_fixed (m : meta) (f : option fid) : bool :=
  match f with None => true | Some f => mt_fixed m f end.
