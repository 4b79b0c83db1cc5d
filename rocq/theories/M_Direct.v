(** Model of the extractors that do not read an opcode: mavis/ExtractorDirectInfo.h,
    mavis/ExtractorDirectImplementations.hpp, mavis/ExtractorTraceInfo.h. *)
From Coq Require Import NArith ZArith List Bool String.
From Verif Require Import M_Base M_Field M_Forms M_Meta M_OperandInfo M_Extract M_Decoded M_Registry.
Import ListNotations.
Local Open Scope N_scope.

(** InstMetaData.h:571-574 and 576-579, isAnySourceOperandType / isAnyDestOperandType. *)
Definition is_any_source_ot (m : meta) (k : kind) : bool := negb (N.land source_fields (mt_fset m k) =? 0).
Definition is_any_dest_ot (m : meta) (k : kind) : bool := negb (N.land dest_fields (mt_fset m k) =? 0).

(** The operands a user gives, by extractor class.  Register numbers and special values are
    uint32_t, masks uint64_t. *)
Inductive dops :=
| DInfo (srcs dsts specials : list N)            (* ExtractorDirectInfo.h:237, ExtractorDirectInfo *)
| DList (srcs dsts : opinfo) (specials : list N) (* ExtractorDirectInfo.h:405, ExtractorDirectOpInfoList *)
| DPseudo (srcs dsts : opinfo)                   (* ExtractorDirectImplementations.hpp:14, ExtractorPseudoInfo *)
| DMask (srcs dsts : N)                          (* :137, ExtractorDirectInfoBitMask *)
| DStores (addrs datas specials : list N)        (* :230, ExtractorDirectInfo_Stores *)
| DMaskStores (addrs datas : N)                  (* :344, ExtractorDirectInfoBitMask_Stores *)
| DMaskDestStores (addrs datas dsts : N).        (* :437, ExtractorDirectInfoBitMask_DestStores *)
(** ExtractorDirectInfo.h:36-235, the members of ExtractorDirectBase. *)
Record direct := mkD {
  dx_mn : string;
  dx_uid : N;
  dx_immT : imm_type;
  dx_imm : N;
  dx_ops : dops }.
(** ExtractorDirectInfo.h:39-53, the four constructors of ExtractorDirectBase; an immediate
    given without its type is unsigned. *)
Definition direct_imm (imm : option N) : imm_type * N :=
  match imm with None => (ImmNone, 0) | Some i => (ImmUnsigned, i) end.
Definition direct_named (mn : string) (imm : option N) (o : dops) : direct :=
  mkD mn INVALID_UID (fst (direct_imm imm)) (snd (direct_imm imm)) o.
Definition direct_numbered (uid : N) (imm : option N) (o : dops) : direct :=
  mkD "UNSET-in-ExtractorDirectBase" uid (fst (direct_imm imm)) (snd (direct_imm imm)) o.

(** The register loops, e.g. ExtractorDirectInfo.h:291-301: the bits of the registers, at most 31. *)
Fixpoint regs_or (acc : N) (regs : list N) : res N :=
  match regs with
  | [] => Ok acc
  | r :: rest => if MAX_REG_NUM <? r then Throw EInvalidRegisterNumber
                 else regs_or (N.lor acc (shl64 1 r)) rest
  end.
Definition regs_mask (regs : list N) : res N := regs_or 0 regs.
(** ExtractorDirectImplementations.hpp:52-64 and 79-91: the registers of one kind; the shift is
    not guarded. *)
Fixpoint kind_mask (k : kind) (es : list elem) : res N :=
  match es with
  | [] => Ok 0
  | e :: r =>
      let* b := if okind_eqb (e_type e) (Some k)
                then if 64 <=? e_val e then UB else Ok (shl64 1 (e_val e))
                else Ok 0 in
      let* rest := kind_mask k r in
      Ok (N.lor b rest)
  end.

(** ExtractorDirectInfo.h:328-330 and 350-352: from [field_id], as long as it is below [lim],
    fixed fields are passed over.  [fs] are the fields from field_id up to the maximum. *)
Fixpoint drop_fixed (lim : N) (m : meta) (fs : list fid) : list fid :=
  match fs with
  | [] => []
  | f :: r => if (fid_idx f <? lim) && is_operand_fixed m (Some f) then drop_fixed lim m r else fs
  end.
(** ExtractorDirectInfo.h:327-338 (and 349-358), the loop: the register of each operand goes to
    the next field; the assertion fails when there is none. *)
Fixpoint field_loop (lim : N) (m : meta) (ty : fid -> option kind) (sd : fid -> bool)
  (regs : list N) (fs : list fid) (o : opinfo) : res opinfo :=
  match regs with
  | [] => Ok o
  | r :: rest =>
      match drop_fixed lim m fs with
      | [] => AssertFail
      | f :: fs' =>
          let* o := add_elem o (mkE (Some f) (ty f) r (sd f) false) in
          field_loop lim m ty sd rest fs' o
      end
  end.
(** ExtractorDirectInfo.h:316-341, getSourceOperandInfo; max_sources = RS_MAX - RS1 = 4. *)
Definition direct_srcI (m : meta) (regs : list N) : res opinfo :=
  let* _ := rassert (N.of_nat (List.length regs) <=? 4) in
  field_loop 4 m (mt_otype m) (fun f => fid_eqb f RS3) regs [RS1; RS2; RS3; RS4] oi_empty.
(** ExtractorDirectInfo.h:343-362, getDestOperandInfo; max_dests = RD_MAX - RD1 = 2 is also the
    limit compared with field_id, which starts at RD = 10. *)
Definition direct_dstI (m : meta) (regs : list N) : res opinfo :=
  let* _ := rassert (N.of_nat (List.length regs) <=? 2) in
  field_loop 2 m (fun _ => default_dest_type m) (fun _ => false) regs [RD; RD2] oi_empty.

(** An operand without a field. *)
Definition bare (t : option kind) (sd : bool) (r : N) : elem := mkE None t r sd false.
(** ExtractorDirectImplementations.hpp:180-203: one operand per bit of the mask. *)
Definition mask_elems (t : option kind) (sd : bool) (mask : N) : res (list elem) :=
  let* l := bit_indices mask in Ok (map (bare t sd) l).

(** getSourceAddressRegs and getSourceDataRegs. *)
Definition d_addr_regs (o : dops) : res N :=
  match o with
  | DStores a _ _ => regs_mask a
  | DMaskStores a _ | DMaskDestStores a _ _ => Ok a
  | _ => Ok 0
  end.
Definition d_data_regs (o : dops) : res N :=
  match o with
  | DStores _ d _ => regs_mask d
  | DMaskStores _ d | DMaskDestStores _ d _ => Ok d
  | _ => Ok 0
  end.
(** getSourceRegs. *)
Definition d_src_regs (o : dops) : res N :=
  match o with
  | DInfo s _ _ => regs_mask s
  | DList s _ _ | DPseudo s _ => regs_mask (map e_val (oi_elems s))
  | DMask s _ => Ok s
  | DStores _ _ _ | DMaskStores _ _ | DMaskDestStores _ _ _ =>
      let* a := d_addr_regs o in let* d := d_data_regs o in Ok (N.lor a d)
  end.
(** getDestRegs. *)
Definition d_dst_regs (o : dops) : res N :=
  match o with
  | DInfo _ d _ => regs_mask d
  | DList _ d _ | DPseudo _ d => regs_mask (map e_val (oi_elems d))
  | DMask _ d | DMaskDestStores _ _ d => Ok d
  | DStores _ _ _ | DMaskStores _ _ => Ok 0
  end.
(** getSourceOperandInfo and getDestOperandInfo; suppress_x0 is ignored by every class. *)
Definition d_srcI (o : dops) (m : meta) : res opinfo :=
  let t := default_source_type m in
  match o with
  | DInfo s _ _ => direct_srcI m s
  | DList s _ _ | DPseudo s _ => Ok s
  | DMask s _ => let* l := mask_elems t false s in add_elems oi_empty l
  | DStores a d _ => add_elems oi_empty (map (bare t false) a ++ map (bare t true) d)
  | DMaskStores a d | DMaskDestStores a d _ =>
      let* l := mask_elems t false a in let* l' := mask_elems t true d in add_elems oi_empty (l ++ l')
  end.
Definition d_dstI (o : dops) (m : meta) : res opinfo :=
  let t := default_dest_type m in
  match o with
  | DInfo _ d _ => direct_dstI m d
  | DList _ d _ | DPseudo _ d => Ok d
  | DMask _ d | DMaskDestStores _ _ d => let* l := mask_elems t false d in add_elems oi_empty l
  | DStores _ _ _ | DMaskStores _ _ => Ok oi_empty
  end.
(** getSourceOperTypeRegs (ExtractorDirectInfo.h:124-133; ExtractorPseudoInfo overrides it) and
    getDestOperTypeRegs. *)
Definition d_srcT (o : dops) (m : meta) (k : kind) : res N :=
  match o with
  | DPseudo s _ => kind_mask k (oi_elems s)
  | _ => if is_all_ot m k || is_any_source_ot m k then d_src_regs o else Ok 0
  end.
Definition d_dstT (o : dops) (m : meta) (k : kind) : res N :=
  match o with
  | DPseudo _ d => kind_mask k (oi_elems d)
  | _ => if is_all_ot m k || is_any_dest_ot m k then d_dst_regs o else Ok 0
  end.

(** ExtractorDirectInfo.h:188-207, bitmaskToStringVals_. *)
Definition mask_text (mask : N) : res string :=
  let* l := bit_indices mask in Ok (String.concat "," (map dec l)).
(** dasmString: ExtractorDirectInfo.h:366-391 and 500-525 (hasImmediate: Extractor.h:121-124);
    ExtractorDirectImplementations.hpp:121-133, 219-227, 325-337, 435-443, 534-542. *)
Definition direct_dasm (d : direct) (mn : string) : res string :=
  let imm := ("0x" ++ hex (dx_imm d))%string in
  let has := match dx_immT d with ImmNone => false | _ => true end in
  let head := (mn ++ tab)%string in
  let vals l := map e_val (oi_elems l) in
  match dx_ops d with
  | DInfo s t _ =>
      Ok (head ++ String.concat "," (map dec (t ++ s)%list) ++ (if has then ", " ++ imm else ""))%string
  | DList s t _ =>
      Ok (head ++ String.concat "," (map dec (vals t ++ vals s)%list) ++ (if has then " " ++ imm else ""))%string
  | DPseudo s t =>
      Ok (head ++ String.concat "" (map (fun r => dec r ++ ",") (vals t ++ vals s)%list) ++ " " ++ imm)%string
  | DMask s t =>
      let* a := mask_text t in let* b := mask_text s in
      Ok (head ++ a ++ "," ++ b ++ " " ++ imm)%string
  | DStores a t _ =>
      Ok (head ++ String.concat "" (map (fun r => dec r ++ "(D),") t) ++
          String.concat "" (map (fun r => dec r ++ "(A),") a) ++ " " ++ imm)%string
  | DMaskStores a t =>
      let* x := mask_text t in let* y := mask_text a in
      Ok (head ++ " D:" ++ x ++ ", A:" ++ y ++ " " ++ imm)%string
  | DMaskDestStores a t r =>
      let* z := mask_text r in let* x := mask_text t in let* y := mask_text a in
      Ok (head ++ " " ++ z ++ ", D:" ++ x ++ ", A:" ++ y ++ " " ++ imm)%string
  end.

(** The extractor. *)
Definition direct_ext (d : direct) : Ext :=
  mkX (fun _ => Ok false) (fun _ => Ok false)
      (fun _ => d_src_regs (dx_ops d)) (fun _ => d_addr_regs (dx_ops d)) (fun _ => d_data_regs (dx_ops d))
      (fun _ => d_dst_regs (dx_ops d))
      (fun _ m k => d_srcT (dx_ops d) m k) (fun _ m k => d_dstT (dx_ops d) m k)
      (fun _ m _ => d_srcI (dx_ops d) m) (fun _ m _ => d_dstI (dx_ops d) m)
      (dx_immT d) (fun _ => Ok (dx_imm d)) (fun _ => Ok (to_i64 (dx_imm d)))
      (fun _ _ => Throw EInvalidSpecialField) (fun mn _ _ => direct_dasm d mn).
(** getSpecialFieldByIndex_: vector::at, or the assertion of Extractor.h:159-162. *)
Definition direct_spec_at (d : direct) (i : N) : res N :=
  match dx_ops d with
  | DInfo _ _ l | DList _ _ l | DStores _ _ l =>
      match nth_error l (N.to_nat i) with Some v => Ok v | None => Throw EStdOutOfRange end
  | _ => AssertFail
  end.

(** mavis/ExtractorTraceInfo.h:9-226, ExtractorTraceInfo: source and destination masks and the
    immediate come from the trace record. *)
Definition trace_elems (mask : N) (sup : bool) : res opinfo :=
  let* l := mask_elems None false (if sup then andnot64 mask 1 else mask) in add_elems oi_empty l.
Definition trace_ext (srcs dsts imm : N) : Ext :=
  mkX (fun _ => Ok false) (fun _ => Ok false)
      (fun _ => Ok srcs) (fun _ => Ok 0) (fun _ => Ok 0) (fun _ => Ok dsts)
      (fun _ _ _ => Ok 0) (fun _ _ _ => Ok 0)
      (fun _ _ sup => trace_elems srcs sup) (fun _ _ sup => trace_elems dsts sup)
      ImmNone (fun _ => Ok imm) (fun _ => Ok (to_i64 imm))
      (fun _ _ => Throw EInvalidSpecialField)
      (fun mn _ _ => Ok (mn ++ " (from ExtractorTraceInfo)")%string).
