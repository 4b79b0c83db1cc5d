(** Model of mavis/DecodedInstInfo.h (struct DecodedInstructionInfo). *)
From Coq Require Import NArith ZArith List Bool String.
From Verif Require Import M_Base M_Field M_Forms M_Meta M_OperandInfo M_Extract.
Import ListNotations.
Local Open Scope N_scope.

(** DecodedInstInfo.h:38-47, count1Bits_ (the same code is in Overlay.hpp:23-32,
    ExtractorTraceInfo.h:15-24 and ExtractorDirectInfo.h:177-186).  uint64_t arithmetic. *)
Definition count1bits (n : N) : N :=
  let x := n - N.land (N.shiftr n 1) 0x5555555555555555 in
  let x := u64 (N.land x 0x3333333333333333 + N.land (N.shiftr x 2) 0x3333333333333333) in
  let x := N.land (u64 (x + N.shiftr x 4)) 0x0F0F0F0F0F0F0F0F in
  let x := u64 (x + N.shiftr x 8) in
  let x := u64 (x + N.shiftr x 16) in
  let x := u64 (x + N.shiftr x 32) in
  N.land x 0x7F.

(** DecodedInstInfo.h:64-70, the loop of getVectorOfBitIndices_: [found] bits
    found, next index [i].  An index of 64 would be an undefined shift; [fuel]
    is 64 - i, so running out of fuel is exactly that. *)
Fixpoint bit_indices_loop (fuel : nat) (bits bitcnt found i : N) : res (list N) :=
  if found =? bitcnt then Ok []
  else match fuel with
       | O => UB
       | S fuel' =>
           if negb (N.land bits (shl64 1 i) =? 0)
           then let* r := bit_indices_loop fuel' bits bitcnt (found + 1) (i + 1) in Ok (i :: r)
           else bit_indices_loop fuel' bits bitcnt found (i + 1)
       end.
(** DecodedInstInfo.h:56-73, getVectorOfBitIndices_. *)
Definition bit_indices (bits : N) : res (list N) :=
  let bitcnt := count1bits bits in
  if 0 <? bitcnt then bit_indices_loop 64 bits bitcnt 0 0 else Ok [].

(** DecodedInstInfo.h:75-78, hasSourceReg_. *)
Definition has_source_reg (srcs : N) : bool :=
  negb (srcs =? 0) && negb (srcs =? bit1 REGISTER_X0).

(** DecodedInstInfo.h:133-147, the loop of agree_opinfo_; [ot = None] is
    OperandTypes::NONE.  A shift by 64 or more is undefined. *)
Fixpoint agree_loop (l : list elem) (bits : N) (ot : option kind) : res bool :=
  match l with
  | [] => Ok true
  | e :: r =>
      if 64 <=? e_val e then UB
      else if (match ot with None => true | Some _ => okind_eqb (e_type e) ot end) &&
              (N.land (shl64 1 (e_val e)) bits =? 0)
           then Ok false
           else agree_loop r bits ot
  end.
(** DecodedInstInfo.h:115-149, agree_opinfo_ (the diagnostic output is not modelled). *)
Definition agree_opinfo (l : list elem) (bits : N) (ot : option kind) : res bool :=
  match l with
  | [] => if negb (bits =? 0) then Ok false else agree_loop l bits ot
  | _ => agree_loop l bits ot
  end.
Definition assert_agree (l : list elem) (bits : N) (ot : option kind) : res unit :=
  let* b := agree_opinfo l bits ot in rassert b.

(** The data members (DecodedInstInfo.h:152-262).  Members that are sums or
    unions of others are the functions below. *)
Record dinfo := mkDI {
  d_mnemonic : string;
  d_uid : N;
  d_src_oi : opinfo;             (* source_opinfo, source_opinfo_list *)
  d_dst_oi : opinfo;             (* dest_opinfo, dest_opinfo_list *)
  d_sources : N;
  d_dests : N;
  d_srcT : kind -> N;            (* word_sources, long_sources, ... *)
  d_dstT : kind -> N;            (* word_dests, long_dests, ... *)
  d_addr : N;
  d_data : N;
  d_hint : bool;
  d_immT : imm_type;
  d_imm : N;
  d_soff : Z;
  d_dsize : N;
  d_ext : N }.                   (* ext_itype *)

(** DecodedInstInfo.h:279,283. *)
Definition d_n_sources (d : dinfo) : N := oi_n (d_src_oi d).
Definition d_n_dests (d : dinfo) : N := oi_n (d_dst_oi d).
(** DecodedInstInfo.h:285-360: <kind>_operands, <kind>_n_sources/_n_dests/_n_operands. *)
Definition d_operT (d : dinfo) (k : kind) : N := N.lor (d_srcT d k) (d_dstT d k).
Definition d_n_srcT (d : dinfo) (k : kind) : N := oi_ntypes (d_src_oi d) k.
Definition d_n_dstT (d : dinfo) (k : kind) : N := oi_ntypes (d_dst_oi d) k.
Definition d_n_operT (d : dinfo) (k : kind) : N := u32 (d_n_srcT d k + d_n_dstT d k).
(** DecodedInstInfo.h:307-316 (int members) and 338-347 (float members). *)
Definition d_int_sources (d : dinfo) : N := N.lor (d_srcT d KWord) (d_srcT d KLong).
Definition d_int_dests (d : dinfo) : N := N.lor (d_dstT d KWord) (d_dstT d KLong).
Definition d_float_sources (d : dinfo) : N := N.lor (d_srcT d KSingle) (d_srcT d KDouble).
Definition d_float_dests (d : dinfo) : N := N.lor (d_dstT d KSingle) (d_dstT d KDouble).
(** DecodedInstInfo.h:371, has_immediate (Extractor.h: getImmediateType() != NONE). *)
Definition d_has_imm (d : dinfo) : bool :=
  match d_immT d with ImmNone => false | _ => true end.

(** DecodedInstInfo.h:28-34, enum ExtractedInstTypes. *)
Definition EXT_CALL : N := 1.
Definition EXT_RETURN : N := 2.
Definition EXT_INDIRECT : N := 4.
(** DecodedInstInfo.h:466-484, JAL/JALR qualification. *)
Definition link_regs : N := N.lor (bit1 REGISTER_LINK) (bit1 REGISTER_ALT_LINK).
Definition ext_itype_of (m : meta) (sources dests : N) : N :=
  if is_inst_type m IT_JAL || is_inst_type m IT_JALR then
    let t := if negb (N.land dests link_regs =? 0) then EXT_CALL else 0 in
    if negb (N.land sources link_regs =? 0) then
      if N.land (N.land sources dests) link_regs =? 0 then N.lor t EXT_RETURN else t
    else if has_source_reg sources then N.lor t EXT_INDIRECT else t
  else 0.
(** DecodedInstInfo.h:487-502, isExtInstType / isExtInstTypeAll / isExtInstTypeAny. *)
Definition is_ext_type (d : dinfo) (t : N) : bool := N.land t (d_ext d) =? t.
Definition is_ext_type_any (d : dinfo) (t : N) : bool := negb (N.land t (d_ext d) =? 0).

(** Evaluating a typed-mask method for the six kinds in the constructor's order. *)
Definition six (f : kind -> res N) : res (kind -> N) :=
  let* w := f KWord in let* l := f KLong in let* s := f KSingle in
  let* d := f KDouble in let* q := f KQuad in let* v := f KVector in
  Ok (fun k => match k with KWord => w | KLong => l | KSingle => s
                          | KDouble => d | KQuad => q | KVector => v end).

(** DecodedInstInfo.h:440-455, the consistency assertions of one operand list. *)
Fixpoint assert_agree_kinds (l : list elem) (bits : kind -> N) (ks : list kind) : res unit :=
  match ks with
  | [] => Ok tt
  | k :: r => let* _ := assert_agree l (bits k) (Some k) in assert_agree_kinds l bits r
  end.
Definition assert_agree_all (l : list elem) (all : N) (bits : kind -> N) : res unit :=
  let* _ := assert_agree l all None in assert_agree_kinds l bits all_kinds.

(** DecodedInstInfo.h:264-485, the constructor.  (The typed members of a kind
    are initialised source/dest alternately; the methods are pure, so grouping
    them does not change the value, only which of two failures is met first.) *)
Definition decode_info (iname : string) (uid : N) (x : Ext) (m : meta) (ic : N) : res dinfo :=
  let* soi := x_srcI x ic m false in
  let* doi := x_dstI x ic m false in
  let* srcs := x_src x ic in
  let* dsts := x_dst x ic in
  let* sT := six (x_srcT x ic m) in
  let* dT := six (x_dstT x ic m) in
  let* ad := x_addr x ic in
  let* da := x_data x ic in
  let* h := x_hint x ic in
  let* i := x_imm x ic in
  let* so := x_soff x ic in
  let* _ := if ic =? 0 then Ok tt
            else let* _ := assert_agree_all (oi_elems soi) srcs sT in
                 assert_agree_all (oi_elems doi) dsts dT in
  Ok (mkDI iname uid soi doi srcs dsts sT dT ad da h (x_immT x) i so (mt_data m)
           (ext_itype_of m srcs dsts)).
