(** Specification of an instruction table: the list of encodings, instruction by
    instruction, that a list of records describes.  Nothing here mentions the decode tree, the
    builder or the caches. *)
From Coq Require Import NArith List Bool String.
From Verif Require Import M_Base M_Field M_Forms M_Meta M_Extract M_Decoded M_Builder M_DTable S_Bits S_Trie S_Agree.
Import ListNotations.
Local Open Scope N_scope.

(** C18: a record with these tags is wanted. *)
Definition wanted (incl excl : list (string -> bool)) (tags : list string) : Prop :=
  (incl = [] \/ exists t p, In t tags /\ In p incl /\ p t = true) /\
  ~ (exists t p, In t tags /\ In p excl /\ p t = true).
Definition hits (tags : list string) (ps : list (string -> bool)) : bool :=
  existsb (fun t => existsb (fun p => p t) ps) tags.
Definition wantedb (incl excl : list (string -> bool)) (tags : list string) : bool :=
  match incl with [] => true | _ => hits tags incl end && negb (hits tags excl).
Definition kept (incl excl : list (string -> bool)) (recs : list irec) : list irec :=
  filter (fun r => wantedb incl excl (r_tags r)) recs.

(** The encodings of one record: its stencil and its alias stencils.  Records of overlays and
    of pseudo-instructions have none. *)
Definition rec_encs (r : irec) : list enc :=
  match r_mn r, r_overlay r, r_form r with
  | Some mn, None, Some fn =>
      match get_form fn with
      | Ok fm => map (fun st => mkEnc mn fm (r_ignore r) st (r_fixed r)) (r_stencil r :: r_alias r)
      | _ => []
      end
  | _, _, _ => []
  end.
Definition encodings (recs : list irec) : list enc := flat_map rec_encs recs.

(** The extractor class a record asks for: its "xform", else the one of its form. *)
Definition rec_class (r : irec) : res xcls :=
  match r_xform r, r_form r with
  | Some n, _ => get_extractor n
  | None, Some fn => match get_form fn with Ok fm => get_extractor (fm_name fm) | _ => Throw EBuildErrorUnknownForm end
  | None, None => AssertFail
  end.

(** The meta-data a record describes: its own clauses and its fixed fields. *)
Definition own_meta (r : irec) : res meta :=
  let* m := make_meta (r_meta r) (negb (String.eqb (r_expand r) "")) (r_tags r) in
  Ok (match r_fixed r with [] => m | fl => add_fixed_fields fl m end).
(** Record [r] is the instruction [mn] (not an overlay), and the factory it asks for. *)
Definition is_inst (r : irec) (mn : string) : Prop := r_mn r = Some mn /\ r_overlay r = None.
Definition fname_of (r : irec) (mn : string) : string := match r_factory r with None => mn | Some f => f end.
(** No other instruction uses the factory of [mn], and [mn] uses no other one's.  ("nop" and
    "cmov" exist before any record is read.) *)
Definition custom (mn : string) : Prop := mn = "nop"%string \/ mn = "cmov"%string.
Definition sole (recs : list irec) (mn : string) : Prop :=
  ~ custom mn /\
  (forall r, In r recs -> r_factory r = Some mn -> r_mn r = Some mn) /\
  (forall r, In r recs -> r_mn r = Some mn -> r_factory r = None \/ r_factory r = Some mn).

(** The meta-data of the two instructions that exist before any record is read. *)
Definition built_in (mn : string) (m : meta) : Prop :=
  (mn = "nop"%string /\ m = set_inst_type [IT_INT; IT_ARITH] meta_rv64i) \/
  (mn = "cmov"%string /\ m = set_inst_type [IT_CONDITIONAL; IT_MOVE] meta_rv64i).
(** [mn] is one of them and no instruction of the table has its name. *)
Definition untouched (recs : list irec) (mn : string) : Prop :=
  custom mn /\ forall r, In r recs -> r_mn r = Some mn -> r_overlay r <> None /\ r_factory r = None.

(** No instruction called [F] uses another factory. *)
Definition alone (P : list irec) (F : string) : Prop :=
  ~ custom F /\ forall r, In r P -> r_mn r = Some F -> r_factory r = None \/ r_factory r = Some F.
(** The instructions that share the factory of [r] describe the same meta-data. *)
Definition uniform (recs : list irec) (r : irec) (mn : string) : Prop :=
  alone recs (fname_of r mn) /\
  forall r' mn', In r' recs -> is_inst r' mn' -> r_expand r' = ""%string -> fname_of r' mn' = fname_of r mn ->
    own_meta r' = own_meta r.

(** The encoding that decodes [ic]: nothing more specific in the table is matched. *)
Definition selected (E : list enc) (e : enc) (ic : N) : Prop :=
  In e E /\ matches e ic /\ forall e', In e' E -> matches e' ic -> ~ more_specific e' e.
(** Record [r] is an instruction and [e] one of its encodings. *)
Definition listed (recs : list irec) (r : irec) (e : enc) : Prop := In r recs /\ In e (rec_encs r).
(** Record [r] describes the overlay [mn] of [base] for the opcodes with these bits. *)
Definition overlays (r : irec) (mn base : string) (mask value : N) : Prop :=
  r_mn r = Some mn /\ exists jo, r_overlay r = Some jo /\ jo_base jo = Some base /\ jo_match jo = Some [mask; value].
Definition overlay_hit (recs : list irec) (mn base : string) (mask : N) (ic : N) : Prop :=
  exists r, In r recs /\ overlays r mn base mask (N.land ic mask).
(** The opcode bits of the fixed fields of an encoding, and the extractor that record [r] asks
    for: plain, or a special-case clone told the fixed fields. *)
Definition fixed_bits (e : enc) (mask : N) : Prop :=
  forall i, N.testbit mask i = true <->
    exists n f, In n (en_fixed e) /\ named (en_form e) n f /\ f_rpos f <= i < f_rpos f + f_len f.
Definition extractor_of (r : irec) (e : enc) (x : Ext) : Prop :=
  exists c, rec_class r = Ok c /\
    ((en_fixed e = [] /\ x = ext c 0) \/
     (en_fixed e <> [] /\ exists mask, fixed_bits e mask /\ x = ext (clone_cls c) mask)).
(** The call [x] reports [ic] as a reserved encoding. *)
Definition reserved (x : Ext) (ic : N) : Prop := x_illop x ic = Ok true.

(** ** What a successful decode reports *)
(** The mnemonic: the instruction's, or that of one of its overlays that hits. *)
Definition reported (recs : list irec) (v : info) (e : enc) (ic : N) : Prop :=
  i_icode v = ic /\
  (d_mnemonic (i_di v) = en_mn e \/
   exists mask, overlay_hit recs (d_mnemonic (i_di v)) (en_mn e) mask ic).
(** The name a decoded instruction is identified by: that of its expansion if it has one. *)
Definition uid_name (r : irec) (mn : string) : string := if String.eqb (r_expand r) "" then mn else r_expand r.
(** The meta-data of the instruction that a compressed instruction expands to. *)
Definition expansion_meta (recs : list irec) (xp : string) (m : meta) : Prop :=
  (exists r, In r recs /\ is_inst r xp /\ own_meta r = Ok m) \/ (untouched recs xp /\ built_in xp m).
(** The meta-data: the record's own; for a compressed instruction the expansion's with the
    record's own merged in. *)
Definition inst_meta (recs : list irec) (r : irec) (m : meta) : Prop :=
  (r_expand r = ""%string /\ own_meta r = Ok m) \/
  (r_expand r <> ""%string /\ exists m0 m1, expansion_meta recs (r_expand r) m0 /\
     own_meta r = Ok m1 /\ m = meta_merge m0 m1).
(** Everything an overlay record leaves unsaid it takes from its base. *)
Definition overlay_meta (r ro : irec) (m : meta) : Prop :=
  exists m0, own_meta r = Ok m0 /\ meta_overrides (r_meta ro) (r_tags ro) m0 = Ok m.
Definition overlay_extractor (ro : irec) (x x' : Ext) : Prop :=
  match r_xform ro with None => x' = x | Some n => exists c, get_extractor n = Ok c /\ x' = ext c 0 end.
(** The decoded information is what extractor [x] reads from [ic] under the meta-data. *)
Definition read_by (x : Ext) (ic : N) (v : info) : Prop :=
  decode_info (d_mnemonic (i_di v)) (d_uid (i_di v)) x (i_meta v) ic = Ok (i_di v).
Definition describes_base (recs : list irec) (r : irec) (e : enc) (ic : N) (v : info) : Prop :=
  d_mnemonic (i_di v) = en_mn e /\ inst_meta recs r (i_meta v) /\
  exists x, extractor_of r e x /\ read_by x ic v.
Definition describes_overlay (r : irec) (e : enc) (ro : irec) (mask : N) (ic : N) (v : info) : Prop :=
  overlays ro (d_mnemonic (i_di v)) (en_mn e) mask (N.land ic mask) /\
  overlay_meta r ro (i_meta v) /\
  exists x x', extractor_of r e x /\ overlay_extractor ro x x' /\ read_by x' ic v.

(** ** How an opcode is read *)
(** By which name, under which meta-data and by which extractor. *)
Record reading := mkRd { rd_mn : string; rd_meta : meta; rd_x : Ext }.
Definition reads_base (recs : list irec) (r : irec) (e : enc) (y : reading) : Prop :=
  rd_mn y = en_mn e /\ inst_meta recs r (rd_meta y) /\ extractor_of r e (rd_x y).
Definition reads_overlay (r : irec) (e : enc) (ro : irec) (mask : N) (ic : N) (y : reading) : Prop :=
  overlays ro (rd_mn y) (en_mn e) mask (N.land ic mask) /\ overlay_meta r ro (rd_meta y) /\
  exists x, extractor_of r e x /\ overlay_extractor ro x (rd_x y).
(** The selected encoding [e] of record [r] is read as itself if none of its overlays hits,
    else as the overlay with the most mask bits. *)
Definition reads (recs : list irec) (r : irec) (e : enc) (ic : N) (y : reading) : Prop :=
  (reads_base recs r e y /\ forall mn mask, ~ overlay_hit recs mn (en_mn e) mask ic) \/
  (exists ro mask, In ro recs /\ reads_overlay r e ro mask ic y /\
     forall mn mask', overlay_hit recs mn (en_mn e) mask' ic -> popcount mask' <= popcount mask).
(** What a decode that reads [ic] in the way [y] and reports the id [uid] answers. *)
Definition answers (y : reading) (uid : N) (ic : N) (r : res info) : Prop :=
  match decode_info (rd_mn y) uid (rd_x y) (rd_meta y) ic with
  | Ok d => exists a, r = Ok (mkInfo ic d (rd_x y) (rd_meta y) a)
  | Throw e => r = Throw e
  | AssertFail => r = AssertFail
  | UB => r = UB
  end.

(** [a] is the right answer for opcode [ic], [uid] telling the id of a mnemonic. *)
Definition decodes (recs : list irec) (uid : string -> N) (ic : N) (a : res info) : Prop :=
  ((forall e, In e (encodings recs) -> ~ matches e ic) /\ a = Throw EUnknownOpcode) \/
  exists r e x, listed recs r e /\ selected (encodings recs) e ic /\ extractor_of r e x /\
    ((reserved x ic /\ a = Throw EIllegalOpcode) \/
     (~ reserved x ic /\ exists y u, reads recs r e ic y /\ answers y u ic a /\ u <> 0 /\
        (rd_mn y = en_mn e -> u = uid (uid_name r (en_mn e))) /\
        (rd_mn y <> en_mn e -> u = uid (rd_mn y)))).
(** Opcode [ic] is read with typings under which its operand lists and masks agree. *)
Definition readable (recs : list irec) (ic : N) : Prop :=
  forall r e y, listed recs r e -> selected (encodings recs) e ic -> reads recs r e ic y ->
    exists c ffm, rd_x y = ext c ffm /\ agree_cond c ffm (rd_meta y) ic = true.

(** ** Tables without anything left to chance *)
Record well_formed (recs : list irec) : Prop := mkWF {
  (* every encoding can be told from those before it; no two match a common opcode and are
     equally specific *)
  wf_cells : separated (encodings recs);
  wf_ties : no_ties (encodings recs);
  (* instructions share a factory only if they describe the same meta-data; none that has
     overlays, or is the expansion of another, shares its factory *)
  wf_meta : forall r mn, In r recs -> is_inst r mn -> r_expand r = ""%string -> uniform recs r mn;
  wf_expand : forall r mn, In r recs -> is_inst r mn -> r_expand r <> ""%string ->
    ~ custom mn /\ (sole recs (r_expand r) \/ untouched recs (r_expand r));
  wf_base : forall r mn base mask value, In r recs -> overlays r mn base mask value -> sole recs base /\ mask < 2 ^ 64;
  (* two overlays of one base that can both hit an opcode differ in the number of mask bits *)
  wf_overlays : forall r r' mn mn' base mask mask' ic, In r recs -> In r' recs ->
    overlays r mn base mask (N.land ic mask) -> overlays r' mn' base mask' (N.land ic mask') ->
    r = r' \/ popcount mask <> popcount mask' }.

(** A decoded instruction but for its UID. *)
Definition but_uid (d : dinfo) : dinfo :=
  mkDI (d_mnemonic d) 0 (d_src_oi d) (d_dst_oi d) (d_sources d) (d_dests d) (d_srcT d) (d_dstT d) (d_addr d) (d_data d)
    (d_hint d) (d_immT d) (d_imm d) (d_soff d) (d_dsize d) (d_ext d).
(** Two answers that differ at most in the UID and the annotation. *)
Definition same_answer (r r' : res info) : Prop :=
  match r, r' with
  | Ok v, Ok v' => i_icode v = i_icode v' /\ but_uid (i_di v) = but_uid (i_di v') /\ i_meta v = i_meta v' /\ i_x v = i_x v'
  | Throw e, Throw e' => e = e'
  | AssertFail, AssertFail | UB, UB => True
  | _, _ => False
  end.
