(** Model of pseudo-instructions: mavis/FormGeneric.hpp, mavis/ExtractorWrap.hpp,
    mavis/IFactoryPseudo.hpp, mavis/PseudoBuilder.hpp, the inherited mavis/BuilderBase.hpp, and
    makePseudoInst of mavis/Mavis.h. *)
From Coq Require Import NArith ZArith List Bool String.
From Verif Require Import M_Base M_Field M_Forms M_Meta M_OperandInfo M_Extract M_Decoded M_Registry M_Trie
  M_Builder M_DTable M_Direct.
Import ListNotations.
Local Open Scope N_scope.

(** ** Forms *)
(** mavis/Extractor.h:43-56, SpecialFieldMap. *)
Definition special_names : list (string * sfid) :=
  [("aq", SF_AQ); ("avl", SF_AVL); ("csr", SF_CSR); ("fm", SF_FM); ("nf", SF_NF); ("pred", SF_PRED);
   ("rl", SF_RL); ("rm", SF_RM); ("succ", SF_SUCC); ("vm", SF_VM); ("wd", SF_WD); ("hint", SF_HINT)]%string.
Definition sfid_idx (s : sfid) : N :=
  match s with
  | SF_AQ => 0 | SF_AVL => 1 | SF_CSR => 2 | SF_FM => 3 | SF_NF => 4 | SF_PRED => 5 | SF_RL => 6
  | SF_RM => 7 | SF_SUCC => 8 | SF_VM => 9 | SF_WD => 10 | SF_HINT => 11 | SF__N => 12
  end.
(** FormGeneric.hpp:39-43 and 161-163, the members; a position INVALID_LIST_POS is [None]. *)
Record gform := mkGF {
  gf_src : list (fid * option kind);
  gf_dst : list (fid * option kind);
  gf_spec : sfid -> option N }.
(** The clauses of an ISA record that only pseudo-instructions use. *)
Record pclauses := mkPC { pc_sources : list string; pc_dests : list string; pc_specials : list string }.
(** FormGeneric.hpp:95-124: the fields named by "sources" ("dests"), with their types. *)
Fixpoint form_fields (m : meta) (names : list string) : res (list (fid * option kind)) :=
  match names with
  | [] => Ok []
  | n :: r =>
      match get_fid n with
      | None => Throw EUnknownFieldID
      | Some f => let* l := form_fields m r in Ok ((f, mt_otype m f) :: l)
      end
  end.
(** FormGeneric.hpp:127-141: the position of each special field; a repeated name takes the
    later position. *)
Fixpoint form_specials (pos : N) (names : list string) (t : sfid -> option N) : res (sfid -> option N) :=
  match names with
  | [] => Ok t
  | n :: r =>
      match mfind special_names n with
      | None => Throw EUnknownSpecialFieldID
      | Some s => form_specials (pos + 1) r (fun s' => if sfid_idx s' =? sfid_idx s then Some pos else t s')
      end
  end.
(** FormGeneric.hpp:89-142, the constructor. *)
Definition make_gform (c : pclauses) (m : meta) : res gform :=
  let* s := form_fields m (pc_sources c) in
  let* d := form_fields m (pc_dests c) in
  let* sp := form_specials 0 (pc_specials c) (fun _ => None) in
  Ok (mkGF s d sp).
(** FormGeneric.hpp:187-204, fixupOIList_. *)
Fixpoint fixup_elems (es : list elem) (fl : list (fid * option kind)) : list elem :=
  match es, fl with
  | e :: es', (f, t) :: fl' =>
      (match e_fid e with
       | None => mkE (Some f) t (e_val e) (e_sdata e) (e_implied e)
       | Some _ => e
       end) :: fixup_elems es' fl'
  | _, _ => es
  end.
Definition fixup (o : opinfo) (fl : list (fid * option kind)) : res opinfo :=
  add_elems oi_empty (fixup_elems (oi_elems o) fl).

(** ** The wrapping extractor *)
(** ExtractorWrap.hpp:95-126: for opcode 0 the first result is kept and returned ever after.
    The wrap is made by IFactoryPseudo::getInfo, whose first call has the factory's meta-data
    [m0] and no suppression. *)
Definition wrapI (fl : list (fid * option kind)) (get : N -> meta -> bool -> res opinfo) (m0 : meta)
  (ic : N) (m : meta) (sup : bool) : res opinfo :=
  let* o := if ic =? 0 then get ic m0 false else get ic m sup in fixup o fl.
(** ExtractorWrap.hpp:65-93: the registers of the operands of one kind. *)
Definition wrapT (getI : N -> meta -> bool -> res opinfo) (ic : N) (m : meta) (k : kind) : res N :=
  let* o := getI ic m false in kind_mask k (oi_elems o).
(** ExtractorWrap.hpp:17-199, around the extractor [x], whose special fields by position are
    [at_]. *)
Definition wrap_ext (g : gform) (x : Ext) (at_ : N -> res N) (m0 : meta) : Ext :=
  let sI := wrapI (gf_src g) (x_srcI x) m0 in
  let dI := wrapI (gf_dst g) (x_dstI x) m0 in
  mkX (x_illop x) (x_hint x) (x_src x) (x_addr x) (x_data x) (x_dst x)
      (wrapT sI) (wrapT dI) sI dI
      (x_immT x) (x_imm x) (x_soff x)
      (fun s ic =>
         match s with
         | SF__N => UB
         | _ => match gf_spec g s with None => Throw EUnsupportedSpecialField | Some i => at_ i end
         end)
      (x_dasm x).

(** ** The builder *)
(** IFactoryPseudo.hpp:66-72, the members (dasm_, which the user may replace, is in M_PseudoDasm). *)
Record pfact := mkPF { pf_name : string; pf_meta : meta; pf_form : gform; pf_anno : option anno; pf_uid : N }.
(** BuilderBase.hpp:88-94 for factories of class IFactoryPseudo (see [builder]). *)
Record pbuilder := mkPB {
  pb_facts : list pfact;
  pb_reg : list (string * nat);
  pb_inst : instreg;
  pb_nu : N;
  pb_annos : list (string * anno);
  pb_metas : list (string * meta);
  pb_stash : dualreg nat }.
Definition pset_stash b v := mkPB (pb_facts b) (pb_reg b) (pb_inst b) (pb_nu b) (pb_annos b) (pb_metas b) v.
(** PseudoBuilder.hpp:36-40, the constructor: annotation overrides are not passed on. *)
Definition pbuilder_new (uids : list (string * N)) (annos : list (string * anno)) (nu : N) : res pbuilder :=
  let* (nu, ir) := ir_new uids nu in
  Ok (mkPB [] [] ir nu annos [] (dk_new INITIAL_SIZE DEFAULT_UP_SIZE)).
(** BuilderBase.hpp:62-70, findIFact(mnemonic). *)
Definition pfind (b : pbuilder) (mn : string) : option nat := mfind (pb_reg b) mn.
Definition pget (b : pbuilder) (i : nat) : res pfact :=
  match nth_error (pb_facts b) i with Some f => Ok f | None => UB end.
(** BuilderBase.hpp:72-85, findIFact(uid). *)
Definition pfind_uid (b : pbuilder) (uid : N) : res (pbuilder * option nat) :=
  if dk_contains_n (pb_stash b) uid then
    let* i := dk_lookup_n (pb_stash b) uid in Ok (b, Some i)
  else
    let* mn := ir_mnemonic (pb_inst b) uid in
    match pfind b mn with
    | None => Ok (b, None)
    | Some i => let* s := dk_add (pb_stash b) mn uid i in Ok (pset_stash b s, Some i)
    end.
(** PseudoBuilder.hpp:119-147, build_. *)
Definition pbuild (b : pbuilder) (mn : string) (m : meta) (g : gform) : res pbuilder :=
  match pfind b mn with
  | Some _ => Ok b
  | None =>
      let* (p, uid) := ir_register (pb_inst b) mn (pb_nu b) in
      let f := mkPF mn m g (mfind (pb_annos b) mn) uid in
      Ok (mkPB (pb_facts b ++ [f]) (madd (pb_reg b) mn (List.length (pb_facts b))) (snd p) (fst p)
            (pb_annos b) (pb_metas b) (pb_stash b))
  end.
(** One record: the clauses decoding reads and those of pseudo-instructions. *)
Definition prec : Type := irec * pclauses.
(** PseudoBuilder.hpp:66-77, the body of the loop.  Meta-data: not compressed, no tags
    (InstMetaData.h:267); as for any record, it is constructed before the duplicate check. *)
Definition ppseudo (b : pbuilder) (r : prec) : res pbuilder :=
  match r_pseudo (fst r) with
  | None => Ok b
  | Some mn =>
      let* m := make_meta (r_meta (fst r)) false [] in
      match mfind (pb_metas b) mn with
      | Some _ => Throw EBuildErrorDuplicateMnemonic
      | None =>
          let b := mkPB (pb_facts b) (pb_reg b) (pb_inst b) (pb_nu b) (pb_annos b)
                     (madd (pb_metas b) mn m) (pb_stash b) in
          let* g := make_gform (snd r) m in
          pbuild b mn m g
      end
  end.
(** PseudoBuilder.hpp:48-83, configure (reading files is not modelled): the records of all
    files in order; inclusions and exclusions do not apply. *)
Fixpoint pconfigure (recs : list prec) (b : pbuilder) : res pbuilder :=
  match recs with
  | [] => Ok b
  | r :: rest => let* b := ppseudo b r in pconfigure rest b
  end.
Definition make_pseudos (uids : list (string * N)) (annos : list (string * anno)) (nu : N)
  (recs : list prec) : res pbuilder :=
  let* b := pbuilder_new uids annos nu in pconfigure recs b.

(** ** Making instructions *)
(** IFactoryPseudo.hpp:40-50, getInfo. *)
Definition pinfo (f : pfact) (mn : string) (d : direct) : res info :=
  let x := wrap_ext (pf_form f) (direct_ext d) (direct_spec_at d) (pf_meta f) in
  let* di := decode_info mn (pf_uid f) x (pf_meta f) 0 in
  Ok (mkInfo 0 di x (pf_meta f) (pf_anno f)).
(** Mavis.h:158-184, makePseudoInst; the instruction is made from the information returned. *)
Definition make_pseudo (b : pbuilder) (d : direct) : pbuilder * res info :=
  let '(b, r) :=
    if dx_uid d =? INVALID_UID then (b, Ok (dx_mn d, pfind b (dx_mn d)))
    else match ir_mnemonic (pb_inst b) (dx_uid d) with
         | Ok mn =>
             match pfind_uid b (dx_uid d) with
             | Ok (b, o) => (b, Ok (mn, o))
             | Throw e => (b, Throw e)
             | AssertFail => (b, AssertFail)
             | UB => (b, UB)
             end
         | Throw e => (b, Throw e)
         | AssertFail => (b, AssertFail)
         | UB => (b, UB)
         end in
  match r with
  | Ok (_, None) => (b, Throw EUnknownPseudoMnemonic)
  | Ok (mn, Some i) => (b, let* f := pget b i in pinfo f mn d)
  | Throw e => (b, Throw e)
  | AssertFail => (b, AssertFail)
  | UB => (b, UB)
  end.
(** Mavis.h:217-220 and 227-230, lookupPseudoInstUniqueID and lookupPseudoInstMnemonic. *)
Definition pseudo_uid (b : pbuilder) (mn : string) : N := ir_uid (pb_inst b) mn.
Definition pseudo_mnemonic (b : pbuilder) (uid : N) : res string := ir_mnemonic (pb_inst b) uid.
