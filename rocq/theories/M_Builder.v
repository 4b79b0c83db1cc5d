(** Model of mavis/IFactoryBuilder.h, mavis/BuilderBase.hpp, mavis/InstMetaDataRegistry.hpp,
    mavis/Overlay.hpp, mavis/AnnotationRegistry.hpp and of the registration part of the leaf
    factory (mavis/IFactory.h, class IFactory). *)
From Coq Require Import NArith ZArith List Bool String.
From Verif Require Import M_Base M_Meta M_Extract M_Decoded M_Registry.
Import ListNotations.
Local Open Scope N_scope.

(** An annotation file record: a JSON object, attribute names with their values (the values
    are opaque text).  A user annotation object is the record it was allocated with followed
    by the records it was updated with: what the user's class can see of the files. *)
Definition arec := list (string * string).
Definition anno := list arec.

(** ** The record of an instruction, as far as decoding reads it *)
(** Overlay.hpp:42-60: the "base" and "match" clauses ("match" strings already converted by
    strtoull, so below 2^64). *)
Record jolay := mkJO { jo_base : option string; jo_match : option (list N) }.
(** impl/DTable.tcc:23-100 and 131-171: the clauses read from one JSON record.  [r_stencil] is 0
    when absent (line 30) and is otherwise the value of stoll(.., 16); [r_expand] is ""
    when absent (line 64). *)
Record irec := mkIRec {
  r_mn : option string;
  r_pseudo : option string;
  r_stencil : N;
  r_fixed : list string;
  r_ignore : list string;
  r_xform : option string;
  r_factory : option string;
  r_expand : string;
  r_form : option string;
  r_overlay : option jolay;
  r_alias : list N;
  r_tags : list string;
  r_meta : jmeta }.

(** ** Overlays *)
(** Overlay.hpp:170-180, the data members after buildOverlay (dasm_ is the default disassembler, see info_dasm). *)
Record overlay := mkOv {
  ov_mn : string;
  ov_base : string;
  ov_mask : N;
  ov_value : N;
  ov_nbits : N;
  ov_x : option xcls;
  ov_meta : meta;
  ov_uid : N;
  ov_anno : option anno }.
(** Overlay.hpp:38-65, the constructor: base mnemonic, mask, value. *)
Definition overlay_parse (o : jolay) : res (string * N * N) :=
  match jo_base o with
  | None => Throw EBuildErrorOverlayMissingBase
  | Some base =>
      match jo_match o with
      | None => Throw EBuildErrorOverlayMissingMatch
      | Some [m; v] => Ok (base, m, v)
      | Some _ => Throw EBuildErrorOverlayBadMatchSpec
      end
  end.
(** Overlay.hpp:140-143, isMatch. *)
Definition ov_match (ic : N) (o : overlay) : bool := N.land ic (ov_mask o) =? ov_value o.
(** IFactory.h:1298-1315, addOverlay: before the first overlay with fewer mask bits. *)
Fixpoint ov_insert (o : overlay) (l : list overlay) : list overlay :=
  match l with
  | [] => [o]
  | a :: r => if ov_nbits a <? ov_nbits o then o :: a :: r else a :: ov_insert o r
  end.
(** IFactory.h:1383-1391, findMatchingOverlay_. *)
Definition ov_find (l : list overlay) (ic : N) : option overlay := find (ov_match ic) l.

(** ** Leaf factories *)
(** IFactory.h:1330-1338, the data members; dasm_ is the default disassembler (info_dasm) and stash_ is in M_DTable.
    A null annotation pointer is [None]. *)
Record factory := mkFact {
  fc_name : string;
  fc_stencil : N;
  fc_meta : meta;
  fc_uids : list (string * N);
  fc_annos : list (string * option anno);
  fc_metas : list (string * meta);
  fc_olays : list overlay }.
(** IFactory.h:1131-1138, the constructor. *)
Definition fact_new (name : string) (st : N) (m : meta) : factory := mkFact name st m [] [] [] [].
(** IFactory.h:1248-1257, addInstructionVariantAnnotation. *)
Definition fact_add_anno (mn : string) (a : option anno) (f : factory) : factory :=
  match mfind (fc_annos f) mn with
  | Some _ => f
  | None => mkFact (fc_name f) (fc_stencil f) (fc_meta f) (fc_uids f) (madd (fc_annos f) mn a)
              (fc_metas f) (fc_olays f)
  end.
(** IFactory.h:1259-1273, addInstructionVariantUID. *)
Definition fact_add_uid (mn : string) (u : N) (f : factory) : factory :=
  match mfind (fc_uids f) mn with
  | Some _ => f
  | None => mkFact (fc_name f) (fc_stencil f) (fc_meta f) (madd (fc_uids f) mn u) (fc_annos f)
              (fc_metas f) (fc_olays f)
  end.
(** IFactory.h:1282-1296, mergeInstructionVariantMetaData. *)
Definition fact_merge_meta (mn : string) (m : meta) (f : factory) : factory :=
  match mfind (fc_metas f) mn with
  | Some _ => f
  | None => mkFact (fc_name f) (fc_stencil f) (fc_meta f) (fc_uids f) (fc_annos f)
              (madd (fc_metas f) mn (meta_merge (fc_meta f) m)) (fc_olays f)
  end.
Definition fact_add_overlay (o : overlay) (f : factory) : factory :=
  mkFact (fc_name f) (fc_stencil f) (fc_meta f) (fc_uids f) (fc_annos f) (fc_metas f)
    (ov_insert o (fc_olays f)).
(** IFactory.h:1395-1400, getInstructionUID_ (map::at, then the assertion). *)
Definition fact_uid (f : factory) (mn : string) : res N :=
  match mfind (fc_uids f) mn with
  | None => Throw EStdOutOfRange
  | Some u => let* _ := rassert (negb (u =? INVALID_UID)) in Ok u
  end.
(** IFactory.h:1411-1418, getMeta_. *)
Definition fact_meta (f : factory) (mn : string) : meta :=
  match mfind (fc_metas f) mn with None => fc_meta f | Some m => m end.
(** IFactory.h:1350-1368, findAnnotation_. *)
Definition fact_anno (f : factory) (mn : string) : res (option anno) :=
  let* _ := rassert (match fc_annos f with [] => false | _ => true end) in
  match mfind (fc_annos f) mn with
  | Some a => Ok a
  | None => match mfind (fc_annos f) (fc_name f) with Some a => Ok a | None => Ok None end
  end.

(** ** The builder *)
(** BuilderBase.hpp:88-94 (registry_, inst_registry_, anno_registry_, meta_registry_,
    uid_stash_).  Factories are held by shared pointers: here a store [b_facts], a pointer
    being an index.  [b_nu] is the process-wide UID counter as this builder sees it
    (InstructionRegistry.hpp:45). *)
Record builder := mkB {
  b_facts : list factory;
  b_reg : list (string * nat);
  b_inst : instreg;
  b_nu : N;
  b_annos : list (string * anno);
  b_metas : list (string * meta);
  b_stash : dualreg nat }.
Definition set_facts b v := mkB v (b_reg b) (b_inst b) (b_nu b) (b_annos b) (b_metas b) (b_stash b).
Definition set_reg b v := mkB (b_facts b) v (b_inst b) (b_nu b) (b_annos b) (b_metas b) (b_stash b).
Definition set_inst b nu v := mkB (b_facts b) (b_reg b) v nu (b_annos b) (b_metas b) (b_stash b).
Definition set_metas b v := mkB (b_facts b) (b_reg b) (b_inst b) (b_nu b) (b_annos b) v (b_stash b).
Definition set_stash b v := mkB (b_facts b) (b_reg b) (b_inst b) (b_nu b) (b_annos b) (b_metas b) v.

(** BuilderBase.hpp:62-70, findIFact(mnemonic). *)
Definition find_ifact (b : builder) (mn : string) : option nat := mfind (b_reg b) mn.
(** Dereferencing a factory pointer. *)
Definition get_fact (b : builder) (i : nat) : res factory :=
  match nth_error (b_facts b) i with Some f => Ok f | None => UB end.
Definition upd_fact (b : builder) (i : nat) (g : factory -> factory) : res builder :=
  let* f := get_fact b i in Ok (set_facts b (set_nth (b_facts b) i (g f))).
(** A new factory object. *)
Definition new_fact (b : builder) (f : factory) : builder * nat :=
  (set_facts b (b_facts b ++ [f]), List.length (b_facts b)).
(** BuilderBase.hpp:30-33, registerInst. *)
Definition register_inst (b : builder) (mn : string) : res (builder * N) :=
  let* (p, uid) := ir_register (b_inst b) mn (b_nu b) in
  Ok (set_inst b (fst p) (snd p), uid).
(** AnnotationRegistry.hpp:113-125 and 143-151, findAnnotation (never throws). *)
Definition find_anno (b : builder) (mn : string) : option anno := mfind (b_annos b) mn.

(** IFactoryBuilder.h:42-66: one pre-registered custom factory (IFactoryCustom.h:13-21 and
    46-54; the meta-data object's types are set after it is stored in the factory). *)
Definition add_custom (b : builder) (mn : string) (types : list N) : res builder :=
  let (b, i) := new_fact b (fact_add_anno mn (find_anno b mn)
                              (fact_new mn 0 (set_inst_type types meta_rv64i))) in
  let b := set_reg b (madd (b_reg b) mn i) in
  let* (b, uid) := register_inst b mn in
  upd_fact b i (fact_add_uid mn uid).
(** IFactoryBuilder.h:34-67, the constructor, given the annotation registry's content. *)
Definition builder_new (uids : list (string * N)) (annos : list (string * anno)) (nu : N) : res builder :=
  let* (nu, ir) := ir_new uids nu in
  let b := mkB [] [] ir nu annos [] (dk_new INITIAL_SIZE DEFAULT_UP_SIZE) in
  let* b := add_custom b "nop" [IT_INT; IT_ARITH] in
  add_custom b "cmov" [IT_CONDITIONAL; IT_MOVE].

(** IFactoryBuilder.h:90-164, build.  Returns the factory. *)
Definition bld (b : builder) (mn fname xpand : string) (st : N) (m : meta) : res (builder * nat) :=
  if String.eqb xpand "" then
    let panno := match find_anno b fname with Some a => Some a | None => find_anno b mn end in
    let (b, i) := match find_ifact b fname with
                  | Some i => (b, i)
                  | None => let (b, i) := new_fact b (fact_new fname st m) in
                            (set_reg b (madd (b_reg b) fname i), i)
                  end in
    let b := if String.eqb mn fname then b else set_reg b (madd (b_reg b) mn i) in
    let* b := upd_fact b i (fact_add_anno mn panno) in
    let* (b, uid) := register_inst b mn in
    let* b := upd_fact b i (fact_add_uid mn uid) in
    Ok (b, i)
  else
    match find_ifact b xpand with
    | None => Throw EBuildErrorUnknownExpansion
    | Some i =>
        let uid := ir_uid (b_inst b) xpand in
        let* ir := ir_alias (b_inst b) mn uid (b_nu b) in
        let b := set_inst b (b_nu b) ir in
        let* b := upd_fact b i (fact_add_uid mn uid) in
        let* b := upd_fact b i (fact_merge_meta mn m) in
        Ok (b, i)
    end.

(** InstMetaDataRegistry.hpp:18-28, makeInstMetaData: the object is constructed (and may
    throw) before the registry is checked. *)
Definition make_inst_meta (b : builder) (mn : string) (j : jmeta) (compressed : bool) (tags : list string)
  : res (builder * meta) :=
  let* m := make_meta j compressed tags in
  match mfind (b_metas b) mn with
  | Some _ => Throw EBuildErrorDuplicateMnemonic
  | None => Ok (set_metas b (madd (b_metas b) mn m), m)
  end.

(** IFactoryBuilder.h:170-194, buildOverlay, with impl/DTable.tcc:68-80, the overlay branch of
    parseInstInfo_. *)
Definition build_overlay (b : builder) (mn : string) (o : jolay) (r : irec) (x : option xcls) : res builder :=
  let* (p, v) := overlay_parse o in
  let (base, mask) := p in
  match mfind (b_metas b) base with
  | None => Throw EBuildErrorOverlayBaseNotFound
  | Some bm =>
      let* m := meta_overrides (r_meta r) (r_tags r) bm in
      let* (b, uid) := register_inst b mn in
      let panno := match find_anno b mn with Some a => Some a | None => find_anno b base end in
      if (match panno with None => true | Some _ => false end) &&
         (match b_annos b with [] => false | _ => true end)
      then Throw EBuildErrorOverlayMissingAnnotation
      else
        match find_ifact b base with
        | None => Throw EBuildErrorOverlayBaseNotFound
        | Some i => upd_fact b i (fact_add_overlay (mkOv mn base mask v (count1bits mask) x m uid panno))
        end
  end.

(** BuilderBase.hpp:72-85, findIFact(uid). *)
Definition find_ifact_uid (b : builder) (uid : N) : res (builder * option nat) :=
  if dk_contains_n (b_stash b) uid then
    let* i := dk_lookup_n (b_stash b) uid in Ok (b, Some i)
  else
    let* mn := ir_mnemonic (b_inst b) uid in
    match find_ifact b mn with
    | None => Ok (b, None)
    | Some i => let* s := dk_add (b_stash b) mn uid i in Ok (set_stash b s, Some i)
    end.

(** ** Annotations *)
(** nlohmann::json::update on objects: the attributes of [v] replace or extend those of [o]. *)
Definition jupdate (o v : arec) : arec :=
  (filter (fun p => negb (existsb (fun q => String.eqb (fst q) (fst p)) v)) o ++ v)%list.
(** AnnotationRegistry.hpp:63-82: the overrides grouped by mnemonic; a later override of the
    same attribute replaces an earlier one.  An override is here a triple (mnemonic, attribute,
    value); M_Override models how it is read from text. *)
Definition overrides_of (ovs : list (string * string * string)) (mn : string) : arec :=
  fold_left (fun acc (t : string * string * string) =>
               let '(m, a, v) := t in
               if String.eqb m mn then jupdate acc [(a, v)] else acc) ovs [].
(** AnnotationRegistry.hpp:84-106, one file.  A record is (mnemonic, attributes);
    [inst.update(..)] is applied when the mnemonic has overrides (updating with an empty
    object changes nothing). *)
Fixpoint anno_file (ovs : list (string * string * string)) (processed : list string)
  (recs : list (string * arec)) (reg : list (string * anno)) : res (list (string * anno)) :=
  match recs with
  | [] => Ok reg
  | (mn, a) :: r =>
      let a := jupdate a (overrides_of ovs mn) in
      match mfind reg mn with
      | None => anno_file ovs (mn :: processed) r (madd reg mn [a])
      | Some old =>
          if existsb (String.eqb mn) processed then Throw EAnnotationNotUniqueInFile
          else anno_file ovs (mn :: processed) r (madd reg mn (old ++ [a])%list)
      end
  end.
(** AnnotationRegistry.hpp:34-111, the constructor (for reading files see M_Override). *)
Fixpoint anno_files (ovs : list (string * string * string)) (files : list (list (string * arec)))
  (reg : list (string * anno)) : res (list (string * anno)) :=
  match files with
  | [] => Ok reg
  | f :: r => let* reg := anno_file ovs [] f reg in anno_files ovs r reg
  end.
