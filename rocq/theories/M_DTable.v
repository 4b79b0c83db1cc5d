(** Model of mavis/DTable.h and impl/DTable.tcc: configuration and the decode calls, with the
    two top-level caches, the per-factory stash and the instruction objects. *)
From Coq Require Import NArith ZArith List Bool String.
From Verif Require Import M_Base M_Field M_Forms M_Meta M_OperandInfo M_Extract M_Decoded M_Cache M_Registry
  M_Trie M_Builder.
Import ListNotations.
Local Open Scope N_scope.

(** ** Configuration *)

(** impl/DTable.tcc:182-249, buildLeaf_; [cur] is currNode, [shared] the shared factory.
    [meta] is a shared object also held by the meta-data registry, so addFixedFields is
    visible there.  The flag is the BuildErrorInstructionAlias of M_Trie.sp_place. *)
Definition build_leaf (b : builder) (fm : form) (mn : string) (st : N) (fl : list string)
  (fname xpand : string) (x : option xcls) (m : meta) (shared : option nat) (cur : node)
  : res (node * (builder * nat * bool)) :=
  let* c := match x with Some c => Ok c | None => get_extractor (fm_name fm) end in
  match cur with
  | Dense _ _ _ => Throw EBuildErrorOpcodeConflict
  | Special tab d =>
      let* tab := match fl with [] => Ok tab | _ => add_special fm mn st fl tab end in
      let m := match fl with [] => m | _ => add_fixed_fields fl m end in
      let b := match fl with [] => b | _ => set_metas b (madd (b_metas b) mn m) end in
      let* (b, i) := match shared with
                     | None => bld b mn fname xpand st m
                     | Some i => Ok (b, i)
                     end in
      let* (p, alias) := sp_place mn st (mkPay i c 0) tab d in
      Ok (Special (fst p) (snd p), (b, i, alias))
  end.

(** impl/DTable.tcc:88-95, the loop over the "alias" stencils; it is left when a
    BuildErrorInstructionAlias is thrown (line 96). *)
Fixpoint build_aliases (fm : form) (mn : string) (fl ign : list string) (fname xpand : string)
  (x : option xcls) (m : meta) (i : nat) (sts : list N) (s : builder * tree) : res (builder * tree) :=
  match sts with
  | [] => Ok s
  | st :: r =>
      let* (t, a) := build_tree fm ign st
                       (build_leaf (fst s) fm mn st fl fname xpand x m (Some i)) (snd s) in
      let '(b, _, alias) := a in
      if (alias : bool) then Ok (b, t)
      else build_aliases fm mn fl ign fname xpand x m i r (b, t)
  end.

(** impl/DTable.tcc:22-100, parseInstInfo_. *)
Definition parse_inst (s : builder * tree) (r : irec) (mn : string) : res (builder * tree) :=
  let* x := match r_xform r with
            | None => Ok None
            | Some n => let* c := get_extractor n in Ok (Some c)
            end in
  let fname := match r_factory r with None => mn | Some f => f end in
  match r_overlay r with
  | Some o => let* b := build_overlay (fst s) mn o r x in Ok (b, snd s)
  | None =>
      match r_form r with
      | None => AssertFail                 (* nlohmann: const operator[] with an absent key *)
      | Some fn =>
          let* fm := get_form fn in
          let* (b, m) := make_inst_meta (fst s) mn (r_meta r) (negb (String.eqb (r_expand r) "")) (r_tags r) in
          let* (t, a) := build_tree fm (r_ignore r) (r_stencil r)
                           (build_leaf b fm mn (r_stencil r) (r_fixed r) fname (r_expand r) x m None) (snd s) in
          let '(b, i, alias) := a in
          if (alias : bool) then Ok (b, t)
          else build_aliases fm mn (r_fixed r) (r_ignore r) fname (r_expand r) x m i (r_alias r) (b, t)
      end
  end.

(** mavis/Pattern.hpp:21-24: a pattern is used only through match(), a predicate on strings
    (std::regex itself is not modelled). *)
Definition pattern := string -> bool.
(** mavis/MatchSet.hpp:76-82, matchAnyAny, with Tag::match (mavis/Tag.hpp:21-24). *)
Definition match_any_any (tags : list string) (ps : list pattern) : bool :=
  existsb (fun t => existsb (fun p => p t) ps) tags.
Definition is_nil {A} (l : list A) : bool := match l with [] => true | _ => false end.
(** impl/DTable.tcc:139-153: is a record with these tags handed to parseInstInfo_? *)
Definition tag_filter (incl excl : list pattern) (tags : list string) : bool :=
  if (is_nil incl && is_nil excl) || (is_nil incl && is_nil tags) then true
  else if negb (is_nil tags) then
    (is_nil incl || match_any_any tags incl) && negb (negb (is_nil excl) && match_any_any tags excl)
  else false.
(** impl/DTable.tcc:108-171, configure, over the records of all files in order. *)
Fixpoint configure (incl excl : list pattern) (recs : list irec) (s : builder * tree) : res (builder * tree) :=
  match recs with
  | [] => Ok s
  | r :: rest =>
      match r_mn r with
      | Some mn =>
          if tag_filter incl excl (r_tags r)
          then let* s := parse_inst s r mn in configure incl excl rest s
          else configure incl excl rest s
      | None => match r_pseudo r with
                | Some _ => configure incl excl rest s
                | None => Throw EBuildErrorMissingMnemonic
                end
      end
  end.

(** mavis/ContextRegistry.hpp:91-93: a builder, a DTable on it (the tree is empty,
    mavis/DTable.h:159-200) and configure.  [nu] is the process-wide UID counter. *)
Definition make_decoder (uids : list (string * N)) (annos : list (string * anno)) (nu : N)
  (incl excl : list pattern) (recs : list irec) : res (builder * tree) :=
  let* b := builder_new uids annos nu in configure incl excl recs (b, tree_new).

(** ** Decoding *)

(** mavis/IFactory.h:29-39 (IFactoryInfo) and mavis/OpcodeInfo.h:27-30. *)
Record info := mkInfo {
  i_icode : N;
  i_di : dinfo;
  i_x : Ext;
  i_meta : meta;
  i_anno : option anno }.

(** mavis/OpcodeInfo.h:47-51, OpcodeInfo::dasmString, with the default disassembler
    (mavis/Disassembler.hpp:19-23): the extractor's text. *)
Definition info_dasm (v : info) : res string :=
  x_dasm (i_x v) (d_mnemonic (i_di v)) (i_icode v) (i_meta v).
(** mavis/OpcodeInfo.h:373-382, OpcodeInfo::getSpecialField.  The exception is rethrown with the
    mnemonic; its payload is not modelled. *)
Definition info_special (v : info) (s : sfid) : res N := x_spec (i_x v) s (i_icode v).

(** mavis/IFactory.h:1176-1217, IFactory::getInfo on a stash miss. *)
Definition leaf_info (f : factory) (mn : string) (ic : N) (x : Ext) : res info :=
  let m := fact_meta f mn in
  let* uid := fact_uid f mn in
  let* a := fact_anno f mn in
  let '(mn', x', m', uid', a') :=
    match ov_find (fc_olays f) ic with
    | Some o =>
        if String.eqb (ov_base o) mn
        then (ov_mn o, match ov_x o with Some c => ext c 0 | None => x end, ov_meta o, ov_uid o, ov_anno o)
        else (mn, x, m, uid, a)
    | None => (mn, x, m, uid, a)
    end in
  let* di := decode_info mn' uid' x' m' ic in
  Ok (mkInfo ic di x' m' a').
(** mavis/IFactory.h:289-327: the node selected by the tree, the check for reserved
    encodings, then the leaf on a stash miss. *)
Definition pure_info (b : builder) (t : tree) (ic : N) : res info :=
  let* (mn, p) := tree_sel t ic in
  let x := ext (pay_cls p) (pay_ffm p) in
  let* ill := x_illop x ic in
  if ill then Throw EIllegalOpcode
  else let* f := get_fact b (pay_fact p) in leaf_info f mn ic x.

(** mavis/IFactory.h:1231-1246, getInfoBypassCache. *)
Definition bypass_info (f : factory) (mn : string) (x : Ext) : res info :=
  let* uid := fact_uid f mn in
  let* di := decode_info mn uid x (fc_meta f) 0 in
  let* a := fact_anno f mn in
  Ok (mkInfo 0 di x (fc_meta f) a).

Section DTable.
(** [A]: the user's constructor arguments; [U]: state the user keeps in an instruction. *)
Context {A U : Type} (u0 : U).

(** An instruction object of the user's class: made from the decode information and the
    arguments, copied as a whole by its copy constructor. *)
Record obj := mkObj { ob_info : info; ob_args : A; ob_user : U }.
Definition ob_mnemonic (o : obj) : string := d_mnemonic (i_di (ob_info o)).

(** mavis/DTable.h:359-368: builder_, root_, icache_, ocache_; the stash of each factory;
    the heap of instruction objects ([dt_next] objects allocated so far) and the objects
    handed to the caller ([dt_out]). *)
Record dt := mkDT {
  dt_b : builder;
  dt_tree : tree;
  dt_oc : cache info;
  dt_ic : cache nat;
  dt_stash : nat -> stash info;
  dt_heap : nat -> option obj;
  dt_next : nat;
  dt_out : list nat }.
Definition dt_new (s : builder * tree) : dt :=
  mkDT (fst s) (snd s) cache_new cache_new (fun _ => stash_new) (fun _ => None) 0 [].
Definition set_oc d v := mkDT (dt_b d) (dt_tree d) v (dt_ic d) (dt_stash d) (dt_heap d) (dt_next d) (dt_out d).
Definition set_ic d v := mkDT (dt_b d) (dt_tree d) (dt_oc d) v (dt_stash d) (dt_heap d) (dt_next d) (dt_out d).
Definition set_st d v := mkDT (dt_b d) (dt_tree d) (dt_oc d) (dt_ic d) v (dt_heap d) (dt_next d) (dt_out d).
Definition set_b d v := mkDT v (dt_tree d) (dt_oc d) (dt_ic d) (dt_stash d) (dt_heap d) (dt_next d) (dt_out d).
Definition set_heap d v := mkDT (dt_b d) (dt_tree d) (dt_oc d) (dt_ic d) (dt_stash d) v (dt_next d) (dt_out d).
(** A new object. *)
Definition alloc (d : dt) (o : obj) : dt * nat :=
  (mkDT (dt_b d) (dt_tree d) (dt_oc d) (dt_ic d) (dt_stash d)
     (fun i => if Nat.eqb i (dt_next d) then Some o else dt_heap d i) (S (dt_next d)) (dt_out d), dt_next d).
Definition hand_out (d : dt) (i : nat) : dt :=
  mkDT (dt_b d) (dt_tree d) (dt_oc d) (dt_ic d) (dt_stash d) (dt_heap d) (dt_next d) (i :: dt_out d).

(** A call leaves a state behind even when it throws. *)
Definition outcome (T : Type) := (dt * res T)%type.

(** mavis/IFactory.h:1175-1221, IFactory::getInfo of factory [i] with its stash (Stash<Opcode,
    StashEntry, 7>, hash = identity). *)
Definition leaf_get (d : dt) (i : nat) (mn : string) (ic : N) (x : Ext) : outcome info :=
  match stash_lookup XS_HASH XS_MAP (fun k => k) (dt_stash d i) ic with
  | Some v => (d, Ok v)
  | None =>
      match (let* f := get_fact (dt_b d) i in leaf_info f mn ic x) with
      | Ok v => (set_st d (fun j => if Nat.eqb j i
                                    then stash_set XS_HASH XS_MAP (fun k => k) (dt_stash d i) ic v
                                    else dt_stash d j), Ok v)
      | r => (d, r)
      end
  end.
(** The tree's getInfo (root, dense and special-case nodes), mavis/IFactory.h:968-983, 646-676
    and 289-327. *)
Definition tree_get (d : dt) (ic : N) : outcome info :=
  match tree_sel (dt_tree d) ic with
  | Ok (mn, p) =>
      let x := ext (pay_cls p) (pay_ffm p) in
      match x_illop x ic with
      | Ok true => (d, Throw EIllegalOpcode)
      | Ok false => leaf_get d (pay_fact p) mn ic x
      | Throw e => (d, Throw e)
      | AssertFail => (d, AssertFail)
      | UB => (d, UB)
      end
  | Throw e => (d, Throw e)
  | AssertFail => (d, AssertFail)
  | UB => (d, UB)
  end.
(** mavis/DTable.h:207-222, getInfo.  (The tree never returns a null pointer.) *)
Definition get_info (d : dt) (ic : N) : outcome info :=
  match cache_lookup CACHE_SIZE (dt_oc d) ic with
  | Some v => (d, Ok v)
  | None =>
      match tree_get d ic with
      | (d, Ok v) => (set_oc d (cache_allocate CACHE_SIZE (dt_oc d) ic v), Ok v)
      | dr => dr
      end
  end.
(** Copying the object [i]: allocator( *handle ). *)
Definition copy_out (d : dt) (i : nat) : outcome nat :=
  match dt_heap d i with
  | None => (d, UB)
  | Some o => let (d, j) := alloc d o in (d, Ok j)
  end.
(** mavis/DTable.h:224-252, makeInst; returns the object. *)
Definition make_inst (d : dt) (ic : N) (a : A) : outcome nat :=
  match cache_lookup CACHE_SIZE (dt_ic d) ic with
  | Some i => copy_out d i
  | None =>
      match get_info d ic with
      | (d, Ok v) =>
          let (d, i) := alloc d (mkObj v a u0) in
          copy_out (set_ic d (cache_allocate CACHE_SIZE (dt_ic d) ic i)) i
      | (d, Throw e) => (d, Throw e)
      | (d, AssertFail) => (d, AssertFail)
      | (d, UB) => (d, UB)
      end
  end.
(** mavis/DTable.h:260-287, makeInstFromTrace; [x] is ExtractorTraceInfo(tinfo): any extractor.
    The object made by makeInst is dropped when the trace overrides it. *)
Definition make_inst_from_trace (d : dt) (ic : N) (tmn : string) (x : Ext) (a : A) : outcome nat :=
  match make_inst d ic a with
  | (d, Ok j) =>
      match dt_heap d j with
      | None => (d, UB)
      | Some o =>
          if String.eqb (ob_mnemonic o) tmn then (d, Ok j)
          else
            match bld (dt_b d) tmn tmn "" 0 meta_rv32i with
            | Ok (b, i) =>
                match leaf_get (set_b d b) i tmn ic x with
                | (d, Ok v) =>
                    let (d, k) := alloc d (mkObj v a u0) in
                    (set_ic d (cache_allocate CACHE_SIZE (dt_ic d) ic k), Ok k)
                | (d, Throw e) => (d, Throw e)
                | (d, AssertFail) => (d, AssertFail)
                | (d, UB) => (d, UB)
                end
            | Throw e => (d, Throw e)
            | AssertFail => (d, AssertFail)
            | UB => (d, UB)
            end
      end
  | dr => dr
  end.
(** mavis/DTable.h:294-323, makeInstDirectly; [x] is the user's extractor. *)
Definition make_inst_directly (d : dt) (mn : string) (uid : N) (x : Ext) (a : A) : outcome nat :=
  let '(d, r) :=
    if uid =? INVALID_UID then (d, Ok (mn, find_ifact (dt_b d) mn))
    else match ir_mnemonic (b_inst (dt_b d)) uid with
         | Ok mn' =>
             match find_ifact_uid (dt_b d) uid with
             | Ok (b, o) => (set_b d b, Ok (mn', o))
             | Throw e => (d, Throw e)
             | AssertFail => (d, AssertFail)
             | UB => (d, UB)
             end
         | Throw e => (d, Throw e)
         | AssertFail => (d, AssertFail)
         | UB => (d, UB)
         end in
  match r with
  | Ok (_, None) => (d, Throw EUnknownMnemonic)
  | Ok (mn', Some i) =>
      match (let* f := get_fact (dt_b d) i in bypass_info f mn' x) with
      | Ok v => let (d, k) := alloc d (mkObj v a u0) in (d, Ok k)
      | Throw e => (d, Throw e)
      | AssertFail => (d, AssertFail)
      | UB => (d, UB)
      end
  | Throw e => (d, Throw e)
  | AssertFail => (d, AssertFail)
  | UB => (d, UB)
  end.
(** mavis/DTable.h:330-344, morphInst on the object [k] (which the caller holds). *)
Definition morph_inst (d : dt) (k : nat) (mn : string) (x : Ext) : outcome unit :=
  match find_ifact (dt_b d) mn with
  | None => (d, Throw EUnknownMnemonic)
  | Some i =>
      match (let* f := get_fact (dt_b d) i in bypass_info f mn x) with
      | Ok v =>
          match dt_heap d k with
          | None => (d, UB)
          | Some o => (set_heap d (fun j => if Nat.eqb j k then Some (mkObj v (ob_args o) (ob_user o))
                                            else dt_heap d j), Ok tt)
          end
      | Throw e => (d, Throw e)
      | AssertFail => (d, AssertFail)
      | UB => (d, UB)
      end
  end.
(** mavis/DTable.h:346-351, flushCaches. *)
Definition flush_caches (d : dt) : outcome unit :=
  let d := set_oc (set_ic d cache_new) cache_new in
  match flush_tree (dt_tree d) with
  | Ok fs => (set_st d (fun j => if existsb (Nat.eqb j) fs then stash_new else dt_stash d j), Ok tt)
  | Throw e => (d, Throw e)
  | AssertFail => (d, AssertFail)
  | UB => (d, UB)
  end.

(** getInfo on a decoder that has not decoded anything yet. *)
Definition decode (s : builder * tree) (ic : N) : res info := snd (get_info (dt_new s) ic).

(** ** Histories of calls *)
(** The caller names an instruction it holds by the call that handed it out ([k]-th object
    handed out, from 0).  [OMutate k u]: the caller changes its own state in an instruction;
    [ORead k]: it looks at one. *)
Inductive op :=
| OGetInfo (ic : N)
| OMake (ic : N) (a : A)
| OTrace (ic : N) (mn : string) (x : Ext) (a : A)
| ODirect (mn : string) (uid : N) (x : Ext) (a : A)
| OMorph (k : nat) (mn : string) (x : Ext)
| OFlush
| OMutate (k : nat) (u : U)
| ORead (k : nat).
(** What the caller sees: the decode information; or the object and its content. *)
Inductive ans := AInfo (v : info) | AObj (k : nat) (o : obj) | AUnit.
(** A call that returns an object hands it to the caller. *)
Definition lift_obj (r : outcome nat) : outcome ans :=
  match r with
  | (d, Ok k) => match dt_heap d k with Some o => (hand_out d k, Ok (AObj k o)) | None => (d, UB) end
  | (d, Throw e) => (d, Throw e)
  | (d, AssertFail) => (d, AssertFail)
  | (d, UB) => (d, UB)
  end.
Definition lift_unit (r : outcome unit) : outcome ans :=
  match r with
  | (d, Ok _) => (d, Ok AUnit)
  | (d, Throw e) => (d, Throw e)
  | (d, AssertFail) => (d, AssertFail)
  | (d, UB) => (d, UB)
  end.
Definition held (d : dt) (k : nat) : option nat := nth_error (rev (dt_out d)) k.
(** A caller can only name objects it was given; other object arguments make the call
    a no-op of the script. *)
Definition step (d : dt) (o : op) : outcome ans :=
  match o with
  | OGetInfo ic => match get_info d ic with
                   | (d, Ok v) => (d, Ok (AInfo v))
                   | (d, Throw e) => (d, Throw e)
                   | (d, AssertFail) => (d, AssertFail)
                   | (d, UB) => (d, UB)
                   end
  | OMake ic a => lift_obj (make_inst d ic a)
  | OTrace ic mn x a => lift_obj (make_inst_from_trace d ic mn x a)
  | ODirect mn uid x a => lift_obj (make_inst_directly d mn uid x a)
  | OMorph k mn x => match held d k with Some i => lift_unit (morph_inst d i mn x) | None => (d, Ok AUnit) end
  | OFlush => lift_unit (flush_caches d)
  | OMutate k u =>
      match held d k with
      | Some i =>
          match dt_heap d i with
          | None => (d, UB)
          | Some o => (set_heap d (fun j => if Nat.eqb j i then Some (mkObj (ob_info o) (ob_args o) u)
                                            else dt_heap d j), Ok AUnit)
          end
      | None => (d, Ok AUnit)
      end
  | ORead k =>
      match held d k with
      | Some i => match dt_heap d i with Some o => (d, Ok (AObj i o)) | None => (d, UB) end
      | None => (d, Ok AUnit)
      end
  end.
(** A script: the answers of all calls.  A failed assertion or undefined behaviour ends the
    program, an exception does not. *)
Fixpoint run (d : dt) (ops : list op) : dt * list (res ans) :=
  match ops with
  | [] => (d, [])
  | o :: r =>
      let (d', a) := step d o in
      match a with
      | AssertFail | UB => (d', [a])
      | _ => let (d'', l) := run d' r in (d'', a :: l)
      end
  end.
End DTable.
Arguments obj : clear implicits.
Arguments dt : clear implicits.
Arguments op : clear implicits.
Arguments ans : clear implicits.
(** mavis/Mavis.h: lookupInstructionUniqueID and getOpcode (of the current context). *)
Definition lookup_uid (s : builder * tree) (mn : string) : N := ir_uid (b_inst (fst s)) mn.
Definition get_opcode (s : builder * tree) (mn : string) : res N :=
  match find_ifact (fst s) mn with
  | None => Throw EUnknownMnemonic
  | Some i => let* f := get_fact (fst s) i in Ok (fc_stencil f)
  end.
