(** The process-wide UID counter (InstructionRegistry.hpp:45) after the construction of a context,
    whether the construction succeeds or throws: a throw unwinds the registries, not the static
    counter.  Outcomes other than a return or a throw end the program; the value given for them
    here is not used. *)
From Coq Require Import NArith ZArith List Bool String.
From Verif Require Import M_Base M_Field M_Forms M_Meta M_OperandInfo M_Extract M_Decoded M_Cache M_Registry
  M_Trie M_Builder M_DTable M_Direct M_Pseudo M_Context.
Import ListNotations.
Local Open Scope N_scope.

(** InstructionRegistry.hpp:49-71: allocateUID (line 59) precedes the check of the mnemonic (64). *)
Fixpoint load_left (l : list (string * N)) (used : list N) (nu : N) (r : instreg) : N :=
  match l with
  | [] => nu
  | (m, uid) :: rest =>
      if uid =? INVALID_UID then nu else
      if existsb (N.eqb uid) used then nu else
      let nu := allocate_uid nu uid in
      match mfind (ir_map r) m with
      | Some _ => nu
      | None =>
          match da_add (ir_arr r) uid m with
          | Ok arr => load_left rest (uid :: used) nu (mkIR (madd (ir_map r) m uid) arr)
          | _ => nu
          end
      end
  end.
Definition new_left (uids : list (string * N)) (nu : N) : N :=
  load_left uids [] nu (mkIR [] (da_new INITIAL_SIZE DEFAULT_UP_SIZE)).
(** impl/DTable.tcc:182-249, buildLeaf_, as far as the call of the builder (line 226); the node
    is returned as it was.  What follows (lines 228-248) may throw but does not number anything. *)
Definition leaf_left (b : builder) (fm : form) (mn : string) (st : N) (fl : list string)
  (fname xpand : string) (x : option xcls) (m : meta) (cur : node) : res (node * N) :=
  let* c := match x with Some c => Ok c | None => get_extractor (fm_name fm) end in
  match cur with
  | Dense _ _ _ => Throw EBuildErrorOpcodeConflict
  | Special tab d =>
      let* tab := match fl with [] => Ok tab | _ => add_special fm mn st fl tab end in
      let m := match fl with [] => m | _ => add_fixed_fields fl m end in
      let b := match fl with [] => b | _ => set_metas b (madd (b_metas b) mn m) end in
      let* (b, i) := bld b mn fname xpand st m in
      Ok (cur, b_nu b)
  end.
(** IFactoryBuilder.h:170-194, buildOverlay: the overlay is numbered (line 181) once its base and
    its meta-data are known, before its annotation and the factory of the base are looked up. *)
Definition overlay_left (b : builder) (mn : string) (o : jolay) (r : irec) : N :=
  match overlay_parse o with
  | Ok (base, _, _) =>
      match mfind (b_metas b) base with
      | None => b_nu b
      | Some bm =>
          match meta_overrides (r_meta r) (r_tags r) bm with
          | Ok _ => match register_inst b mn with Ok (b, _) => b_nu b | _ => b_nu b end
          | _ => b_nu b
          end
      end
  | _ => b_nu b
  end.
(** impl/DTable.tcc:22-100, parseInstInfo_; the alias stencils (lines 88-95) share the factory,
    and number nothing. *)
Definition parse_left (s : builder * tree) (r : irec) (mn : string) : N :=
  let nu := b_nu (fst s) in
  match (match r_xform r with
         | None => Ok None
         | Some n => let* c := get_extractor n in Ok (Some c)
         end) with
  | Ok x =>
      let fname := match r_factory r with None => mn | Some f => f end in
      match r_overlay r with
      | Some o => overlay_left (fst s) mn o r
      | None =>
          match (let* fm := match r_form r with None => AssertFail | Some fn => get_form fn end in
                 let* (b, m) := make_inst_meta (fst s) mn (r_meta r) (negb (String.eqb (r_expand r) "")) (r_tags r) in
                 build_tree fm (r_ignore r) (r_stencil r)
                   (leaf_left b fm mn (r_stencil r) (r_fixed r) fname (r_expand r) x m) (snd s)) with
          | Ok (_, nu) => nu
          | _ => nu
          end
      end
  | _ => nu
  end.
(** impl/DTable.tcc:108-171, configure. *)
Fixpoint configure_left (incl excl : list pattern) (recs : list irec) (s : builder * tree) : N :=
  match recs with
  | [] => b_nu (fst s)
  | r :: rest =>
      match r_mn r with
      | Some mn =>
          if tag_filter incl excl (r_tags r)
          then match parse_inst s r mn with
               | Ok s => configure_left incl excl rest s
               | _ => parse_left s r mn
               end
          else configure_left incl excl rest s
      | None => match r_pseudo r with
                | Some _ => configure_left incl excl rest s
                | None => b_nu (fst s)
                end
      end
  end.
(** PseudoBuilder.hpp:48-83, configure: in a record that throws, what throws (lines 66-71) precedes
    the numbering (line 124). *)
Fixpoint pconfigure_left (recs : list prec) (b : pbuilder) : N :=
  match recs with
  | [] => pb_nu b
  | r :: rest => match ppseudo b r with Ok b => pconfigure_left rest b | _ => pb_nu b end
  end.
(** ContextRegistry.hpp:85-98, the constructor of a context (see [make_context]). *)
Definition context_left (c : config) (nu : N) : N :=
  match anno_files (c_ovs c) (c_files c) [] with
  | Ok annos =>
      match builder_new (c_uids c) annos nu with
      | Ok b =>
          match configure (c_incl c) (c_excl c) (map fst (c_recs c)) (b, tree_new) with
          | Ok s =>
              let nu := b_nu (fst s) in
              match anno_files [] (c_files c) [] with
              | Ok pannos =>
                  match pbuilder_new (c_uids c) pannos nu with
                  | Ok pb => pconfigure_left (c_recs c) pb
                  | _ => new_left (c_uids c) nu
                  end
              | _ => new_left (c_uids c) nu
              end
          | _ => configure_left (c_incl c) (c_excl c) (map fst (c_recs c)) (b, tree_new)
          end
      | _ => new_left (c_uids c) nu
      end
  | _ => new_left (c_uids c) nu
  end.

Section Programs.
Context {A U : Type} (u0 : U).
(** Mavis.h:128-139 and 191-198 as in [gstep], the counter after a failed construction being the one
    the construction leaves. *)
Definition mstep (g : mavis A U) (o : gop A U) : mavis A U * res (gans A U) :=
  gstep u0 g (match o with GMake n c _ => GMake n c (context_left c (mv_nu g)) | _ => o end).
(** A sequence of calls, ended by an assertion or undefined behaviour (as [grun]). *)
Fixpoint mrun (g : mavis A U) (ops : list (gop A U)) : mavis A U * list (res (gans A U)) :=
  match ops with
  | [] => (g, [])
  | o :: r =>
      let (g', a) := mstep g o in
      match a with
      | AssertFail | UB => (g', [a])
      | _ => let (g'', l) := mrun g' r in (g'', a :: l)
      end
  end.
End Programs.
