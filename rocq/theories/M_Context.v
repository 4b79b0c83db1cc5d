(** Model of mavis/ContextRegistry.hpp and of the class Mavis of mavis/Mavis.h: several decoders
    ("contexts") in one process, one of them current. *)
From Coq Require Import NArith ZArith List Bool String.
From Verif Require Import M_Base M_Field M_Forms M_Meta M_OperandInfo M_Extract M_Decoded M_Cache M_Registry
  M_Trie M_Builder M_DTable M_Direct M_Pseudo.
Import ListNotations.
Local Open Scope N_scope.

(** The arguments of makeContext (ContextRegistry.hpp:28-31), files being given by their content. *)
Record config := mkCfg {
  c_recs : list prec;
  c_files : list (list (string * arec));
  c_uids : list (string * N);
  c_ovs : list (string * string * string);
  c_incl : list pattern;
  c_excl : list pattern }.

Section Contexts.
Context {A U : Type} (u0 : U).

(** ContextRegistry.hpp:76-99, struct Context: the DTable owns the builder. *)
Record ctxt := mkCx { cx_dt : dt A U; cx_pb : pbuilder }.
(** The counter of UIDs (InstructionRegistry.hpp:45, static) has the value [nu]. *)
Definition builder_at (b : builder) (nu : N) : builder := set_inst b nu (b_inst b).
Definition ctxt_at (c : ctxt) (nu : N) : ctxt := mkCx (set_b (cx_dt c) (builder_at (dt_b (cx_dt c)) nu)) (cx_pb c).
Definition ctxt_nu (c : ctxt) : N := b_nu (dt_b (cx_dt c)).
(** ContextRegistry.hpp:85-98, the constructor; the members of a builder are constructed in the
    order UID registry, annotations (BuilderBase.hpp:26-27).  [nu] is the UID counter before,
    the second component the counter after. *)
Definition make_context (c : config) (nu : N) : res (ctxt * N) :=
  let* _ := ir_new (c_uids c) nu in
  let* annos := anno_files (c_ovs c) (c_files c) [] in
  let* s := make_decoder (c_uids c) annos nu (c_incl c) (c_excl c) (map fst (c_recs c)) in
  let* _ := ir_new (c_uids c) (b_nu (fst s)) in
  let* pannos := anno_files [] (c_files c) [] in
  let* pb := make_pseudos (c_uids c) pannos (b_nu (fst s)) (c_recs c) in
  Ok (mkCx (dt_new s) pb, pb_nu pb).

(** Calls that go to the current context: Mavis.h:141-243. *)
Inductive cop :=
| COp (o : op A U)                 (* makeInst, makeInstFromTrace, makeInstDirectly, morphInst, getInfo, flushCaches *)
| CPseudo (d : direct)             (* makePseudoInst *)
| CUid (mn : string)               (* lookupInstructionUniqueID *)
| CMnemonic (uid : N)              (* lookupInstructionMnemonic *)
| CPUid (mn : string)              (* lookupPseudoInstUniqueID *)
| CPMnemonic (uid : N)             (* lookupPseudoInstMnemonic *)
| COpcode (mn : string).           (* getOpcode *)
Inductive cans := CAns (a : ans A U) | CInfo (v : info) | CNum (n : N) | CName (s : string).
Definition cstep (c : ctxt) (o : cop) : ctxt * res cans :=
  match o with
  | COp o => let (d, a) := step u0 (cx_dt c) o in (mkCx d (cx_pb c), let* a := a in Ok (CAns a))
  | CPseudo d => let (pb, v) := make_pseudo (cx_pb c) d in (mkCx (cx_dt c) pb, let* v := v in Ok (CInfo v))
  | CUid mn => (c, Ok (CNum (lookup_uid (dt_b (cx_dt c), dt_tree (cx_dt c)) mn)))
  | CMnemonic uid => (c, let* s := ir_mnemonic (b_inst (dt_b (cx_dt c))) uid in Ok (CName s))
  | CPUid mn => (c, Ok (CNum (pseudo_uid (cx_pb c) mn)))
  | CPMnemonic uid => (c, let* s := pseudo_mnemonic (cx_pb c) uid in Ok (CName s))
  | COpcode mn => (c, let* n := get_opcode (dt_b (cx_dt c), dt_tree (cx_dt c)) mn in Ok (CNum n))
  end.

(** Mavis.h:247-254 with ContextRegistry.hpp:101-102: the contexts by name; the current one (the
    pointers builder_, pseudo_builder_, dtrie_ and current_ all designate its members); the UID
    counter, the only state shared by contexts. *)
Record mavis := mkMV { mv_nu : N; mv_reg : list (string * ctxt); mv_cur : string }.
(** Mavis.h:128-139 and 191-198. *)
Inductive gop :=
| GMake (name : string) (c : config) (nu' : N)  (* nu': what a failed construction leaves in the counter *)
| GSwitch (name : string)
| GHas (name : string)
| GCall (o : cop).
Inductive gans := GAns (a : cans) | GBool (b : bool) | GDone.
(** ContextRegistry.hpp:28-40 (makeContext; the context is constructed before the map entry is
    made, C++17 [expr.ass]), 42-49 (switchContext), 51-55 (hasContext).  The assertions at lines
    59-60 etc. fail when there is no current context. *)
Definition gstep (g : mavis) (o : gop) : mavis * res gans :=
  match o with
  | GMake n c nu' =>
      match mfind (mv_reg g) n with
      | Some _ => (g, Throw EContextAlreadyExists)
      | None =>
          match make_context c (mv_nu g) with
          | Ok (x, nu) => (mkMV nu (madd (mv_reg g) n x) (mv_cur g), Ok GDone)
          | Throw e => (mkMV nu' (mv_reg g) (mv_cur g), Throw e)
          | AssertFail => (g, AssertFail)
          | UB => (g, UB)
          end
      end
  | GSwitch n =>
      match mfind (mv_reg g) n with
      | None => (g, Throw EUnknownContext)
      | Some _ => (mkMV (mv_nu g) (mv_reg g) n, Ok GDone)
      end
  | GHas n => (g, Ok (GBool (match mfind (mv_reg g) n with Some _ => true | None => false end)))
  | GCall o =>
      match mfind (mv_reg g) (mv_cur g) with
      | None => (g, AssertFail)
      | Some c =>
          let (c, a) := cstep (ctxt_at c (mv_nu g)) o in
          (mkMV (ctxt_nu c) (madd (mv_reg g) (mv_cur g) c) (mv_cur g), let* a := a in Ok (GAns a))
      end
  end.
(** Mavis.h:83-103, the constructor: the context "BASE", current. *)
Definition mavis_new (c : config) (nu : N) : res mavis :=
  let* (x, nu) := make_context c nu in Ok (mkMV nu [("BASE"%string, x)] "BASE").
(** A script of calls; a failed assertion or undefined behaviour ends the program. *)
Fixpoint grun (g : mavis) (ops : list gop) : mavis * list (res gans) :=
  match ops with
  | [] => (g, [])
  | o :: r =>
      let (g', a) := gstep g o in
      match a with
      | AssertFail | UB => (g', [a])
      | _ => let (g'', l) := grun g' r in (g'', a :: l)
      end
  end.
(** Calls on one context alone. *)
Fixpoint crun (c : ctxt) (ops : list cop) : ctxt * list (res cans) :=
  match ops with
  | [] => (c, [])
  | o :: r =>
      let (c', a) := cstep c o in
      match a with
      | AssertFail | UB => (c', [a])
      | _ => let (c'', l) := crun c' r in (c'', a :: l)
      end
  end.
End Contexts.
Arguments ctxt : clear implicits.
Arguments mavis : clear implicits.
Arguments cop : clear implicits.
Arguments cans : clear implicits.
Arguments gop : clear implicits.
Arguments gans : clear implicits.
