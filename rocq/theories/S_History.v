(** Specification: a decoder without caches.  What a caller sees of a script of calls when
    every call is answered from scratch and every instruction is a separate object.

    The state is the list of the instructions handed out, in that order; an instruction is
    its decode information and the user's own state.  Constructor arguments and the identity of
    objects are not part of it. *)
From Coq Require Import NArith List Bool String.
From Verif Require Import M_Base M_Extract M_Registry M_Trie M_Builder M_DTable S_Maps.
Import ListNotations.
Local Open Scope N_scope.

Section Plain.
Context {A U : Type} (u0 : U) (s : builder * tree).
Notation op := (op A U).

Definition pobj : Type := info * U.
Inductive pans := PInfo (v : info) | PObj (o : pobj) | PUnit.

(** The instruction registered under the name, or under the name that owns the UID. *)
Definition plain_direct (mn : string) (uid : N) (x : Ext) : res info :=
  let* mn' := if uid =? INVALID_UID then Ok mn else ir_mnemonic (b_inst (fst s)) uid in
  match find_ifact (fst s) mn' with
  | None => Throw EUnknownMnemonic
  | Some i => let* f := get_fact (fst s) i in bypass_info f mn' x
  end.

Definition give (h : list pobj) (r : res info) : list pobj * res pans :=
  match r with
  | Ok v => ((h ++ [(v, u0)])%list, Ok (PObj (v, u0)))
  | Throw e => (h, Throw e)
  | AssertFail => (h, AssertFail)
  | UB => (h, UB)
  end.
Fixpoint change (h : list pobj) (k : nat) (g : pobj -> pobj) : list pobj :=
  match h, k with
  | [], _ => []
  | o :: r, O => g o :: r
  | o :: r, S k => o :: change r k g
  end.

Definition pstep (h : list pobj) (o : op) : list pobj * res pans :=
  match o with
  | OGetInfo ic => (h, let* v := decode (A := A) (U := U) s ic in Ok (PInfo v))
  | OMake ic _ | OTrace ic _ _ _ => give h (decode (A := A) (U := U) s ic)
  | ODirect mn uid x _ => give h (plain_direct mn uid x)
  | OMorph k mn x =>
      match nth_error h k with
      | None => (h, Ok PUnit)
      | Some _ => match plain_direct mn INVALID_UID x with
                  | Ok v => (change h k (fun o => (v, snd o)), Ok PUnit)
                  | Throw e => (h, Throw e)
                  | AssertFail => (h, AssertFail)
                  | UB => (h, UB)
                  end
      end
  | OFlush => (h, Ok PUnit)
  | OMutate k u => (change h k (fun o => (fst o, u)), Ok PUnit)
  | ORead k => (h, Ok (match nth_error h k with Some o => PObj o | None => PUnit end))
  end.
Fixpoint prun (h : list pobj) (ops : list op) : list (res pans) :=
  match ops with
  | [] => []
  | o :: r => let (h', a) := pstep h o in
              match a with AssertFail | UB => [a] | _ => a :: prun h' r end
  end.

(** An answer of the decoder without the identity of the object and its constructor
    arguments. *)
Definition view (a : res (ans A U)) : res pans :=
  let* a := a in
  Ok (match a with
      | AInfo v => PInfo v
      | AObj _ o => PObj (ob_info o, ob_user o)
      | AUnit => PUnit
      end).

(** flushCaches works on the decoder (its table has no entry left without a factory). *)
Definition can_flush : Prop := snd (flush_caches (A := A) (U := U) (dt_new s)) = Ok tt.
(** The calls covered: opcodes the caches tell apart, UIDs that are not within 100 of 2^32,
    trace records only when they agree with the decoder about the mnemonic, flushCaches only
    where it works at all. *)
Definition covered (o : op) : Prop :=
  match o with
  | OGetInfo ic | OMake ic _ => ic < cache_bound
  | OTrace ic mn _ _ => ic < cache_bound /\
      forall v, decode (A := A) (U := U) s ic = Ok v -> M_Decoded.d_mnemonic (i_di v) = mn
  | ODirect _ uid _ _ => uid + DEFAULT_UP_SIZE < w32
  | OFlush => can_flush
  | _ => True
  end.
(** Trace records for opcode [ic] in the history [h] dispute the decoder's mnemonic. *)
Definition agreed (ic : N) (mn : string) : Prop :=
  forall v, decode (A := A) (U := U) s ic = Ok v -> M_Decoded.d_mnemonic (i_di v) = mn.
Definition disputed (h : list op) (ic : N) : Prop :=
  exists mn x a, In (OTrace ic mn x a) h /\ ~ agreed ic mn.
(** Calls of a history with disputes: the names used by the trace records of a disputed opcode
    are not names of instructions of the decoder. *)
Definition foreign (h : list op) (o : op) : Prop :=
  match o with
  | OGetInfo ic | OMake ic _ => ic < cache_bound
  | OTrace ic mn _ _ => ic < cache_bound /\ (disputed h ic -> get_opcode s mn = Throw EUnknownMnemonic)
  | _ => True
  end.
(** The call made an instruction with the decode information [r] and a new user state, or
    failed like [r]. *)
Definition gives (r : res info) (a : res (ans A U)) : Prop :=
  match r with
  | Ok v => exists k args, a = Ok (AObj k (mkObj v args u0))
  | Throw e => a = Throw e
  | AssertFail => a = AssertFail
  | UB => a = UB
  end.
(** What morphInst answers and what the object then reads as, the new decode information being
    [r]: the identity, the constructor arguments and the user's state stay. *)
Definition morphed (r : res info) (i : nat) (o : obj A U) : res (ans A U) * res (ans A U) :=
  match r with
  | Ok v => (Ok AUnit, Ok (AObj i (mkObj v (ob_args o) (ob_user o))))
  | Throw e => (Throw e, Ok (AObj i o))
  | AssertFail => (AssertFail, Ok (AObj i o))
  | UB => (UB, Ok (AObj i o))
  end.
(** The calls that ask for an instruction or its decode information. *)
Definition is_query (o : op) : Prop :=
  match o with OGetInfo _ | OMake _ _ | OTrace _ _ _ _ | ODirect _ _ _ _ => True | _ => False end.
(** The call may change the [k]-th object handed out. *)
Definition touches (o : op) (k : nat) : Prop :=
  match o with OMutate k' _ | OMorph k' _ _ => k' = k | _ => False end.
(** Not a call with a trace record. *)
Definition no_trace (o : op) : Prop := match o with OTrace _ _ _ _ => False | _ => True end.
Definition is_flush (o : op) : bool := match o with OFlush => true | _ => false end.
(** The answers of the calls other than flushCaches. *)
Definition visible {T} (ops : list op) (l : list T) : list T :=
  map snd (filter (fun p => negb (is_flush (fst p))) (combine ops l)).
(** The objects handed out by a script, by identity. *)
Definition handed (ops : list op) (l : list (res (ans A U))) : list nat :=
  flat_map (fun p => match p with
                     | (ORead _, _) => []
                     | (_, Ok (AObj k _)) => [k]
                     | _ => []
                     end) (combine ops l).
End Plain.
Arguments pobj U : clear implicits.
Arguments pans U : clear implicits.
(** No instruction of the table, nor a factory, has the name (overlays and compressed
    instructions have no factory of their own). *)
Definition nameless (recs : list irec) (mn : string) : Prop :=
  mn <> "nop"%string /\ mn <> "cmov"%string /\
  forall r, In r recs -> r_overlay r = None -> r_expand r = ""%string -> r_mn r <> Some mn /\ r_factory r <> Some mn.
