(** Model of mavis/SimpleDynArray.hpp, mavis/DualKeyRegistry.hpp and
    mavis/InstructionRegistry.hpp. *)
From Coq Require Import NArith List Bool String.
From Verif Require Import M_Base.
Import ListNotations.
Local Open Scope N_scope.

(** std::map<std::string, T>: an association list; [mfind] is find, [madd]
    is insertion of a key known to be absent or operator[] assignment. *)
Fixpoint mfind {T} (m : list (string * T)) (k : string) : option T :=
  match m with
  | [] => None
  | (k', v) :: r => if String.eqb k' k then Some v else mfind r k
  end.
Definition madd {T} (m : list (string * T)) (k : string) (v : T) : list (string * T) := (k, v) :: m.

Section Reg.
Context {T : Type}.

(** SimpleDynArray.hpp:40-43, Wrapper; a slot that is not valid is [None]
    (its obj member is never read). *)
Record dynarray := mkDA { da_size : N; da_slot : N -> option T; da_up : N }.
(** SimpleDynArray.hpp:47-54, the constructor. *)
Definition da_new (initial_size up_size : N) : dynarray :=
  mkDA initial_size (fun _ => None) (if up_size <? 1 then 1 else up_size).
Definition INITIAL_SIZE : N := 1000.
Definition DEFAULT_UP_SIZE : N := 100.
(** SimpleDynArray.hpp:61-64, contains(uint32_t). *)
Definition da_contains (a : dynarray) (k : N) : bool :=
  (k <? da_size a) && match da_slot a k with Some _ => true | None => false end.
(** SimpleDynArray.hpp:66-74, lookup: vector::at throws std::out_of_range. *)
Definition da_lookup (a : dynarray) (k : N) : res T :=
  if k <? da_size a
  then match da_slot a k with Some v => Ok v | None => Throw EUnassignedIndex end
  else Throw EStdOutOfRange.
(** SimpleDynArray.hpp:81-87, add.  [ukey + up_size_] is computed in uint32_t;
    resize to a smaller size drops the slots beyond it; vect_[ukey] beyond the
    size is undefined. *)
Definition da_resize (a : dynarray) (n : N) : dynarray :=
  mkDA n (fun i => if i <? n then da_slot a i else None) (da_up a).
Definition da_add (a : dynarray) (k : N) (v : T) : res dynarray :=
  let a := if da_size a <=? k then da_resize a (u32 (k + da_up a)) else a in
  if k <? da_size a
  then Ok (mkDA (da_size a) (fun i => if i =? k then Some v else da_slot a i) (da_up a))
  else UB.

(** DualKeyRegistry.hpp:153-156: map_ and vect_ (with up_size_). *)
Record dualreg := mkDK { dk_map : list (string * T); dk_vec : dynarray }.
(** DualKeyRegistry.hpp:69-76. *)
Definition dk_new (initial_size up_size : N) : dualreg := mkDK [] (da_new initial_size up_size).
(** DualKeyRegistry.hpp:84-87 and 89-92, contains. *)
Definition dk_contains_s (d : dualreg) (k : string) : bool :=
  match mfind (dk_map d) k with Some _ => true | None => false end.
Definition dk_contains_n (d : dualreg) (k : N) : bool := da_contains (dk_vec d) k.
(** DualKeyRegistry.hpp:94-97, lookup(string): map::at. *)
Definition dk_lookup_s (d : dualreg) (k : string) : res T :=
  match mfind (dk_map d) k with Some v => Ok v | None => Throw EStdOutOfRange end.
(** DualKeyRegistry.hpp:99-107, lookup(uint32_t). *)
Definition dk_lookup_n (d : dualreg) (k : N) : res T :=
  if k <? da_size (dk_vec d)
  then match da_slot (dk_vec d) k with Some v => Ok v | None => Throw EUnassignedKey end
  else Throw EStdOutOfRange.
(** DualKeyRegistry.hpp:109-121, add. *)
Definition dk_add (d : dualreg) (s : string) (k : N) (v : T) : res dualreg :=
  match mfind (dk_map d) s with
  | None => let* vec := da_add (dk_vec d) k v in Ok (mkDK (madd (dk_map d) s v) vec)
  | Some _ => Throw EDuplicateKey
  end.
End Reg.
Arguments dynarray : clear implicits.
Arguments dualreg : clear implicits.

(** DecoderTypes.h, INVALID_UID. *)
Definition INVALID_UID : N := 0.

(** InstructionRegistry.hpp:137-140: id_map_ and mnemonic_array_.  The
    counter UIDManager::next_uid_ (line 45) is static, shared by every registry of the
    process: it is threaded explicitly ([nu]). *)
Record instreg := mkIR { ir_map : list (string * N); ir_arr : dynarray string }.

(** InstructionRegistry.hpp:34-36, allocateUID: max(uid + 1, next_uid_), uint32_t. *)
Definition allocate_uid (nu uid : N) : N := N.max (u32 (uid + 1)) nu.
(** InstructionRegistry.hpp:30-32, advanceUID: next_uid_++ on uint32_t. *)
Definition advance_uid (nu : N) : N * N := (nu, u32 (nu + 1)).

(** InstructionRegistry.hpp:49-71, the constructor's loop over the user's list. *)
Fixpoint ir_load (l : list (string * N)) (used : list N) (nu : N) (r : instreg) : res (N * instreg) :=
  match l with
  | [] => Ok (nu, r)
  | (m, uid) :: rest =>
      if uid =? INVALID_UID then Throw EInstIDListInvalidUID else
      if existsb (N.eqb uid) used then Throw EInstIDListUIDNotUnique else
      let nu := allocate_uid nu uid in
      match mfind (ir_map r) m with
      | Some _ => Throw EInstIDListAlreadyRegistered
      | None =>
          let* arr := da_add (ir_arr r) uid m in
          ir_load rest (uid :: used) nu (mkIR (madd (ir_map r) m uid) arr)
      end
  end.
Definition ir_new (uids : list (string * N)) (nu : N) : res (N * instreg) :=
  ir_load uids [] nu (mkIR [] (da_new INITIAL_SIZE DEFAULT_UP_SIZE)).
(** InstructionRegistry.hpp:75-82, lookupUID. *)
Definition ir_uid (r : instreg) (m : string) : N :=
  match mfind (ir_map r) m with Some u => u | None => INVALID_UID end.
(** InstructionRegistry.hpp:84-87, lookupMnemonic (SimpleDynArray operator[]). *)
Definition ir_mnemonic (r : instreg) (uid : N) : res string := da_lookup (ir_arr r) uid.
(** InstructionRegistry.hpp:95-105, aliasInstWithUID. *)
Definition ir_alias (r : instreg) (m : string) (uid nu : N) : res instreg :=
  let* _ := rassert (negb (uid =? INVALID_UID) && (uid <? nu)) in
  match mfind (ir_map r) m with
  | None =>
      let* _ := rassert (da_contains (ir_arr r) uid) in
      Ok (mkIR (madd (ir_map r) m uid) (ir_arr r))
  | Some _ => Ok r
  end.
(** InstructionRegistry.hpp:107-118, registerInst. *)
Definition ir_register (r : instreg) (m : string) (nu : N) : res (N * instreg * N) :=
  match mfind (ir_map r) m with
  | None =>
      let (uid, nu') := advance_uid nu in
      let* arr := da_add (ir_arr r) uid m in
      Ok (nu', mkIR (madd (ir_map r) m uid) arr, uid)
  | Some uid => Ok (nu, r, uid)
  end.
(** InstructionRegistry.hpp:120-128, addInstWithUIDUniquely. *)
Definition ir_add_uniquely (r : instreg) (m : string) (uid nu : N) : res instreg :=
  let* _ := rassert (negb (uid =? INVALID_UID) && (uid <? nu)) in
  match mfind (ir_map r) m with
  | Some _ => Throw EBuildErrorDuplicateMnemonic
  | None => let* arr := da_add (ir_arr r) uid m in Ok (mkIR (madd (ir_map r) m uid) arr)
  end.
(** InstructionRegistry.hpp:130-135, registerInstUniquely.  (The counter has
    advanced even when the mnemonic is a duplicate.) *)
Definition ir_register_uniquely (r : instreg) (m : string) (nu : N) : res (N * instreg * N) :=
  let (uid, nu') := advance_uid nu in
  let* r' := ir_add_uniquely r m uid nu' in
  Ok (nu', r', uid).

(** Histories of DualKeyRegistry::add calls (string key, numeric key, object), oldest
    first; a call that throws leaves the registry as it was (DualKeyRegistry.hpp:118-120:
    the check precedes every update) and the caller goes on. *)
Fixpoint dk_run {T} (d : dualreg T) (h : list (string * N * T)) : res (dualreg T) :=
  match h with
  | [] => Ok d
  | (s, k, v) :: r =>
      match dk_add d s k v with
      | Ok d' => dk_run d' r
      | Throw _ => dk_run d r
      | AssertFail => AssertFail
      | UB => UB
      end
  end.
(** Histories of SimpleDynArray::add calls. *)
Fixpoint da_run {T} (a : dynarray T) (h : list (N * T)) : res (dynarray T) :=
  match h with
  | [] => Ok a
  | (k, v) :: r => let* a' := da_add a k v in da_run a' r
  end.

(** Every registry of the process together with the shared counter, and the calls that
    change them: constructing a registry (InstructionRegistry.hpp:49), registerInst (107),
    and the alias call of the builder, IFactoryBuilder.h:146-148, which aliases [m] to the
    UID looked up for [x].  [UBump uid] is what a constructor that throws leaves behind: the
    counter has passed the UIDs listed before the offending one (line 59). *)
Record world := mkW { wd_next : N; wd_regs : list instreg }.
Definition world0 : world := mkW 1 [].
Inductive uop :=
| UNew (uids : list (string * N))
| UReg (r : nat) (m : string)
| UAlias (r : nat) (m x : string)
| UBump (uid : N).
Fixpoint set_nth {A} (l : list A) (i : nat) (a : A) : list A :=
  match l, i with
  | [], _ => []
  | _ :: r, O => a :: r
  | b :: r, S j => b :: set_nth r j a
  end.
(** A call on a registry that does not exist is a no-op of the script. *)
Definition ustep (w : world) (o : uop) : res world :=
  match o with
  | UNew uids =>
      let* (nu, r) := ir_new uids (wd_next w) in Ok (mkW nu (wd_regs w ++ [r]))
  | UReg i m =>
      match nth_error (wd_regs w) i with
      | None => Ok w
      | Some r => let* (p, _) := ir_register r m (wd_next w) in
                  Ok (mkW (fst p) (set_nth (wd_regs w) i (snd p)))
      end
  | UAlias i m x =>
      match nth_error (wd_regs w) i with
      | None => Ok w
      | Some r => let* r' := ir_alias r m (ir_uid r x) (wd_next w) in
                  Ok (mkW (wd_next w) (set_nth (wd_regs w) i r'))
      end
  | UBump uid => Ok (mkW (allocate_uid (wd_next w) uid) (wd_regs w))
  end.
Fixpoint urun (w : world) (l : list uop) : res world :=
  match l with
  | [] => Ok w
  | o :: r => let* w' := ustep w o in urun w' r
  end.
