(** Model of the opcode cache of mavis/DTable.h and of mavis/Stash.hpp. *)
From Coq Require Import NArith List Bool.
From Verif Require Import M_Base.
Import ListNotations.
Local Open Scope N_scope.

Section Cache.
Context {V : Type}.

(** DTable.h:110-114, struct Line.  [ln_handle = None] is the null pointer. *)
Record line := mkLine { ln_tag : N; ln_handle : option V }.
(** DTable.h:115, the line table; an array indexed by the hash, every line
    initially {tag = 0, handle = null}. *)
Definition cache := N -> line.
Definition cache_new : cache := fun _ => mkLine 0 None.
(** DTable.h:160, CACHE_SIZE. *)
Definition CACHE_SIZE : N := 1023.
(** DTable.h:121-124, hash_ (the parameter is the 64-bit opcode). *)
Definition cache_hash (size icode : N) : N := u32 (icode mod size).
(** DTable.h:139-150, lookup (hit counters not modelled): the 32-bit tag is
    compared with the 64-bit opcode. *)
Definition cache_lookup (size : N) (c : cache) (icode : N) : option V :=
  let l := c (cache_hash size icode) in
  match ln_handle l with
  | Some v => if ln_tag l =? icode then Some v else None
  | None => None
  end.
(** DTable.h:152-157, allocate: the opcode is stored in a uint32_t tag. *)
Definition cache_allocate (size : N) (c : cache) (icode : N) (v : V) : cache :=
  fun i => if i =? cache_hash size icode then mkLine (u32 icode) (Some v) else c i.

(** Stash.hpp:19-24, struct Node; [None] is a node whose valid flag is false. *)
Definition snode := option (N * V).
(** Stash.hpp:101-106, the data members.  hash_ is an array indexed by
    hash % HashSize; map_ a std::map with keys hash % MapSize. *)
Record stash := mkStash { st_mru : snode; st_hash : N -> snode; st_map : N -> snode }.
Definition stash_new : stash := mkStash None (fun _ => None) (fun _ => None).
(** Stash.hpp:44-46, the default hash function is the identity; lines 58 and 86
    truncate its result to uint32_t. *)
Definition stash_index (hf : N -> N) (key : N) : N := u32 (hf key).
(** Stash.hpp:55-61, set. *)
Definition stash_set (hsize msize : N) (hf : N -> N) (s : stash) (key : N) (v : V) : stash :=
  let n := Some (key, v) in
  let h := stash_index hf key in
  mkStash n
    (fun i => if i =? h mod hsize then n else st_hash s i)
    (fun i => if i =? h mod msize then n else st_map s i).
Definition snode_get (n : snode) (key : N) : option V :=
  match n with
  | Some (k, v) => if k =? key then Some v else None
  | None => None
  end.
(** Stash.hpp:81-99, lookup. *)
Definition stash_lookup (hsize msize : N) (hf : N -> N) (s : stash) (key : N) : option V :=
  match snode_get (st_mru s) key with
  | Some v => Some v
  | None =>
      let h := stash_index hf key in
      match snode_get (st_hash s (h mod hsize)) key with
      | Some v => Some v
      | None => snode_get (st_map s (h mod msize)) key
      end
  end.
End Cache.
Arguments line : clear implicits.
Arguments cache : clear implicits.
Arguments snode : clear implicits.
Arguments stash : clear implicits.

(** IFactory.h:1126, ExtractionStashType = Stash<Opcode, StashEntry, 7>; MapSize
    defaults to HashSize * 10 (Stash.hpp:15). *)
Definition XS_HASH : N := 7.
Definition XS_MAP : N := 70.

(** Histories: a sequence of stores (opcode or key, value), oldest first, on a
    fresh cache or stash. *)
Definition cache_run {V} (size : N) (h : list (N * V)) : cache V :=
  fold_left (fun c p => cache_allocate size c (fst p) (snd p)) h cache_new.
Definition stash_run {V} (hsize msize : N) (hf : N -> N) (h : list (N * V)) : stash V :=
  fold_left (fun s p => stash_set hsize msize hf s (fst p) (snd p)) h stash_new.
