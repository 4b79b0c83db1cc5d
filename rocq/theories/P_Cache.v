(** Claims C15 (stash) and C16 (opcode cache). *)
From Coq Require Import NArith List Bool Lia.
From Verif Require Import M_Base M_Cache S_Maps L_Cache.
Import ListNotations.
Local Open Scope N_scope.

(** C16.  After any sequence of stores for opcodes below 1023 * 2^32, a lookup that hits
    returns the value stored last under exactly that opcode. *)
Theorem C16_cache_last_store : forall (V : Type) (h : list (N * V)) (ic : N) (v : V),
  Forall (fun p => fst p < cache_bound) h ->
  cache_lookup CACHE_SIZE (cache_run CACHE_SIZE h) ic = Some v ->
  last_under ic h v.
Proof. exact @C16_lemma. Qed.
Print Assumptions C16_cache_last_store.
Example C16_cache_ex :
  let h := [(0x13, true); (0x13 + 1023, false); (0x00100073, true)] in
  Forall (fun p => fst p < cache_bound) h /\
  cache_lookup CACHE_SIZE (cache_run CACHE_SIZE h) 0x13 = None /\
  cache_lookup CACHE_SIZE (cache_run CACHE_SIZE h) (0x13 + 1023) = Some false.
Proof. split; [repeat constructor|split; reflexivity]. Qed.

(** A store is visible to the next lookup of the same 32-bit opcode. *)
Theorem C16_cache_hit : forall (V : Type) (h : list (N * V)) (ic : N) (v : V),
  ic < 2 ^ 32 ->
  cache_lookup CACHE_SIZE (cache_run CACHE_SIZE (h ++ [(ic, v)])) ic = Some v.
Proof. exact @C16_hit_lemma'. Qed.
Print Assumptions C16_cache_hit.
Example C16_cache_hit_ex : 0xffffffff < 2 ^ 32. Proof. reflexivity. Qed.

(** Beyond the bound the statement is false: the tag keeps 32 bits, so the object
    stored for 0x13 + 1023 * 2^32 is returned for opcode 0x13. *)
Theorem C16_cache_last_store_refuted :
  exists (h : list (N * bool)) (ic : N) (v : bool),
    Forall (fun p => fst p < 2 ^ 64) h /\
    cache_lookup CACHE_SIZE (cache_run CACHE_SIZE h) ic = Some v /\
    never_under ic h.
Proof. exact C16_refuted_lemma. Qed.
Print Assumptions C16_cache_last_store_refuted.

(** C15.  For every hash function and table sizes: a hit returns the value stored last
    under exactly that key. *)
Theorem C15_stash_last_store :
  forall (V : Type) (hsize msize : N) (hf : N -> N) (h : list (N * V)) (k : N) (v : V),
  stash_lookup hsize msize hf (stash_run hsize msize hf h) k = Some v ->
  last_under k h v.
Proof. exact @C15_lemma. Qed.
Print Assumptions C15_stash_last_store.
Example C15_stash_ex :
  let h := [(1, true); (71, false); (1, false); (8, true)] in
  stash_lookup 7 70 (fun k => k) (stash_run 7 70 (fun k => k) h) 1 = Some false /\
  stash_lookup 7 70 (fun k => k) (stash_run 7 70 (fun k => k) h) 71 = None.
Proof. split; reflexivity. Qed.

(** C15.  A stored value stays visible until a key of the same map slot is stored; in
    particular a lookup right after the store ([h2 = []]) hits. *)
Theorem C15_stash_retained :
  forall (V : Type) (hsize msize : N) (hf : N -> N) (h1 : list (N * V)) (k : N) (v : V) (h2 : list (N * V)),
  Forall (fun p => (hf (fst p) mod 2 ^ 32) mod msize <> (hf k mod 2 ^ 32) mod msize) h2 ->
  stash_lookup hsize msize hf (stash_run hsize msize hf (h1 ++ (k, v) :: h2)) k = Some v.
Proof. exact @C15_retained_lemma. Qed.
Print Assumptions C15_stash_retained.
Example C15_stash_retained_ex :
  Forall (fun p : N * bool => (fst p mod 2 ^ 32) mod 70 <> (1 mod 2 ^ 32) mod 70) [(2, true); (8, false); (141 + 1, true)].
Proof. repeat constructor; cbn; discriminate. Qed.
