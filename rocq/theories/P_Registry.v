(** Claims C13 (instruction UIDs) and C17 (dual-key registry, dynamic array). *)
From Coq Require Import NArith List Bool String.
From Verif Require Import M_Base M_Registry S_Maps S_Uids L_Registry L_Uids L_UserList.
Import ListNotations.
Local Open Scope N_scope.
Local Open Scope string_scope.

(** C17.  SimpleDynArray: after any sequence of additions (with growth), a lookup returns the
    object added last under the index, and an index without addition is reported. *)
Theorem C17_array_lookup : forall (T : Type) (n u : N) (h : list (N * T)) (a : dynarray T),
  n < 2 ^ 32 -> da_run (da_new n u) h = Ok a ->
  forall k,
    (forall v, da_lookup a k = Ok v <-> last_under k h v) /\
    (da_contains a k = true <-> exists v, last_under k h v) /\
    (never_under k h -> da_lookup a k = Throw EUnassignedIndex \/ da_lookup a k = Throw EStdOutOfRange).
Proof. exact @C17_array_lemma. Qed.
Print Assumptions C17_array_lookup.
Example C17_array_ex : exists a, da_run (da_new 10 3) [(4, true); (500, false); (4, false)] = Ok a /\
  da_lookup a 4 = Ok false /\ da_lookup a 500 = Ok false /\ da_lookup a 5 = Throw EUnassignedIndex /\
  da_lookup a 503 = Throw EStdOutOfRange.
Proof. eexists. repeat split. Qed.

(** The additions cannot fail as long as index + growth step stays below 2^32. *)
Theorem C17_array_total : forall (T : Type) (n u : N) (h : list (N * T)),
  n < 2 ^ 32 -> u < 2 ^ 32 -> Forall (fun p => fst p + N.max 1 u < 2 ^ 32) h ->
  exists a, da_run (da_new n u) h = Ok a.
Proof. exact @C17_array_total_lemma. Qed.
Print Assumptions C17_array_total.
Example C17_array_total_ex : Forall (fun p : N * bool => fst p + N.max 1 100 < 2 ^ 32) [(0, true); (4294967195, true)].
Proof. repeat constructor. Qed.

(** With the default growth step of 100 an index in the last hundred below 2^32 makes the new
    size wrap around, and the write is out of bounds. *)
Theorem C17_array_wrap_refuted : exists k : N, k < 2 ^ 32 /\
  da_run (@da_new bool INITIAL_SIZE DEFAULT_UP_SIZE) [(k, true)] = UB.
Proof. exists 4294967196. split; reflexivity. Qed.
Print Assumptions C17_array_wrap_refuted.

(** C17.  DualKeyRegistry: [accepted [] h] lists the additions with a new string (the others
    throw DuplicateKey and change nothing).  String lookup returns the object added under the
    string, numeric lookup the object added last under the number; missing keys are reported. *)
Theorem C17_registry_lookup : forall (T : Type) (n u : N) (h : list (string * N * T)) (d : dualreg T),
  n < 2 ^ 32 -> dk_run (dk_new n u) h = Ok d ->
  let l := accepted [] h in
  (forall s v, dk_lookup_s d s = Ok v <-> exists k, In (s, k, v) l) /\
  (forall s, dk_contains_s d s = true <-> exists k v, In (s, k, v) l) /\
  (forall s, dk_contains_s d s = false -> dk_lookup_s d s = Throw EStdOutOfRange) /\
  (forall k v, dk_lookup_n d k = Ok v <-> last_under k (map (fun p => (snd (fst p), snd p)) l) v) /\
  (forall k, dk_contains_n d k = true <-> exists s v, In (s, k, v) l) /\
  (forall k, dk_contains_n d k = false ->
     dk_lookup_n d k = Throw EUnassignedKey \/ dk_lookup_n d k = Throw EStdOutOfRange).
Proof. exact @C17_registry_lemma. Qed.
Print Assumptions C17_registry_lookup.
Example C17_registry_ex : exists d,
  dk_run (dk_new 10 3) [("add", 7, 1%nat); ("sub", 700, 2%nat); ("add", 8, 3%nat); ("mul", 7, 4%nat)] = Ok d /\
  dk_lookup_s d "add" = Ok 1%nat /\ dk_lookup_n d 7 = Ok 4%nat /\ dk_lookup_n d 8 = Throw EUnassignedKey.
Proof. eexists. repeat split. Qed.

(** A duplicate string is reported and nothing changes. *)
Theorem C17_registry_duplicate : forall (T : Type) (d : dualreg T) (s : string) (k : N) (v : T),
  dk_contains_s d s = true <-> dk_add d s k v = Throw EDuplicateKey.
Proof. exact @C17_duplicate_lemma. Qed.
Print Assumptions C17_registry_duplicate.
Example C17_registry_duplicate_ex : forall d, dk_add (@dk_new nat 10 3) "a" 1 5%nat = Ok d -> dk_contains_s d "a" = true.
Proof. intros d H. vm_compute in H. injection H as <-. reflexivity. Qed.

(** C13.  In every state reached by constructing registries, registering mnemonics and aliasing
    compressed mnemonics to their expansions: the UID of a mnemonic maps back to a mnemonic with that
    UID, to the mnemonic itself when it is not an alias. *)
Theorem C13_inverse : forall l w, urun world0 l = Ok w ->
  forall i r m, registry w i r -> has_uid r m ->
  ir_uid r m < wd_next w /\
  exists m0, ir_mnemonic r (ir_uid r m) = Ok m0 /\ ir_uid r m0 = ir_uid r m /\ (~ aliased l i m -> m0 = m).
Proof. exact C13_inverse_lemma. Qed.
Print Assumptions C13_inverse.
(** The converse; UID 0 is never assigned. *)
Theorem C13_inverse_back : forall l w, urun world0 l = Ok w ->
  forall i r u m, registry w i r -> ir_mnemonic r u = Ok m -> ir_uid r m = u /\ u <> INVALID_UID.
Proof. exact C13_back_lemma. Qed.
Print Assumptions C13_inverse_back.
(** Two mnemonics that are not aliases have different UIDs. *)
Theorem C13_unique : forall l w, urun world0 l = Ok w ->
  forall i r m m', registry w i r -> has_uid r m -> has_uid r m' ->
  ~ aliased l i m -> ~ aliased l i m' -> ir_uid r m = ir_uid r m' -> m = m'.
Proof. exact C13_unique_lemma. Qed.
Print Assumptions C13_unique.
(** Across contexts: UIDs the library chose are different. *)
Theorem C13_unique_across_contexts : forall l w, urun world0 l = Ok w ->
  forall i j r r' m m', i <> j -> registry w i r -> registry w j r' ->
  has_uid r m -> has_uid r' m' ->
  ~ aliased l i m -> ~ user_given l i m -> ~ aliased l j m' -> ~ user_given l j m' ->
  ir_uid r m <> ir_uid r' m'.
Proof. exact C13_cross_lemma. Qed.
Print Assumptions C13_unique_across_contexts.
(** A UID list given by the user is honoured. *)
Theorem C13_user_list : forall l w, urun world0 l = Ok w ->
  forall i r us m u, registry w i r -> nth_error (user_lists l) i = Some us -> In (m, u) us -> ir_uid r m = u.
Proof. exact C13_user_lemma. Qed.
Print Assumptions C13_user_list.
(** The list is accepted exactly when no UID is 0 and neither a UID nor a mnemonic is listed twice;
    otherwise an exception says which rule is broken.  (UIDs within 100 of 2^32 aside, see
    C13_large_uid_refuted.) *)
Theorem C13_user_list_accepted : forall w us, (forall m u, In (m, u) us -> u + DEFAULT_UP_SIZE < 2 ^ 32) ->
  let acceptable := NoDup (map fst us) /\ NoDup (map snd us) /\ ~ In INVALID_UID (map snd us) in
  (acceptable -> exists w', ustep w (UNew us) = Ok w') /\
  (~ acceptable -> exists e, ustep w (UNew us) = Throw e /\
     (e = EInstIDListInvalidUID \/ e = EInstIDListUIDNotUnique \/ e = EInstIDListAlreadyRegistered)).
Proof. exact user_list_lemma. Qed.
Print Assumptions C13_user_list_accepted.
Example C13_user_list_ex : (forall m u, In (m, u) [("add", 40); ("sub", 7); ("xor", 40)] -> u + DEFAULT_UP_SIZE < 2 ^ 32) /\
  ustep world0 (UNew [("add", 40); ("sub", 7); ("xor", 40)]) = Throw EInstIDListUIDNotUnique.
Proof. split; [|reflexivity]. intros m u I. repeat (destruct I as [I|I]; [injection I as <- <-; reflexivity|]). destruct I. Qed.
(** A mnemonic keeps the UID it got. *)
Theorem C13_stable : forall l w, urun world0 l = Ok w ->
  forall l' w' i r r' m, urun w l' = Ok w' -> registry w i r -> registry w' i r' ->
  has_uid r m -> ir_uid r' m = ir_uid r m.
Proof. exact C13_stable_lemma. Qed.
Print Assumptions C13_stable.

(** Registering uniquely: a mnemonic that has a UID is reported, any other one is registered. *)
Theorem C13_uniquely : forall l w, urun world0 l = Ok w ->
  forall i r m, registry w i r -> wd_next w + 1 < 2 ^ 32 ->
  (has_uid r m -> ir_register_uniquely r m (wd_next w) = Throw EBuildErrorDuplicateMnemonic) /\
  (~ has_uid r m -> ir_register_uniquely r m (wd_next w) = ir_register r m (wd_next w)).
Proof. exact uniquely_lemma. Qed.
Print Assumptions C13_uniquely.

Definition uid_script : list uop :=
  [UNew [("add", 40); ("sub", 7)]; UReg 0 "nop"; UReg 0 "addi"; UAlias 0 "c.addi" "addi";
   UNew []; UReg 1 "addi"; UReg 0 "addi"; UBump 100; UReg 1 "xor"].
Example C13_ex : exists w r0 r1, urun world0 uid_script = Ok w /\ registry w 0 r0 /\ registry w 1 r1 /\
  ir_uid r0 "sub" = 7 /\ ir_uid r0 "addi" = 42 /\ ir_uid r0 "c.addi" = 42 /\ ir_uid r1 "addi" = 43 /\
  ir_uid r1 "xor" = 101 /\ has_uid r0 "addi" /\ has_uid r1 "addi" /\
  ~ aliased uid_script 0 "addi" /\ ~ user_given uid_script 0 "addi".
Proof. exact C13_example. Qed.

(** A UID supplied by the user in one context may be one the library chose in another. *)
Theorem C13_unique_across_contexts_user_refuted : exists l w r r',
  urun world0 l = Ok w /\ registry w 0 r /\ registry w 1 r' /\
  ir_uid r "add" = ir_uid r' "sub" /\ has_uid r "add" /\ ~ user_given l 0 "add".
Proof. exact C13_user_refuted_lemma. Qed.
Print Assumptions C13_unique_across_contexts_user_refuted.
(** A user-supplied UID close to 2^32 is undefined behaviour. *)
Theorem C13_large_uid_refuted : exists u, u < 2 ^ 32 /\ u <> INVALID_UID /\ urun world0 [UNew [("add", u)]] = UB.
Proof. exists 4294967196. split; [reflexivity|split; [discriminate|vm_compute; reflexivity]]. Qed.
Print Assumptions C13_large_uid_refuted.
