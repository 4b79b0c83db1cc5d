(** Claim C61: what an opcode decodes to depends on the records that concern it only. *)
From Coq Require Import NArith List String.
From Verif Require Import M_Base M_Decoded M_Builder M_DTable S_Trie S_Table S_Local L_Local L_LocalCases L_LocalAnno L_LocalAnnoCases.
Import ListNotations.
Local Open Scope N_scope.

(** C61 (partial: see C61_every_refuted).  Two decoders, whatever their other records, their filters, UID lists, annotations and UID
    counters are, answer alike but for UIDs and annotations for an opcode that concerns the same
    records of both. *)
Theorem C61_local_partial : forall uids uids' annos annos' nu nu' incl excl incl' excl' recs recs' s s' ic,
  0 < nu < w32 -> 0 < nu' < w32 ->
  make_decoder uids annos nu incl excl recs = Ok s -> make_decoder uids' annos' nu' incl' excl' recs' = Ok s' ->
  well_formed (kept incl excl recs) -> well_formed (kept incl' excl' recs') ->
  (forall r, concerns (kept incl excl recs) ic r <-> concerns (kept incl' excl' recs') ic r) ->
  forall A U, same_answer (decode (A := A) (U := U) s ic) (decode (A := A) (U := U) s' ic).
Proof. exact local_lemma. Qed.
Print Assumptions C61_local_partial.
Example C61_local_ex : exists s s', make_decoder [] [] 1 [] [] start = Ok s /\ make_decoder [] [] 9 [] [] (start ++ more) = Ok s' /\
  well_formed (kept [] [] start) /\ well_formed (kept [] [] (start ++ more)) /\
  (forall r, concerns (kept [] [] start) 0x85 r <-> concerns (kept [] [] (start ++ more)) 0x85 r) /\
  exists v, decode (A := unit) (U := unit) s 0x85 = Ok v /\ d_mnemonic (i_di v) = "c.addi"%string.
Proof. exact local_case. Qed.

(** Adding records at the end leaves the answer for every opcode alone that none of them matches
    or overlays, whether it was an instruction or an exception. *)
Theorem C61_extend_partial : forall uids uids' annos annos' nu nu' incl excl recs more s s' ic,
  0 < nu < w32 -> 0 < nu' < w32 ->
  make_decoder uids annos nu incl excl recs = Ok s -> make_decoder uids' annos' nu' incl excl (recs ++ more) = Ok s' ->
  well_formed (kept incl excl recs) -> well_formed (kept incl excl (recs ++ more)) ->
  unconcerned (kept incl excl more) ic ->
  forall A U, same_answer (decode (A := A) (U := U) s ic) (decode (A := A) (U := U) s' ic).
Proof. exact @extend_lemma. Qed.
Print Assumptions C61_extend_partial.
(** With the same UID list and counter, the UID too is the same. *)
Theorem C61_extend_uid_partial : forall uids annos nu incl excl recs more s s' ic, 0 < nu < w32 ->
  make_decoder uids annos nu incl excl recs = Ok s -> make_decoder uids annos nu incl excl (recs ++ more) = Ok s' ->
  well_formed (kept incl excl recs) -> well_formed (kept incl excl (recs ++ more)) ->
  unconcerned (kept incl excl more) ic ->
  forall A U, same_and_uid (decode (A := A) (U := U) s ic) (decode (A := A) (U := U) s' ic).
Proof. exact extend_uid. Qed.
Print Assumptions C61_extend_uid_partial.
Example C61_extend_ex : exists s s', make_decoder [] [] 1 [] [] start = Ok s /\ make_decoder [] [] 1 [] [] (start ++ more) = Ok s' /\
  well_formed (kept [] [] start) /\ well_formed (kept [] [] (start ++ more)) /\
  unconcerned (kept [] [] more) 0x8093 /\ unconcerned (kept [] [] more) 0x85 /\
  (exists v, decode (A := unit) (U := unit) s 0x8093 = Ok v /\ d_mnemonic (i_di v) = "mv"%string) /\
  (exists v v', decode (A := unit) (U := unit) s 0x13 = Ok v /\ decode (A := unit) (U := unit) s' 0x13 = Ok v' /\
     d_mnemonic (i_di v) = "mv"%string /\ d_mnemonic (i_di v') = "nop"%string).
Proof. exact extend_case. Qed.
(** With the same annotation list, the annotation too is the same, in either situation. *)
Theorem C61_local_anno_partial : forall uids uids' annos nu nu' incl excl incl' excl' recs recs' s s' ic,
  0 < nu < w32 -> 0 < nu' < w32 ->
  make_decoder uids annos nu incl excl recs = Ok s -> make_decoder uids' annos nu' incl' excl' recs' = Ok s' ->
  well_formed (kept incl excl recs) -> well_formed (kept incl' excl' recs') ->
  (forall r, concerns (kept incl excl recs) ic r <-> concerns (kept incl' excl' recs') ic r) ->
  forall A U v v', decode (A := A) (U := U) s ic = Ok v -> decode (A := A) (U := U) s' ic = Ok v' -> i_anno v = i_anno v'.
Proof. exact local_anno. Qed.
Print Assumptions C61_local_anno_partial.
Example C61_local_anno_ex : exists s s', make_decoder [] notes 1 [] [] start = Ok s /\ make_decoder [] notes 1 [] [] (start ++ more) = Ok s' /\
  well_formed (kept [] [] start) /\ well_formed (kept [] [] (start ++ more)) /\
  (forall r, concerns (kept [] [] start) 0x85 r <-> concerns (kept [] [] (start ++ more)) 0x85 r) /\
  exists v, decode (A := unit) (U := unit) s 0x85 = Ok v /\ i_anno v = Some [[("pipe", "i")]]%string.
Proof. exact local_anno_case. Qed.
Theorem C61_extend_anno_partial : forall uids uids' annos nu nu' incl excl recs more s s' ic,
  0 < nu < w32 -> 0 < nu' < w32 ->
  make_decoder uids annos nu incl excl recs = Ok s -> make_decoder uids' annos nu' incl excl (recs ++ more) = Ok s' ->
  well_formed (kept incl excl recs) -> well_formed (kept incl excl (recs ++ more)) ->
  unconcerned (kept incl excl more) ic ->
  forall A U v v', decode (A := A) (U := U) s ic = Ok v -> decode (A := A) (U := U) s' ic = Ok v' -> i_anno v = i_anno v'.
Proof. exact extend_anno. Qed.
Print Assumptions C61_extend_anno_partial.
Example C61_extend_anno_ex : exists s s', make_decoder [] notes 1 [] [] start = Ok s /\ make_decoder [] notes 1 [] [] (start ++ more) = Ok s' /\
  well_formed (kept [] [] start) /\ well_formed (kept [] [] (start ++ more)) /\
  unconcerned (kept [] [] more) 0x8093 /\
  exists v, decode (A := unit) (U := unit) s 0x8093 = Ok v /\ i_anno v = Some [[("pipe", "m")]]%string.
Proof. exact anno_case. Qed.
(** Adding records at the end to any accepted table leaves every UID that was assigned alone. *)
Theorem C61_ids : forall uids annos nu incl excl recs more s s',
  make_decoder uids annos nu incl excl recs = Ok s -> make_decoder uids annos nu incl excl (recs ++ more) = Ok s' ->
  forall mn, lookup_uid s mn <> 0 -> lookup_uid s' mn = lookup_uid s mn.
Proof. exact extend_ids. Qed.
Print Assumptions C61_ids.
Example C61_ids_ex : exists s s', make_decoder [] [] 1 [] [] start = Ok s /\ make_decoder [] [] 1 [] [] (start ++ more) = Ok s' /\
  lookup_uid s "c.addi" <> 0 /\ lookup_uid s "lw" = 0 /\ lookup_uid s' "lw" <> 0.
Proof. exact ids_case. Qed.
(** C61 for every accepted table is false: c.jalr, added to a well-formed table with c.ebreak,
    takes over the opcode 0x9086, which it does not match and which was unknown before. *)
Theorem C61_every_refuted : exists recs more s s' ic v, make_decoder [] [] 1 [] [] recs = Ok s /\
  make_decoder [] [] 1 [] [] (recs ++ more) = Ok s' /\ well_formed recs /\ unconcerned more ic /\
  decode (A := unit) (U := unit) s ic = Throw EUnknownOpcode /\
  decode (A := unit) (U := unit) s' ic = Ok v /\ exists r, In r more /\ is_inst r (d_mnemonic (i_di v)).
Proof. exact extend_refuted_lemma. Qed.
Print Assumptions C61_every_refuted.
