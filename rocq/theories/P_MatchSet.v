(** Claim C54: sets of tags and patterns (MatchSet), and the tags of decoded instructions.  The
    specification is S_MatchSet: [mexp] are the ways to make a set through the API, [made_by] the
    set itself. *)
From Coq Require Import NArith List Bool String.
From Verif Require Import M_Base M_Meta M_Decoded M_Trie M_Builder M_DTable M_MatchSet.
From Verif Require Import S_Trie S_Table S_Shipped S_MatchSet L_MatchSet.
Import ListNotations.

(** C54.  isMember, isEmpty and getV tell the strings put into the set, however it was made. *)
Theorem C54_members : forall m,
  (forall s, ms_is_member (made_by m) s = true <-> member m s) /\
  (ms_is_empty (made_by m) = true <-> forall s, ~ member m s) /\
  (forall s, In s (ms_get (made_by m)) <-> member m s).
Proof. exact members_lemma. Qed.
Print Assumptions C54_members.
Example C54_members_ex : member (With (Vector ["c"; "i"]) (WithVector Nothing ["g"; "c"]))%string "g".
Proof. cbn. auto. Qed.
(** C54.  After a merge only the members count: merging is commutative, associative, idempotent. *)
Theorem C54_merge : forall m m', merged m -> merged m' -> (forall s, member m s <-> member m' s) -> made_by m = made_by m'.
Proof. exact canonical_lemma. Qed.
Print Assumptions C54_merge.
Example C54_merge_ex : let m := With (Vector ["c"; "i"]%string) (SetOf ["g"]%string) in let m' := WithVector (SetOf ["g"; "c"]%string) ["i"; "c"]%string in
  merged m /\ merged m' /\ (forall s, member m s <-> member m' s) /\ ms_get (made_by m) = ["c"; "g"; "i"]%string.
Proof. cbn. repeat split; intuition. Qed.
(** C54.  The queries are the quantifiers of their names over the members. *)
Theorem C54_match_one : forall P (mat : string -> P -> bool) m p,
  (match_any mat (made_by m) p = true <-> exists s, member m s /\ mat s p = true) /\
  (match_all mat (made_by m) p = true <-> forall s, member m s -> mat s p = true).
Proof. exact one_lemma. Qed.
Print Assumptions C54_match_one.
Theorem C54_match_two : forall mat m o,
  (M_MatchSet.match_any_any mat (made_by m) (made_by o) = true <-> exists s, member m s /\ exists p, member o p /\ mat s p = true) /\
  (match_any_all mat (made_by m) (made_by o) = true <-> exists s, member m s /\ forall p, member o p -> mat s p = true) /\
  (match_all_any mat (made_by m) (made_by o) = true <-> forall s, member m s -> exists p, member o p /\ mat s p = true) /\
  (match_all_all mat (made_by m) (made_by o) = true <-> forall s, member m s -> forall p, member o p -> mat s p = true).
Proof. exact two_lemma. Qed.
Print Assumptions C54_match_two.
Example C54_match_ex :
  match_any_all String.eqb (made_by (Vector ["c"; "i"]%string)) (made_by (Vector ["c"]%string)) = true /\
  match_all_any String.eqb (made_by (Vector ["c"; "i"]%string)) (made_by (Vector ["c"]%string)) = false.
Proof. split; reflexivity. Qed.
(** C54.  The tags of a decoded instruction: those of its record; of an overlay also those of the
    overlay's record; of a compressed instruction those of its expansion. *)
Theorem C54_tags : forall uids annos nu incl excl recs s, (0 < nu < w32)%N -> make_decoder uids annos nu incl excl recs = Ok s -> well_formed (kept incl excl recs) ->
  forall A U ic v, decode (A := A) (U := U) s ic = Ok v ->
  exists r e, listed (kept incl excl recs) r e /\ selected (encodings (kept incl excl recs)) e ic /\
   ((d_mnemonic (i_di v) = en_mn e /\ base_tag (kept incl excl recs) r (fun t => In t (mt_tags (i_meta v)))) \/
    (exists ro mask, In ro (kept incl excl recs) /\ overlays ro (d_mnemonic (i_di v)) (en_mn e) mask (N.land ic mask) /\
      forall t, In t (mt_tags (i_meta v)) <-> In t (r_tags r) \/ In t (r_tags ro))).
Proof. intros uids annos nu incl excl recs s HN HD WF A U. exact (tags_lemma uids annos nu incl excl recs s HN HD WF). Qed.
Print Assumptions C54_tags.
(** c.addi and mv. *)
Example C54_tags_ex : exists s v w, make_decoder [] [] 1 [] [] small = Ok s /\ well_formed (kept [] [] small) /\
  decode (A := unit) (U := unit) s 0x85 = Ok v /\ d_mnemonic (i_di v) = "c.addi"%string /\ mt_tags (i_meta v) = ["i"; "g"]%string /\
  decode (A := unit) (U := unit) s 0x8093 = Ok w /\ d_mnemonic (i_di w) = "mv"%string /\ mt_tags (i_meta w) = ["i"; "g"; "i"; "g"]%string.
Proof. exact tags_case. Qed.
(** C54 as a user would expect it, an instruction has the tags of its record, is false: c.addi
    does not have the tag "c". *)
Theorem C54_tags_refuted : exists recs s ic v r t, make_decoder [] [] 1 [] [] recs = Ok s /\ well_formed (kept [] [] recs) /\
  decode (A := unit) (U := unit) s ic = Ok v /\ In r recs /\ is_inst r (d_mnemonic (i_di v)) /\ In t (r_tags r) /\ ~ In t (mt_tags (i_meta v)).
Proof. exact untagged_lemma. Qed.
Print Assumptions C54_tags_refuted.
