(** Claims about instructions called nop or cmov (C72).  Two instructions of these names exist
    before any record is read; [custom] and [built_in] are in S_Table, [stays] in S_Builtin,
    [either] in S_Anno. *)
From Coq Require Import NArith List Bool String.
From Verif Require Import M_Base M_Meta M_Decoded M_Builder M_DTable S_Trie S_Table S_Anno S_Builtin L_Builtin L_BuiltinCases.
Import ListNotations.
Local Open Scope string_scope.
Local Open Scope N_scope.

(** C72.  A decoded instruction that is neither compressed nor an overlay, whatever its name,
    reports its own name and the UID looked up by it; if the factory it asks for is nop or cmov,
    its meta-data is that of the built-in instruction. *)
Theorem C72_builtin : forall uids annos nu incl excl recs s, make_decoder uids annos nu incl excl recs = Ok s ->
  separated (encodings (kept incl excl recs)) -> forall (A U : Type) ic v, decode (A := A) (U := U) s ic = Ok v ->
  exists r e, listed (kept incl excl recs) r e /\ selected (encodings (kept incl excl recs)) e ic /\
    ((forall mn mask, ~ overlay_hit (kept incl excl recs) mn (en_mn e) mask ic) -> r_expand r = "" ->
     d_mnemonic (i_di v) = en_mn e /\ d_uid (i_di v) = lookup_uid s (en_mn e) /\
     (custom (fname_of r (en_mn e)) -> stays (kept incl excl recs) (fname_of r (en_mn e)) ->
      built_in (fname_of r (en_mn e)) (i_meta v) /\ i_anno v = either annos (fname_of r (en_mn e)) (en_mn e)) /\
     (alone (kept incl excl recs) (fname_of r (en_mn e)) -> i_anno v = either annos (fname_of r (en_mn e)) (en_mn e))).
Proof. intros uids annos nu incl excl recs s HD HS A U. exact (builtin_lemma uids annos nu incl excl recs s HD HS). Qed.
Print Assumptions C72_builtin.
(** C72.  The opcode looked up by the name of such an instruction is 0. *)
Theorem C72_opcode : forall uids annos nu incl excl recs s, make_decoder uids annos nu incl excl recs = Ok s ->
  forall r mn, In r (kept incl excl recs) -> is_inst r mn -> r_expand r = "" ->
  custom (fname_of r mn) -> stays (kept incl excl recs) (fname_of r mn) -> get_opcode s mn = Ok 0.
Proof. exact opcode_lemma. Qed.
Print Assumptions C72_opcode.
(** C72 is not what the records say: a load of 32 bits that is called cmov is decoded as a
    conditional move without data, and the opcode looked up by its name is not its own. *)
Theorem C72_own_refuted : exists recs annos s ic v r m, make_decoder [] annos 1 [] [] recs = Ok s /\ decode (A := unit) (U := unit) s ic = Ok v /\
  In r recs /\ is_inst r (d_mnemonic (i_di v)) /\ r_expand r = "" /\ r_factory r = None /\ own_meta r = Ok m /\
  mt_types m = N.lor IT_INT IT_LOAD /\ mt_data m = 32 /\ mt_types (i_meta v) = N.lor IT_INT (N.lor IT_CONDITIONAL IT_MOVE) /\ mt_data (i_meta v) = 0 /\
  r_stencil r = 0x2003 /\ get_opcode s (d_mnemonic (i_di v)) = Ok 0.
Proof. exact own_refuted. Qed.
Print Assumptions C72_own_refuted.
(** C72 is false of compressed instructions too (without any UID list, see C14_lookup_refuted): c.addi called nop
    reports the UID of addi, and another one is looked up by its name. *)
Theorem C72_compressed_refuted : exists recs s ic v r, make_decoder [] [] 1 [] [] recs = Ok s /\ decode (A := unit) (U := unit) s ic = Ok v /\
  In r recs /\ is_inst r (d_mnemonic (i_di v)) /\ r_expand r = "addi" /\ d_uid (i_di v) = lookup_uid s "addi" /\
  d_uid (i_di v) <> lookup_uid s (d_mnemonic (i_di v)).
Proof. exact short_refuted. Qed.
Print Assumptions C72_compressed_refuted.

(** lw under the name cmov, and addi with the factory nop; both are annotated. *)
Example C72_ex : exists s, make_decoder [] pipes 1 [] [] taken = Ok s /\ separated (encodings (kept [] [] taken)) /\
  (forall mn base mask ic, ~ overlay_hit (kept [] [] taken) mn base mask ic) /\
  In cmov_rec (kept [] [] taken) /\ is_inst cmov_rec "cmov" /\ r_expand cmov_rec = "" /\ custom (fname_of cmov_rec "cmov") /\
  stays (kept [] [] taken) (fname_of cmov_rec "cmov") /\
  In addin_rec (kept [] [] taken) /\ is_inst addin_rec "addi" /\ r_expand addin_rec = "" /\ custom (fname_of addin_rec "addi") /\
  stays (kept [] [] taken) (fname_of addin_rec "addi") /\ get_opcode s "cmov" = Ok 0 /\ get_opcode s "addi" = Ok 0 /\
  (exists v, decode (A := unit) (U := unit) s 0x12003 = Ok v /\ d_mnemonic (i_di v) = "cmov" /\ mt_types (i_meta v) = N.lor IT_INT (N.lor IT_CONDITIONAL IT_MOVE) /\
     mt_data (i_meta v) = 0 /\ i_anno v = Some [[("pipe", "c")]]) /\
  (exists v, decode (A := unit) (U := unit) s 0x13 = Ok v /\ d_mnemonic (i_di v) = "addi" /\ mt_types (i_meta v) = N.lor IT_INT IT_ARITH /\
     mt_data (i_meta v) = 0 /\ i_anno v = Some [[("pipe", "n")]]).
Proof.
  destruct taken_case as (s & E & O1 & O2 & V1 & V2), taken_ok as (S & S1 & S2 & NO), taken_in as (A1 & A2 & A3 & A4 & A5 & A6 & A7 & A8).
  exists s. rewrite A4, A8. split; [exact E|]. split; [exact S|]. split; [exact NO|]. do 3 (split; [assumption|]). split; [now right|]. split; [exact S2|].
  do 3 (split; [assumption|]). split; [now left|]. split; [exact S1|]. auto.
Qed.
