(** Claims about instructions that share a factory (C60).  [kept incl excl recs] are the records
    the tag filters leave; [member] and [founder] are in S_Founder, the rest in S_Table. *)
From Coq Require Import NArith List Bool String.
From Verif Require Import M_Base M_Meta M_Decoded M_Builder M_DTable S_Trie S_Table S_Founder S_FounderC L_Claims L_Founder L_FounderCases L_FounderC L_FounderCCases.
Import ListNotations.
Local Open Scope string_scope.
Local Open Scope N_scope.

(** C60.  The meta-data of a decoded instruction that is neither compressed nor an overlay is
    that of the first record which asks for the same factory, whatever its own record says. *)
Theorem C60_first : forall uids annos nu incl excl recs s, make_decoder uids annos nu incl excl recs = Ok s ->
  separated (encodings (kept incl excl recs)) -> forall (A U : Type) ic v, decode (A := A) (U := U) s ic = Ok v ->
  exists r e, listed (kept incl excl recs) r e /\ selected (encodings (kept incl excl recs)) e ic /\
    ((forall mn mask, ~ overlay_hit (kept incl excl recs) mn (en_mn e) mask ic) -> r_expand r = "" ->
     forall r0, alone (kept incl excl recs) (fname_of r (en_mn e)) -> founder (kept incl excl recs) (fname_of r (en_mn e)) r0 ->
     own_meta r0 = Ok (i_meta v)).
Proof. intros uids annos nu incl excl recs s HD HS A U. exact (first_lemma uids annos nu incl excl recs s HD HS). Qed.
Print Assumptions C60_first.
(** C60.  The opcode that is looked up by the name of an instruction is the stencil of that
    first record. *)
Theorem C60_opcode : forall uids annos nu incl excl recs s, make_decoder uids annos nu incl excl recs = Ok s ->
  separated (encodings (kept incl excl recs)) -> forall r mn r0, In r (kept incl excl recs) -> is_inst r mn -> r_expand r = "" ->
  alone (kept incl excl recs) (fname_of r mn) -> founder (kept incl excl recs) (fname_of r mn) r0 ->
  get_opcode s mn = Ok (r_stencil r0).
Proof. exact opcode_first_lemma. Qed.
Print Assumptions C60_opcode.
(** C60 is not what the records say: lw, sharing a factory with addi, is decoded as no load of
    32 bits but as arithmetic; *)
Theorem C60_meta_refuted : exists recs s ic v r m, make_decoder [] [] 1 [] [] recs = Ok s /\ (forall r, In r recs -> r_overlay r = None) /\
  decode (A := unit) (U := unit) s ic = Ok v /\ In r recs /\ is_inst r (d_mnemonic (i_di v)) /\ r_expand r = "" /\ own_meta r = Ok m /\
  mt_types m = N.lor IT_INT IT_LOAD /\ mt_data m = 32 /\ mt_types (i_meta v) = N.lor IT_INT IT_ARITH /\ mt_data (i_meta v) = 0.
Proof. exact meta_refuted. Qed.
Print Assumptions C60_meta_refuted.
(** in the shipped isa_rv64zicsr.json, the opcode looked up for csrrs is that of csrrw; *)
Theorem C60_opcode_refuted : exists s r, make_decoder [] [] 1 [] [] zicsr = Ok s /\ In r zicsr /\ is_inst r "csrrs" /\
  r_stencil r = 0x2073 /\ get_opcode s "csrrs" = Ok 0x1073.
Proof. exact opcode_refuted. Qed.
Print Assumptions C60_opcode_refuted.
(** and adding an overlay of addi takes away an overlay of lw. *)
Theorem C60_overlay_refuted : exists recs recs' s s' ic r, make_decoder [] [] 1 [] [] recs = Ok s /\ make_decoder [] [] 1 [] [] recs' = Ok s' /\
  recs' = (recs ++ [r])%list /\ (exists mask value, overlays r "mv" "addi" mask value) /\
  name_of (decode (A := unit) (U := unit) s ic) = Ok "lz" /\ name_of (decode (A := unit) (U := unit) s' ic) = Ok "lw".
Proof. exact hidden_refuted. Qed.
Print Assumptions C60_overlay_refuted.

(** addi and lw share a factory; lw is decoded and no overlay hits. *)
Example C60_first_ex : exists s v, make_decoder [] [] 1 [] [] shared = Ok s /\ separated (encodings (kept [] [] shared)) /\
  alone (kept [] [] shared) "unit" /\ founder (kept [] [] shared) "unit" addi_rec /\ fname_of lw_rec "lw" = "unit" /\
  (forall mn base mask ic, ~ overlay_hit (kept [] [] shared) mn base mask ic) /\
  decode (A := unit) (U := unit) s 0x12003 = Ok v /\ d_mnemonic (i_di v) = "lw".
Proof.
  destruct shared_case as (s & v & E & D & M & _), shared_ok as (S & A & F). exists s, v.
  repeat (split; [first [assumption|reflexivity|exact no_overlays]|]). exact M.
Qed.
(** The shipped table of the six CSR instructions. *)
Example C60_opcode_ex : exists s, make_decoder [] [] 1 [] [] zicsr = Ok s /\ separated (encodings (kept [] [] zicsr)) /\
  In csrrs_rec (kept [] [] zicsr) /\ is_inst csrrs_rec "csrrs" /\ r_expand csrrs_rec = "" /\ alone (kept [] [] zicsr) (fname_of csrrs_rec "csrrs") /\
  founder (kept [] [] zicsr) (fname_of csrrs_rec "csrrs") csrrw_rec /\ get_opcode s "csrrs" = Ok 0x1073.
Proof.
  destruct zicsr_case as (s & E & Q & _), zicsr_ok as (S & A & F), csrrs_in as (H1 & H2 & H3 & _). exists s.
  split; [exact E|]. split; [exact S|]. split; [rewrite kept_all; exact H1|]. split; [exact H2|]. split; [exact H3|]. split; [exact A|]. split; [exact F|exact Q].
Qed.

(** C60.  The meta-data of a compressed instruction is that of the first record which asks for the
    factory of the instruction it expands to, with its own merged in -- whatever the record of that
    instruction says.  (Its expansion is an instruction of the table, and no other one asks for a
    factory of that name.) *)
Theorem C60_compressed : forall uids annos nu incl excl recs s, make_decoder uids annos nu incl excl recs = Ok s ->
  separated (encodings (kept incl excl recs)) -> forall (A U : Type) ic v, decode (A := A) (U := U) s ic = Ok v ->
  exists r e, listed (kept incl excl recs) r e /\ selected (encodings (kept incl excl recs)) e ic /\
    ((forall mn mask, ~ overlay_hit (kept incl excl recs) mn (en_mn e) mask ic) -> r_expand r <> "" -> ~ custom (en_mn e) ->
     own_name (kept incl excl recs) (r_expand r) ->
     forall rx r0, In rx (kept incl excl recs) -> is_inst rx (r_expand r) -> r_expand rx = "" ->
     alone (kept incl excl recs) (fname_of rx (r_expand r)) -> founder (kept incl excl recs) (fname_of rx (r_expand r)) r0 ->
     exists m0 m, own_meta r0 = Ok m0 /\ own_meta r = Ok m /\ i_meta v = meta_merge m0 m).
Proof. intros uids annos nu incl excl recs s HD HS A U. exact (compressed_lemma uids annos nu incl excl recs s HD HS). Qed.
Print Assumptions C60_compressed.
(** addi and lw share a factory and c.lw expands to lw: c.lw is decoded as arithmetic. *)
Example C60_compressed_ex : exists s v, make_decoder [] [] 1 [] [] shared_c = Ok s /\ separated (encodings (kept [] [] shared_c)) /\
  alone (kept [] [] shared_c) "unit" /\ founder (kept [] [] shared_c) "unit" addi_rec /\ own_name (kept [] [] shared_c) "lw" /\
  In lw_rec (kept [] [] shared_c) /\ is_inst lw_rec "lw" /\ r_expand lw_rec = "" /\ fname_of lw_rec "lw" = "unit" /\
  In clw_rec (kept [] [] shared_c) /\ is_inst clw_rec "c.lw" /\ r_expand clw_rec = "lw" /\
  (forall mn base mask ic, ~ overlay_hit (kept [] [] shared_c) mn base mask ic) /\
  decode (A := unit) (U := unit) s 0x4000 = Ok v /\ d_mnemonic (i_di v) = "c.lw" /\ mt_types (i_meta v) = N.lor IT_INT IT_ARITH.
Proof.
  destruct shared_c_case as (s & v & E & D & M & Q & _), shared_c_ok as (S & A & F & O & I1 & I2). exists s, v. injection Q as Q1 Q2.
  do 6 (split; [assumption|]). split; [split; reflexivity|]. do 2 (split; [reflexivity|]). split; [exact I2|].
  split; [split; reflexivity|]. split; [reflexivity|]. split; [exact no_overlays_c|]. auto.
Qed.
