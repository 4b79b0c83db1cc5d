(** Claim C52: makeInst from a trace record.  The specification is S_TraceRecord; operations and
    answers as in S_History ([OTrace ic mn x a]: the opcode, the mnemonic, the extractor of the
    record, the arguments of the object). *)
From Coq Require Import NArith List Bool String.
From Verif Require Import M_Base M_Field M_Forms M_Meta M_OperandInfo M_Extract M_Decoded M_Registry M_Trie M_Builder M_DTable M_Direct.
From Verif Require Import S_Bits S_Maps S_Trie S_History S_Table S_Anno S_Shipped S_TraceRecord L_TraceRecord L_TraceKnown L_TraceBuiltin.
Import ListNotations.
Local Open Scope N_scope.

(** C52.  In any state: a record of an opcode that makeInst refuses, or that makeInst gives the
    record's mnemonic, is answered like makeInst; the record's registers are not looked at. *)
Theorem C52_decoder_first : forall A U (u0 : U) (d : dt A U) ic mn x a,
  (forall k o, snd (step u0 d (OMake ic a)) = Ok (AObj k o) -> ob_mnemonic o = mn) ->
  snd (step u0 d (OTrace ic mn x a)) = snd (step u0 d (OMake ic a)).
Proof. intros A U. exact decoder_first_lemma. Qed.
Print Assumptions C52_decoder_first.
(** addi x1, x1, 1, called addi. *)
Example C52_decoder_first_ex : exists (s : builder * tree) k o, make_decoder [] [] 1 [] [] small = Ok s /\
  snd (run (A := N) (U := N) 0 (dt_new s) [OMake 0x108093 1]) = [Ok (AObj k o)] /\ ob_mnemonic o = "addi"%string.
Proof. exact first_case. Qed.
(** C52 (partial: not the first record of a name the decoder does not know yet, see below).  After
    any calls, a record with a mnemonic that getOpcode does not know, for an opcode that is another
    instruction: the object has the record's mnemonic, opcode, registers and immediate, the
    annotation of its mnemonic, and the non-zero number that lookupInstructionUniqueID gives from
    then on. *)
Theorem C52_new_name_partial : forall A U (u0 : U) uids annos nu incl excl recs s, 0 < nu < w32 ->
  make_decoder uids annos nu incl excl recs = Ok s ->
  forall (h : list (op A U)) ic mn srcs dsts imm a k o, srcs < 2 ^ 64 -> dsts < 2 ^ 64 ->
  let d := fst (run u0 (dt_new s) h) in
  numbers_left d -> snd (step u0 d (OMake ic a)) = Ok (AObj k o) -> ob_mnemonic o <> mn ->
  opcode_now d mn = Throw EUnknownMnemonic ->
  let p := step u0 d (OTrace ic mn (trace_ext srcs dsts imm) a) in
  exists k' v, snd p = Ok (AObj k' (mkObj v a u0)) /\ traced mn ic srcs dsts imm v /\ i_anno v = mfind annos mn /\
    d_uid (i_di v) = uid_now (fst p) mn /\ d_uid (i_di v) <> 0.
Proof. intros A U. exact record_lemma. Qed.
Print Assumptions C52_new_name_partial.
(** addi x1, x1, 1 called foo, after c.addi x1, 1 called bar. *)
Example C52_new_name_ex : exists s k o, make_decoder [] [] 1 [] [] small = Ok s /\
  let d := fst (run 0 (dt_new s) [OMake 0x85 1; OTrace 0x85 "bar" (trace_ext 2 4 0) 1; OGetInfo 0x108093]) in
  numbers_left d /\ snd (step 0 d (OMake 0x108093 2)) = Ok (AObj k o) /\ ob_mnemonic o <> "foo"%string /\
  opcode_now d "foo" = Throw EUnknownMnemonic.
Proof. exact new_name_case. Qed.
(** C52 (partial: well-formed tables; no earlier record for the opcode; not a name of the same
    family, nor one with an overlay that fits, see below).  After any other calls, a record with
    the name of an instruction, for an opcode of an instruction made by another factory: the object
    has the record's mnemonic, opcode, registers and immediate, and the annotation (its factory's or
    its own), the number and the meta-data of the instruction whose name it has. *)
Theorem C52_known_name_partial : forall A U (u0 : U) uids annos nu incl excl recs s, 0 < nu < w32 ->
  make_decoder uids annos nu incl excl recs = Ok s ->
  let K := kept incl excl recs in well_formed K ->
  forall (h : list (op A U)) r ic mn srcs dsts imm a k o, srcs < 2 ^ 64 -> dsts < 2 ^ 64 ->
  let d := fst (run u0 (dt_new s) h) in
  ~ recorded h ic -> snd (step u0 d (OMake ic a)) = Ok (AObj k o) -> ob_mnemonic o <> mn ->
  In r K -> is_inst r mn -> r_expand r = ""%string -> ~ custom mn ->
  (forall r' e, listed K r' e -> selected (encodings K) e ic -> fname_of r' (en_mn e) <> fname_of r mn /\ r_expand r' <> fname_of r mn) ->
  (forall n mask, ~ overlay_hit K n mn mask ic) ->
  let p := step u0 d (OTrace ic mn (trace_ext srcs dsts imm) a) in
  exists k' v, snd p = Ok (AObj k' (mkObj v a u0)) /\ repeats mn ic srcs dsts imm v /\ i_anno v = either annos (fname_of r mn) mn /\
    own_meta r = Ok (i_meta v) /\ d_uid (i_di v) = uid_now (fst p) mn /\ d_uid (i_di v) <> 0.
Proof. intros A U. exact known_lemma. Qed.
Print Assumptions C52_known_name_partial.
(** add a0, a0, a1 called sub, after c.addi x1, 1 called sub; sub and xor share a factory. *)
Example C52_known_name_ex : exists s k o r, make_decoder [] [] 1 [] [] family = Ok s /\ well_formed family /\
  let h := [OMake 0x108093 1; OTrace 0x85 "sub" (trace_ext 2 4 0) 1; OMake 0x00B50533 2] in
  ~ recorded h 0x00B50533 /\
  snd (step 0 (fst (run 0 (dt_new s) h)) (OMake 0x00B50533 2)) = Ok (AObj k o) /\ ob_mnemonic o = "add"%string /\
  In r family /\ is_inst r "sub" /\ r_expand r = ""%string /\ ~ custom "sub" /\ fname_of r "sub" = "alu"%string /\
  (forall r' e, listed family r' e -> selected (encodings family) e 0x00B50533 -> fname_of r' (en_mn e) <> "alu"%string /\ r_expand r' <> "alu"%string) /\
  (forall n mask, ~ overlay_hit family n "sub" mask 0x00B50533).
Proof. exact known_case. Qed.
(** C52 (partial: well-formed tables; no earlier record for the opcode; not an opcode that is
    compressed into the name).  After any other calls, a record called nop or cmov, when no
    instruction of the table has that name: the object has the record's mnemonic, opcode, registers
    and immediate, and the annotation, the number and the meta-data of the built-in instruction. *)
Theorem C52_builtin_name_partial : forall A U (u0 : U) uids annos nu incl excl recs s, 0 < nu < w32 ->
  make_decoder uids annos nu incl excl recs = Ok s ->
  let K := kept incl excl recs in well_formed K ->
  forall (h : list (op A U)) ic mn srcs dsts imm a k o, srcs < 2 ^ 64 -> dsts < 2 ^ 64 ->
  let d := fst (run u0 (dt_new s) h) in
  ~ recorded h ic -> snd (step u0 d (OMake ic a)) = Ok (AObj k o) -> ob_mnemonic o <> mn ->
  untouched K mn ->
  (forall r' e, listed K r' e -> selected (encodings K) e ic -> r_expand r' <> mn) ->
  let p := step u0 d (OTrace ic mn (trace_ext srcs dsts imm) a) in
  exists k' v, snd p = Ok (AObj k' (mkObj v a u0)) /\ repeats mn ic srcs dsts imm v /\ i_anno v = mfind annos mn /\
    built_in mn (i_meta v) /\ d_uid (i_di v) = uid_now (fst p) mn /\ d_uid (i_di v) <> 0.
Proof. intros A U. exact builtin_lemma. Qed.
Print Assumptions C52_builtin_name_partial.
(** add a0, a0, a1 called nop, after c.addi x1, 1 called nop. *)
Example C52_builtin_name_ex : exists s k o, make_decoder [] [] 1 [] [] family = Ok s /\ well_formed family /\
  let h := [OMake 0x108093 1; OTrace 0x85 "nop" (trace_ext 2 4 0) 1; OMake 0x00B50533 2] in
  ~ recorded h 0x00B50533 /\
  snd (step 0 (fst (run 0 (dt_new s) h)) (OMake 0x00B50533 2)) = Ok (AObj k o) /\ ob_mnemonic o = "add"%string /\
  untouched family "nop" /\ (forall r' e, listed family r' e -> selected (encodings family) e 0x00B50533 -> r_expand r' <> "nop"%string).
Proof. exact builtin_case. Qed.
(** C52 is false of a name with an overlay that fits the opcode: add a0, a1, x0, which the record
    calls addi, is reported as mv, with registers that are not the record's. *)
Theorem C52_overlay_refuted : exists recs (s : builder * tree) ic mn k o k' o',
  make_decoder [] [] 1 [] [] recs = Ok s /\ ic < 2 ^ 32 /\
  snd (run (A := N) (U := N) 0 (dt_new s) [OMake ic 1; OTrace ic mn (trace_ext 0x60 0x80 9) 1]) = [Ok (AObj k o); Ok (AObj k' o')] /\
  ob_mnemonic o <> mn /\ ob_mnemonic o' <> mn /\ ob_mnemonic o' <> ob_mnemonic o /\
  d_sources (i_di (ob_info o')) <> 0x60 /\ d_dests (i_di (ob_info o')) <> 0x80.
Proof. exact overlaid_lemma. Qed.
Print Assumptions C52_overlay_refuted.
(** C52 is false of the second record of a name and an opcode: the object has the registers and
    the immediate of the first. *)
Theorem C52_repeat_refuted : exists recs (s : builder * tree) ic mn k o k' o',
  make_decoder [] [] 1 [] [] recs = Ok s /\ ic < 2 ^ 32 /\
  snd (run (A := N) (U := N) 0 (dt_new s) [OTrace ic mn (trace_ext 2 4 0) 1; OTrace ic mn (trace_ext 0x60 0x80 9) 1])
    = [Ok (AObj k o); Ok (AObj k' o')] /\
  ob_mnemonic o' = mn /\ d_sources (i_di (ob_info o')) = 2 /\ d_dests (i_di (ob_info o')) = 4 /\ d_imm (i_di (ob_info o')) = 0.
Proof. exact repeat_lemma. Qed.
Print Assumptions C52_repeat_refuted.
(** C52 is false of a compressed instruction that the record calls by the name of its expansion:
    the record is not used, and the object does not have its mnemonic. *)
Theorem C52_expansion_refuted : exists recs (s : builder * tree) ic mn k o k' o',
  make_decoder [] [] 1 [] [] recs = Ok s /\ ic < 2 ^ 32 /\
  snd (run (A := N) (U := N) 0 (dt_new s) [OMake ic 1; OTrace ic mn (trace_ext 0x60 0x80 9) 1]) = [Ok (AObj k o); Ok (AObj k' o')] /\
  ob_mnemonic o <> mn /\ ob_mnemonic o' <> mn /\ d_sources (i_di (ob_info o')) <> 0x60 /\ d_dests (i_di (ob_info o')) <> 0x80.
Proof. exact expansion_lemma. Qed.
Print Assumptions C52_expansion_refuted.
