(** Claim C65: the typed register masks (getSourceRegs and getDestRegs by type) against the
    operand lists. *)
From Coq Require Import NArith List Bool String.
From Verif Require Import M_Base M_Meta M_OperandInfo M_Extract M_Decoded M_Builder M_DTable S_Table S_Shipped S_Classes S_Widths L_Exact L_ExactClaims.
Import ListNotations.
Local Open Scope N_scope.

(** C65.  For every format that reads its types where it reads its registers, and meta-data that
    gives no operand two types: the mask of a type is the set of the operands of that type. *)
Theorem C65_regular_partial : forall c ffm m ic n u d p, ~ In c (coarse p) -> typed_once p c ffm m ->
  decode_info n u (ext c ffm) m ic = Ok d -> masks_exact p d.
Proof. exact C65_regular_lemma. Qed.
Print Assumptions C65_regular_partial.
(** C65.  The same for every instruction of the shipped tables, or of a part of one.  Missing:
    addiw and c.addiw, and the RV32 stores of the pair that starts at x0. *)
Theorem C65_exact_partial : forall m recs uids annos nu incl excl s, subseq recs (table_of m) -> 0 < nu < w32 ->
  make_decoder uids annos nu incl excl recs = Ok s ->
  forall A U ic v, ic < 2 ^ 64 -> decode (A := A) (U := U) s ic = Ok v ->
  ~ In (d_mnemonic (i_di v)) twice_typed -> ~ zero_pair m (d_mnemonic (i_di v)) ic -> forall p, masks_exact p (i_di v).
Proof. exact C65_exact_lemma. Qed.
Print Assumptions C65_exact_partial.
(** addiw is typed "w-oper": "all" and "l-oper": "all": its source register is among the words,
    although the operand is a long. *)
Theorem C65_addiw_refuted : exists recs s v, subseq recs rv64 /\ make_decoder [] [] 1 [] [] recs = Ok s /\
  decode (A := unit) (U := unit) s 0x0015859B = Ok v /\ d_mnemonic (i_di v) = "addiw"%string /\ N.testbit (typed_at Source (i_di v) KWord) 11 = true /\
  forall e, In e (operands_at Source (i_di v)) -> e_val e = 11 -> e_type e <> Some KWord.
Proof. exact C65_addiw_lemma. Qed.
Print Assumptions C65_addiw_refuted.
(** The pair store of x0 has x0 among its long sources and no such operand. *)
Theorem C65_pair_refuted : forall m, is32 m = true -> exists recs s v, subseq recs (table_of m) /\ make_decoder [] [] 1 [] [] recs = Ok s /\
  decode (A := unit) (U := unit) s 0x0005B023 = Ok v /\ d_mnemonic (i_di v) = "sd"%string /\ N.testbit (typed_at Source (i_di v) KLong) 0 = true /\
  forall e, In e (operands_at Source (i_di v)) -> e_val e = 0 -> e_type e <> Some KLong.
Proof. exact C65_pair_lemma. Qed.
Print Assumptions C65_pair_refuted.
(** c.fldsp, fsd and c.jr: the masks by type, sources and destinations. *)
Example C65_ex : exists s, subseq masked_recs rv64 /\ make_decoder [] [] 1 [] [] masked_recs = Ok s /\
  Forall2 (fun ic x => (exists v, decode (A := unit) (U := unit) s ic = Ok v /\ d_mnemonic (i_di v) = fst x /\ mask_lists v = snd x) /\
    ~ In (fst x) twice_typed /\ ~ zero_pair Rv64 (fst x) ic) masked_ops masked_lists.
Proof. exact C65_case. Qed.
(** A float load meets the hypotheses of C65_regular_partial. *)
Example C65_regular_ex : ~ In X_I_load (coarse Dest) /\ typed_once Dest X_I_load 0 float_load /\ typed_once Source X_I_load 0 float_load /\
  exists d, decode_info "fld" 1 (ext X_I_load 0) float_load 0x00853507 = Ok d /\ typed_at Dest d KDouble = 1024.
Proof. exact C65_regular_case. Qed.
