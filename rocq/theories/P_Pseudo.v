(** Claims about pseudo-instructions (C33, C46).  A record of [recs] is a pair of the clauses that
    all records have and the "sources", "dests" and "specials" clauses; [make_pseudos] constructs
    and configures the builder, [pseudo_run b h] is its state after the calls of makePseudoInst
    in [h]; the specification is S_Pseudo. *)
From Coq Require Import NArith List Bool String.
From Verif Require Import M_Base M_Meta M_OperandInfo M_Extract M_Decoded M_Registry M_Builder M_DTable M_Direct M_Pseudo.
From Verif Require Import S_Operands S_Direct S_Pseudo L_Pseudo L_PseudoCases.
Import ListNotations.
Local Open Scope N_scope.

(** C33.  For the record of a pseudo-instruction asked for by name or by UID: the i-th operand
    without a field id takes the i-th field of the clause and its type, the others stay as they
    are, none is lost or reordered; register masks, store marks and immediate are those
    given; the masks by type are those of the renamed operands; name, UID, meta-data and
    annotation are the record's. *)
Theorem C33_renamed : forall uids annos nu recs b, 0 < nu < w32 -> make_pseudos uids annos nu recs = Ok b ->
  forall h p mn d, Forall uid_fits h -> uid_fits d -> masks_fit (dx_ops d) -> In p recs -> r_pseudo (fst p) = Some mn -> asks b mn d ->
  exists m fs fd, make_meta (r_meta (fst p)) false [] = Ok m /\ form_is m (pc_sources (snd p)) fs /\ form_is m (pc_dests (snd p)) fd /\
    forall v, snd (make_pseudo (pseudo_run b h) d) = Ok v -> pseudo_made fs fd mn (pseudo_uid b mn) m (mfind annos mn) d v.
Proof. exact pseudo_lemma. Qed.
Print Assumptions C33_renamed.
(** C33.  With lists of operands the call fails only if two different operands end up under
    the same field (an assertion), or else if a register number is above 31 (an exception). *)
Theorem C33_outcome : forall uids annos nu recs b, 0 < nu < w32 -> make_pseudos uids annos nu recs = Ok b ->
  forall h p mn d s t, Forall uid_fits h -> uid_fits d -> In p recs -> r_pseudo (fst p) = Some mn -> asks b mn d -> listed_ops d s t ->
  exists m fs fd, make_meta (r_meta (fst p)) false [] = Ok m /\ form_is m (pc_sources (snd p)) fs /\ form_is m (pc_dests (snd p)) fd /\
    let ans := snd (make_pseudo (pseudo_run b h) d) in
    let ok := (forall es, renamed fs (oi_elems s) es -> consistent es) /\ (forall es, renamed fd (oi_elems t) es -> consistent es) in
    let regs := (map e_val (oi_elems s) ++ map e_val (oi_elems t))%list in
    (~ ok -> ans = AssertFail) /\
    (ok -> (exists q, In q regs /\ 31 < q) -> ans = Throw EInvalidRegisterNumber) /\
    (ok -> (forall q, In q regs -> q <= 31) -> exists v, ans = Ok v).
Proof. exact outcome_lemma. Qed.
Print Assumptions C33_outcome.
(** C33.  A name that is no pseudo-instruction is rejected. *)
Theorem C33_unknown : forall uids annos nu recs b, 0 < nu < w32 -> make_pseudos uids annos nu recs = Ok b ->
  forall h mn d, Forall uid_fits h -> dx_uid d = INVALID_UID -> dx_mn d = mn ->
  (forall p, In p recs -> r_pseudo (fst p) <> Some mn) -> snd (make_pseudo (pseudo_run b h) d) = Throw EUnknownPseudoMnemonic.
Proof. exact pseudo_unknown. Qed.
Print Assumptions C33_unknown.
(** P0 with three source operands, the second of which has a field and the third no place in the
    form; the same pseudo-instruction was asked for by UID before. *)
Example C33_ex : exists b v p, 0 < 1 < w32 /\ make_pseudos [] [] 1 test_pseudos = Ok b /\ In p test_pseudos /\ r_pseudo (fst p) = Some "P0"%string /\
  uid_fits (direct_numbered 1 None (DMask 6 0)) /\ asks b "P0" (direct_numbered 1 None (DMask 6 0)) /\
  uid_fits (ask "P0") /\ masks_fit (dx_ops (ask "P0")) /\ asks b "P0" (ask "P0") /\ (exists s t, listed_ops (ask "P0") s t) /\
  (forall p, In p test_pseudos -> r_pseudo (fst p) <> Some "addi"%string) /\
  snd (make_pseudo b (ask "P0")) = Ok v /\
  oi_elems (d_src_oi (i_di v)) = [mkE (Some RS1) (Some KWord) 3 false false; mkE (Some RS3) (Some KQuad) 1 false false; mkE None None 2 true false] /\
  oi_elems (d_dst_oi (i_di v)) = [mkE (Some RD) (Some KWord) 9 false false].
Proof.
  destruct test_case as (b & v & E & Q & R1 & R2 & _). exists b, v, (hd (pseudo_rec "" (fun _ => None), mkPC [] [] []) test_pseudos).
  split; [split; reflexivity|]. split; [exact E|]. split; [now left|]. split; [reflexivity|]. split; [reflexivity|].
  split. { right. assert (X : match make_pseudos [] [] 1 test_pseudos with Ok b => pseudo_uid b "P0" | _ => 0 end = 1) by (vm_compute; reflexivity). rewrite E in X. now rewrite X. }
  split; [reflexivity|]. split; [exact I|]. split; [left; split; reflexivity|]. split; [do 2 eexists; right; eexists; reflexivity|].
  split; [intros p [<-|[<-|[<-|[]]]]; discriminate|]. auto.
Qed.

(** C46.  The special field named at position i of the "specials" clause (the last one, if it is
    named twice) has the i-th special value given; a field that is not named is unsupported. *)
Theorem C46_specials : forall uids annos nu recs b, 0 < nu < w32 -> make_pseudos uids annos nu recs = Ok b ->
  forall h p mn d v, Forall uid_fits h -> uid_fits d -> In p recs -> r_pseudo (fst p) = Some mn -> asks b mn d ->
  snd (make_pseudo (pseudo_run b h) d) = Ok v -> forall s ic, s <> SF__N ->
  (forall i, at_position (pc_specials (snd p)) s i ->
     x_spec (i_x v) s ic = match given_specials (dx_ops d) with
                           | None => AssertFail
                           | Some l => match nth_error l i with Some w => Ok w | None => Throw EStdOutOfRange end
                           end) /\
  ((forall n, In n (pc_specials (snd p)) -> ~ special_named n s) -> x_spec (i_x v) s ic = Throw EUnsupportedSpecialField).
Proof. exact specials_lemma. Qed.
Print Assumptions C46_specials.
Example C46_ex : exists b v p, make_pseudos [] [] 1 test_pseudos = Ok b /\ In p test_pseudos /\ r_pseudo (fst p) = Some "P0"%string /\
  asks b "P0" (ask "P0") /\ snd (make_pseudo (pseudo_run b []) (ask "P0")) = Ok v /\ at_position (pc_specials (snd p)) SF_VM 0 /\
  x_spec (i_x v) SF_VM 0 = Ok 7.
Proof.
  destruct test_case as (b & v & E & Q & _ & _ & R). exists b, v, (hd (pseudo_rec "" (fun _ => None), mkPC [] [] []) test_pseudos).
  split; [exact E|]. split; [now left|]. split; [reflexivity|]. split; [left; split; reflexivity|]. split; [exact Q|]. split; [|exact R].
  split; [eexists; split; reflexivity|]. intros [|j] n H; [constructor|]. destruct j; discriminate.
Qed.
