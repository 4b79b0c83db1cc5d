(** Claim C40, OperandInfo part: counts and queries of an operand list. *)
From Coq Require Import NArith List Bool.
From Verif Require Import M_Base M_Meta M_OperandInfo S_Operands L_OperandInfo.
Import ListNotations.
Local Open Scope N_scope.

(** Building an operand list succeeds iff operands with the same field id are
    identical (otherwise the assertion fires); a built list holds the operands
    in order; the counts (32-bit) are the number of operands and, per type, of
    distinct operands; a field query returns the data of the operand with that
    field, or reports its absence. *)
Theorem C40_built_iff_consistent : forall es,
  (exists o, add_elems oi_empty es = Ok o) <-> consistent es.
Proof. exact C40_built. Qed.
Theorem C40_counts : forall es o, add_elems oi_empty es = Ok o -> N.of_nat (length es) < 2 ^ 32 ->
  oi_elems o = es /\ oi_n o = N.of_nat (length es) /\
  (forall k, oi_ntypes o k = n_typed es k) /\ oi_implied o = existsb e_implied es.
Proof. exact C40_count_lemma. Qed.
Theorem C40_field_queries : forall es o f, add_elems oi_empty es = Ok o ->
  (forall e, In e es -> e_fid e = Some f ->
     oi_has o (Some f) = true /\
     oi_field_value o (Some f) = Ok (e_val e) /\ oi_field_type o (Some f) = Ok (e_type e) /\
     oi_is_store_data o (Some f) = Ok (e_sdata e) /\ oi_is_implied o (Some f) = Ok (e_implied e)) /\
  ((forall e, In e es -> e_fid e <> Some f) ->
     oi_has o (Some f) = false /\
     oi_field_value o (Some f) = Throw EOperandInfoInvalidFieldID /\
     oi_field_type o (Some f) = Throw EOperandInfoInvalidFieldID /\
     oi_is_store_data o (Some f) = Throw EOperandInfoInvalidFieldID /\
     oi_is_implied o (Some f) = Throw EOperandInfoInvalidFieldID).
Proof. exact C40_query_lemma. Qed.
Example C40_ex :
  let es := [mkE (Some RS1) (Some KLong) 5 false false; mkE (Some RS2) (Some KDouble) 6 true false;
             mkE (Some RS2) (Some KDouble) 6 true false; mkE None (Some KLong) 7 false false] in
  (exists o, add_elems oi_empty es = Ok o) /\ N.of_nat (length es) < 2 ^ 32 /\
  n_typed es KLong = 2 /\ n_typed es KDouble = 1 /\
  add_elems oi_empty (es ++ [mkE (Some RS1) (Some KLong) 6 false false]) = AssertFail.
Proof. repeat split. eexists. reflexivity. Qed.
Print Assumptions C40_built_iff_consistent.
Print Assumptions C40_counts.
Print Assumptions C40_field_queries.
