(** Claim C48: what a record says about an instruction is what the library reports, and a record
    that says something unknown is refused.  The specification is S_Meta; operand typings are C30. *)
From Coq Require Import NArith List Bool String.
From Verif Require Import M_Base M_Meta S_Meta L_IsaClause.
Import ListNotations.
Local Open Scope N_scope.

(** A record is accepted exactly when all it names is known and its sizes are possible; otherwise
    the construction throws.  (The data size is a 32-bit number.) *)
Theorem C48_accepted : forall j compressed tags, (forall d, jm_data j = Some d -> d < 2 ^ 32) ->
  (record_ok j <-> exists m, make_meta j compressed tags = Ok m) /\
  (~ record_ok j <-> exists e, make_meta j compressed tags = Throw e).
Proof. exact record_accepted_lemma. Qed.
(** The types, data size, tags of the record. *)
Theorem C48_reported : forall j compressed tags m, make_meta j compressed tags = Ok m ->
  (forall i, has (mt_types m) i <-> exists n, listed (jm_type j) n /\ type_name i = Some n) /\
  mt_data m = match jm_data j with Some d => d | None => 0 end /\ mt_compressed m = compressed /\ mt_tags m = tags /\
  (forall f, mt_fixed m f = false).
Proof. exact record_reported_lemma. Qed.
(** ISA extensions: isISA answers yes exactly for the letters of the "isa" clause, isISAWidth
    exactly for the widths written with the letter.  (A query for a number that is no power of two
    asks for several widths at once.) *)
Theorem C48_isa : forall j compressed tags m letter i, make_meta j compressed tags = Ok m -> isa_number letter = Some i ->
  (is_isa m (2 ^ i) = true <-> exists w, In (w, letter) (jm_isa j)) /\
  (forall k, is_isa_width m i (2 ^ k) = true <-> In (Some (2 ^ k), letter) (jm_isa j)) /\
  (forall w, is_isa_width m i w = true <-> (exists w', In (w', letter) (jm_isa j)) /\ forall k, has w k -> In (Some (2 ^ k), letter) (jm_isa j)).
Proof. exact isa_clause_lemma. Qed.
(** Overrides add types and tags, may change the data size, and nothing else. *)
Theorem C48_overrides : forall j tags m m', meta_overrides j tags m = Ok m' ->
  (forall i, has (mt_types m') i <-> has (mt_types m) i \/ exists n, listed (jm_type j) n /\ type_name i = Some n) /\
  mt_data m' = match jm_data j with Some d => d | None => mt_data m end /\ mt_tags m' = (mt_tags m ++ tags)%list /\
  mt_compressed m' = mt_compressed m /\ mt_isa m' = mt_isa m /\ mt_isaw m' = mt_isaw m /\
  mt_fset m' = mt_fset m /\ mt_otype m' = mt_otype m /\ mt_fixed m' = mt_fixed m.
Proof. exact overrides_lemma. Qed.
Print Assumptions C48_accepted.
Print Assumptions C48_reported.
Print Assumptions C48_isa.
Print Assumptions C48_overrides.

Definition fld_record : jmeta := mkJ (Some ["float"; "load"]%string) (Some 64)
  (fun k => match k with KLong => Some (OperList ["rs1"%string]) | KDouble => Some (OperList ["rd"%string]) | _ => None end)
  [(Some 32, "D"%string); (Some 64, "D"%string); (None, "F"%string)].
Example C48_ex : exists m m', make_meta fld_record false ["base"%string] = Ok m /\
  mt_types m = 0x402 /\ mt_data m = 64 /\ is_isa_width m 3 64 = true /\ is_isa_width m 3 128 = false /\
  is_isa_width m 4 32 = false /\ is_isa m (2 ^ 4) = true /\ is_isa m (2 ^ 7) = false /\
  meta_overrides (mkJ (Some ["hint"%string]) (Some 32) (fun _ => None) []) ["mine"%string] m = Ok m' /\
  mt_types m' = 0x0400000000000402 /\ mt_data m' = 32 /\ mt_tags m' = ["base"; "mine"]%string.
Proof. eexists. eexists. split; [vm_compute; reflexivity|]. repeat split; vm_compute; reflexivity. Qed.
Example C48_refused_ex :
  make_meta (mkJ (Some ["floating"%string]) None (fun _ => None) []) false [] = Throw EBuildErrorUnknownType /\
  make_meta (mkJ None (Some 48) (fun _ => None) []) false [] = Throw EBuildErrorInvalidDataSize /\
  make_meta (mkJ None None (fun _ => None) [(Some 24, "F"%string)]) false [] = Throw EBuildErrorInvalidISAWidth /\
  make_meta (mkJ None None (fun _ => None) [(None, "E"%string)]) false [] = Throw EBuildErrorInvalidISAExtension.
Proof. repeat split. Qed.
