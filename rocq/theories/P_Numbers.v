(** Claim C74: instructions are numbered in order. *)
From Coq Require Import NArith List Bool String.
From Verif Require Import M_Base M_Context M_Left S_Context S_Numbers L_CtxUidCases L_Numbers L_NumbersRec L_NumbersCases L_NumbersNext.
Import ListNotations.
Local Open Scope string_scope.
Local Open Scope N_scope.

(** C74.  Take any calls, in any order, without trace records, in which makeContext fails only for a
    name that is taken.  The instructions and then the pseudo-instructions of each context the calls
    make have consecutive numbers, in the order of the records, from the first number on that is above
    those of the contexts made before and those the user gives; all the other calls use up none. *)
Theorem C74_numbers : forall A U (u0 : U) c0 nu0 (g0 : mavis A U) (ops : list (gop A U)), 0 < nu0 < 2 ^ 32 -> mavis_new c0 nu0 = Ok g0 ->
  let run := mrun u0 g0 ops in Forall no_record ops -> only_taken ["BASE"] ops (snd run) ->
  forall before X c after, (("BASE", c0) :: made ops (snd run) = before ++ (X, c) :: after)%list ->
  forall w k m, nth_error (names_of w c) k = Some m -> says u0 (fst run) X w m (number c (used_by (map snd before) nu0) w k).
Proof. exact (fun A U u0 => numbers_lemma u0). Qed.
Print Assumptions C74_numbers.
Example C74_numbers_ex : exists g0 : mavis N N, mavis_new mixed_config 1 = Ok g0 /\
  let run := mrun 0 g0 two_contexts in Forall no_record two_contexts /\ only_taken ["BASE"] two_contexts (snd run) /\ made two_contexts (snd run) = [("X", named_config)] /\
  instruction_names mixed_config = ["nop"; "cmov"; "addi"; "add"; "jalr"; "ebreak"; "lw"; "li"; "mv"] /\ pseudo_names mixed_config = ["P0"; "P1"; "blt"] /\
  instruction_names named_config = ["nop"; "cmov"; "add"; "jalr"; "ebreak"; "lw"; "li"; "mv"] /\
  number named_config (used_by [mixed_config] 1) Instructions 6 = 47 /\ says 0 (fst run) "X" Instructions "li" 47 /\
  number named_config (used_by [mixed_config] 1) PseudoInstructions 1 = 50 /\ says 0 (fst run) "X" PseudoInstructions "P1" 50.
Proof. exact numbers_case. Qed.

(** C74, trace records: a name that a trace record brings up for the first time gets the next number,
    in whatever context, and records with names that have numbers use up none. *)
Theorem C74_records : forall A U (u0 : U) c0 nu0 (g0 : mavis A U) (ops : list (gop A U)) (rs : list (record A)), 0 < nu0 < 2 ^ 32 -> mavis_new c0 nu0 = Ok g0 ->
  let run := mrun u0 g0 ops in Forall no_record ops -> only_taken ["BASE"] ops (snd run) ->
  let next := used_by (c0 :: map snd (made ops (snd run))) nu0 in next + N.of_nat (List.length rs) < 2 ^ 32 ->
  forall k u, nth_error (new_numbers (snd (mrun u0 (fst run) (flat_map feed rs)))) k = Some u -> u = next + N.of_nat k.
Proof. exact (fun A U u0 => records_lemma u0). Qed.
Print Assumptions C74_records.
Example C74_records_ex : exists g0 : mavis N N, mavis_new mixed_config 1 = Ok g0 /\
  let run := mrun 0 g0 two_contexts in Forall no_record two_contexts /\ only_taken ["BASE"] two_contexts (snd run) /\
  used_by (mixed_config :: map snd (made two_contexts (snd run))) 1 = 52 /\
  new_numbers (snd (mrun 0 (fst run) (flat_map feed four_records))) = [52; 53; 54].
Proof. exact records_case. Qed.

(** C74, contexts made after trace records: their numbers go on after those of the names the records
    brought up.  (Each record is fed with four calls; all of them answered, so the program goes on.) *)
Theorem C74_after_records : forall A U (u0 : U) c0 nu0 (g0 : mavis A U) (ops : list (gop A U)) (rs : list (record A)), 0 < nu0 < 2 ^ 32 -> mavis_new c0 nu0 = Ok g0 ->
  let run := mrun u0 g0 ops in Forall no_record ops -> only_taken ["BASE"] ops (snd run) ->
  let next := used_by (c0 :: map snd (made ops (snd run))) nu0 in next + N.of_nat (List.length rs) < 2 ^ 32 ->
  let run' := mrun u0 (fst run) (flat_map feed rs) in List.length (snd run') = (4 * List.length rs)%nat ->
  forall X c b g a, mstep u0 (fst run') (GMake X c b) = (g, Ok a) ->
  forall w k m, nth_error (names_of w c) k = Some m -> says u0 g X w m (number c (next + N.of_nat (List.length (new_numbers (snd run')))) w k).
Proof. exact (fun A U u0 => next_lemma u0). Qed.
Print Assumptions C74_after_records.
Example C74_after_records_ex : exists g0 : mavis N N, mavis_new mixed_config 1 = Ok g0 /\
  let run := mrun 0 g0 two_contexts in Forall no_record two_contexts /\ only_taken ["BASE"] two_contexts (snd run) /\
  used_by (mixed_config :: map snd (made two_contexts (snd run))) 1 = 52 /\
  let run' := mrun 0 (fst run) (flat_map feed four_records) in
  List.length (snd run') = (4 * List.length four_records)%nat /\ List.length (new_numbers (snd run')) = 3%nat /\
  exists g a, mstep 0 (fst run') (GMake "Y" mixed_config 0) = (g, Ok a) /\
    nth_error (names_of Instructions mixed_config) 2 = Some "addi" /\ number mixed_config (52 + 3) Instructions 2 = 57 /\ says 0 g "Y" Instructions "addi" 57.
Proof. exact next_case. Qed.
