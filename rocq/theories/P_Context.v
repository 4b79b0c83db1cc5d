(** Claims C20 and C13 about several contexts. *)
From Coq Require Import NArith List Bool String.
From Verif Require Import M_Base M_Registry M_Builder M_DTable M_Context M_Left S_History S_Context L_Context L_ContextCases L_CtxUids L_CtxUidCases L_Left L_LeftCases.
Import ListNotations.
Local Open Scope string_scope.
Local Open Scope N_scope.

(** C20 (partial: decoding calls that are [covered], as in C08).  Whatever else the program does
    with other contexts, before, between and after, the calls made in a context are answered as
    by the decoder without caches that is built from the arguments the context was made with. *)
Theorem C20_decoders_partial : forall A U (u0 : U) c0 nu0 (g : mavis A U) (ops : list (gop A U)), mavis_new c0 nu0 = Ok g ->
  let tr := combine ops (snd (grun u0 g ops)) in
  forall X c, made_with c0 tr X c -> serves u0 c (decoding (seen X "BASE" tr)).
Proof. exact (fun A U u0 => contexts_lemma u0). Qed.
Print Assumptions C20_decoders_partial.
Example C20_decoders_ex : exists g, mavis_new small_config 1 = Ok g /\
  made_with small_config (prog_tr program g) "X" other_config /\
  (forall s, Forall (covered (A := N) (U := N) s) (map fst (decoding (seen "X" "BASE" (prog_tr program g))))) /\
  List.length (decoding (seen "X" "BASE" (prog_tr program g))) = 2%nat.
Proof. exact program_case. Qed.

(** C20 (partial: no trace records, see C20_trace_refuted).  The calls of every kind made in a
    context after some point are answered as if they were made on that context alone. *)
Theorem C20_alone_partial : forall A U (u0 : U) (ops : list (gop A U)) (g : mavis A U) X c, mfind (mv_reg g) X = Some c ->
  let l := seen X (mv_cur g) (combine ops (snd (grun u0 g ops))) in
  Forall traceless (map fst l) -> map snd l = map wrapc (snd (crun u0 c (map fst l))).
Proof. exact (fun A U u0 ops g X c H => interleaved_lemma u0 ops g X c c H (fun _ => eq_refl)). Qed.
Print Assumptions C20_alone_partial.
Example C20_alone_ex : exists (g : mavis N N) c, mfind (mv_reg g) "BASE" = Some c /\
  let l := seen "BASE" (mv_cur g) (combine program (snd (grun 0 g program))) in
  Forall traceless (map fst l) /\ List.length l = 3%nat.
Proof. exact alone_case. Qed.
(** C20 is false of trace records: the UID given to a name known only from a trace depends on the
    other contexts. *)
Theorem C20_trace_refuted : exists c (g : mavis N N) (ops ops' : list (gop N N)), mavis_new c 1 = Ok g /\
  let tr := combine ops (snd (grun 0 g ops)) in let tr' := combine ops' (snd (grun 0 g ops')) in
  map fst (seen "BASE" "BASE" tr) = map fst (seen "BASE" "BASE" tr') /\
  map snd (seen "BASE" "BASE" tr) <> map snd (seen "BASE" "BASE" tr').
Proof. exact trace_uid_lemma. Qed.
Print Assumptions C20_trace_refuted.

(** C20.  A context exists once it was made; switching to a name that does not exist and making a
    name that does are refused.  (By the two theorems above a refused call changes no answer.) *)
Theorem C20_names : forall A U (u0 : U) c0 nu0 (g : mavis A U) (ops : list (gop A U)) before o a after, mavis_new c0 nu0 = Ok g ->
  combine ops (snd (grun u0 g ops)) = (before ++ (o, a) :: after)%list ->
  match o with
  | GHas n => a = Ok (GBool true) /\ (n = "BASE" \/ was_made n before) \/
              a = Ok (GBool false) /\ ~ (n = "BASE" \/ was_made n before)
  | GSwitch n => a = Ok GDone /\ (n = "BASE" \/ was_made n before) \/
                 a = Throw EUnknownContext /\ ~ (n = "BASE" \/ was_made n before)
  | GMake n c _ => n = "BASE" \/ was_made n before -> a = Throw EContextAlreadyExists
  | GCall _ => True
  end.
Proof. exact (fun A U u0 => names_lemma u0). Qed.
Print Assumptions C20_names.
Example C20_names_ex : exists g before o a after, mavis_new small_config 1 = Ok g /\
  combine program (snd (grun 0 g program)) = (before ++ (o, a) :: after)%list /\ o = GHas "X" /\ was_made "X" before /\ a = Ok (GBool true).
Proof. exact names_case. Qed.

(** C13 for whole programs.  Whatever contexts a program makes or fails to make and whatever it
    calls in them, names whose number the library chose have different numbers: those of
    instructions and of pseudo-instructions, of one context and of different ones, named in records
    or only in traces. *)
Theorem C13_unique_in_program : forall A U (u0 : U) c0 nu0 (g0 : mavis A U) (ops : list (gop A U)),
  0 < nu0 < 2 ^ 32 -> mavis_new c0 nu0 = Ok g0 ->
  let g := fst (mrun u0 g0 ops) in let answers := snd (mrun u0 g0 ops) in
  Forall goes_on answers ->
  forall X c w m X' c' w' m' u, made_with c0 (combine ops answers) X c -> made_with c0 (combine ops answers) X' c' ->
  library_chose c w m -> library_chose c' w' m' -> u <> INVALID_UID ->
  says u0 g X w m u -> says u0 g X' w' m' u -> X = X' /\ w = w' /\ m = m'.
Proof. exact (fun A U u0 => left_uids_lemma u0). Qed.
Print Assumptions C13_unique_in_program.
Example C13_program_ex : exists g0 : mavis N N, mavis_new mixed_config 1 = Ok g0 /\
  let g := fst (mrun 0 g0 left_program) in let answers := snd (mrun 0 g0 left_program) in
  Forall goes_on answers /\ (exists e, nth_error answers 0 = Some (Throw e)) /\
  made_with mixed_config (combine left_program answers) "Y" named_config /\ made_with mixed_config (combine left_program answers) "X" mixed_config /\
  library_chose mixed_config Instructions "vendor" /\ library_chose named_config PseudoInstructions "P0" /\ library_chose mixed_config PseudoInstructions "P0" /\
  says 0 g "BASE" Instructions "vendor" 52 /\ says 0 g "Y" PseudoInstructions "P0" 49 /\ says 0 g "X" PseudoInstructions "P0" 62.
Proof. exact left_program_case. Qed.

(** A call of makeContext that throws is not without effect: the instructions of a context made
    afterwards have other numbers than they would have had. *)
Theorem C13_failed_make_refuted : exists (c cbad : config) (g0 : mavis N N), mavis_new c 1 = Ok g0 /\
  let with_failure := [GMake "Y" cbad 0; GMake "X" c 0] in let without := [GMake "X" c 0] in
  (exists e, snd (mrun 0 g0 with_failure) = [Throw e; Ok GDone]) /\ snd (mrun 0 g0 without) = [Ok GDone] /\
  says 0 (fst (mrun 0 g0 without)) "X" Instructions "addi" 12 /\ says 0 (fst (mrun 0 g0 with_failure)) "X" Instructions "addi" 21.
Proof. exact (ex_intro _ small_config (ex_intro _ broken_config failed_make_case)). Qed.
Print Assumptions C13_failed_make_refuted.
