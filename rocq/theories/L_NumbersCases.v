(** Two contexts whose instructions are numbered. *)
From Coq Require Import NArith ZArith List Bool String Lia.
From Verif Require Import M_Base M_Extract M_Builder M_DTable M_Pseudo M_Context M_Left S_Context S_Numbers L_PseudoCases L_ContextCases L_CtxUidCases L_LeftCases.
Import ListNotations.
Local Open Scope string_scope.
Local Open Scope N_scope.

(** Calls before, between and after; the second "X" is refused. *)
Definition two_contexts : list (gop N N) :=
  [GCall (COp (OMake 0x85 1)); GMake "X" named_config 0; GMake "X" mixed_config 0; GSwitch "X"; GCall (CUid "add"); GHas "X"].
Lemma two_outline l : outline l = [2; 1; 3; 1; 2; 2] -> only_taken ["BASE"] two_contexts l /\ made two_contexts l = [("X", named_config)].
Proof.
  unfold two_contexts. generalize named_config mixed_config. intros cn cm H.
  destruct l as [|a0 [|a1 [|a2 [|a3 [|a4 [|a5 [|? ?]]]]]]]; try discriminate H.
  destruct a1 as [[| |]| | |]; try discriminate H. destruct a2 as [[| |]| | |]; try discriminate H.
  cbn [only_taken made]. repeat split. now left.
Qed.
Lemma numbers_case : exists g0 : mavis N N, mavis_new mixed_config 1 = Ok g0 /\
  let run := mrun 0 g0 two_contexts in Forall no_record two_contexts /\ only_taken ["BASE"] two_contexts (snd run) /\ made two_contexts (snd run) = [("X", named_config)] /\
  instruction_names mixed_config = ["nop"; "cmov"; "addi"; "add"; "jalr"; "ebreak"; "lw"; "li"; "mv"] /\ pseudo_names mixed_config = ["P0"; "P1"; "blt"] /\
  instruction_names named_config = ["nop"; "cmov"; "add"; "jalr"; "ebreak"; "lw"; "li"; "mv"] /\
  number named_config (used_by [mixed_config] 1) Instructions 6 = 47 /\ says 0 (fst run) "X" Instructions "li" 47 /\
  number named_config (used_by [mixed_config] 1) PseudoInstructions 1 = 50 /\ says 0 (fst run) "X" PseudoInstructions "P1" 50.
Proof.
  assert (V : match mavis_new mixed_config 1 with Ok g => nums (outline (snd (mrun 0 g two_contexts))) [2; 1; 3; 1; 2; 2] &&
      ((uid_said (fst (mrun 0 g two_contexts)) "X" Instructions "li" =? 47) && (uid_said (fst (mrun 0 g two_contexts)) "X" PseudoInstructions "P1" =? 50)) | _ => false end = true) by (vm_compute; reflexivity).
  apply view_ok in V as (g & E & V). exists g. split; [exact E|]. clear E. cbv zeta.
  generalize dependent (mrun 0 g two_contexts). intros r V.
  apply andb_true_iff in V as [V1 V]. apply andb_true_iff in V as [V2 V3]. apply N.eqb_eq in V2, V3. apply nums_ok, two_outline in V1 as [V1 V4].
  split. { unfold two_contexts. repeat (apply Forall_cons; [exact Logic.I|]). apply Forall_nil. }
  split; [exact V1|]. split; [exact V4|].
  split; [vm_compute; reflexivity|]. split; [vm_compute; reflexivity|]. split; [vm_compute; reflexivity|]. split; [vm_compute; reflexivity|].
  split; [exact (uid_said_ok _ _ _ _ _ V2 (fun K => N.neq_succ_0 46 K))|]. split; [vm_compute; reflexivity|]. exact (uid_said_ok _ _ _ _ _ V3 (fun K => N.neq_succ_0 49 K)).
Qed.

(** The last record's name is known by then. *)
Definition four_records : list (record N) :=
  [mkRecord "BASE" 0x108093 "vendor" (ext X_I 0) 1; mkRecord "X" 0x85 "other" (ext X_I 0) 2;
   mkRecord "X" 0x108093 "vendor" (ext X_I 0) 3; mkRecord "BASE" 0x108093 "vendor" (ext X_I 0) 4].
Lemma records_case : exists g0 : mavis N N, mavis_new mixed_config 1 = Ok g0 /\
  let run := mrun 0 g0 two_contexts in Forall no_record two_contexts /\ only_taken ["BASE"] two_contexts (snd run) /\
  used_by (mixed_config :: map snd (made two_contexts (snd run))) 1 = 52 /\
  new_numbers (snd (mrun 0 (fst run) (flat_map feed four_records))) = [52; 53; 54].
Proof.
  assert (V : match mavis_new mixed_config 1 with Ok g => nums (outline (snd (mrun 0 g two_contexts))) [2; 1; 3; 1; 2; 2] &&
      nums (new_numbers (snd (mrun 0 (fst (mrun 0 g two_contexts)) (flat_map feed four_records)))) [52; 53; 54] | _ => false end = true) by (vm_compute; reflexivity).
  apply view_ok in V as (g & E & V). exists g. split; [exact E|]. clear E. cbv zeta.
  generalize dependent (mrun 0 g two_contexts). intros r V.
  apply andb_true_iff in V as [V1 V]. apply nums_ok, two_outline in V1 as [V1 V4]. apply nums_ok in V.
  split. { unfold two_contexts. repeat (apply Forall_cons; [exact Logic.I|]). apply Forall_nil. }
  split; [exact V1|]. split; [rewrite V4; vm_compute; reflexivity|exact V].
Qed.
