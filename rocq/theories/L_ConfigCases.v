(** Concrete configurations (C63). *)
From Coq Require Import NArith ZArith Arith List Bool String Lia.
From Verif Require Import M_Base M_Field M_Forms M_Meta M_OperandInfo M_Extract M_Decoded M_Registry M_Trie M_Builder M_DTable M_Direct M_Pseudo M_Context.
From Verif Require Import S_Trie S_Table S_Shipped S_Meta S_Direct S_Pseudo S_Accept S_Blame S_Anno S_Config.
From Verif Require Import L_AcceptOrder L_Config L_AnnoCases L_PseudoCases.
Import ListNotations.
Local Open Scope N_scope.
Local Open Scope string_scope.

(** Thirteen shipped instructions and the pseudo-instructions of the library's own test (one of
    them, "blt", has the name of an instruction that is not among the thirteen), annotations of
    both, a user's UID and two overrides. *)
Definition plain_rec (r : irec) : prec := (r, mkPC [] [] []).
Definition whole_files : list (list (string * arec)) := (two_files ++ [[("P0", [("unit", "alu"); ("latency", "3")])]])%list.
Definition whole (ovs : list (string * string * string)) (excl : list pattern) : config :=
  mkCfg (map plain_rec small ++ test_pseudos)%list whole_files [("addi", 7%N)] ovs [] excl.
Definition context_ok (c : config) : bool := match make_context (A := unit) (U := unit) c 1 with Ok _ => true | _ => false end.
Lemma context_ok_true c : context_ok c = true -> exists x nu, make_context (A := unit) (U := unit) c 1 = Ok (x, nu).
Proof. unfold context_ok. destruct (make_context c 1) as [[x nu]| | |]; try discriminate. eauto. Qed.
Definition whole_cfg : config := whole [("addi", "unit", "any")] [].
Lemma whole_sizes : sizes32 (map fst (c_recs whole_cfg)).
Proof. apply sizes_check. vm_compute. reflexivity. Qed.
Lemma whole_room : enough whole_cfg 1.
Proof.
  split; [lia|]. assert (L : (List.length (read_of whole_cfg) + List.length (pseudo_names (c_recs whole_cfg)) = 16)%nat) by (vm_compute; reflexivity).
  rewrite L. intros u [->|[<-|[]]]; vm_compute; reflexivity.
Qed.
Lemma whole_clear : clear_cut (read_of whole_cfg).
Proof.
  right. assert (F : forallb (fun r => match r_alias r with [] => true | _ => false end) (read_of whole_cfg) = true) by (vm_compute; reflexivity).
  apply Forall_forall. intros r I. rewrite forallb_forall in F. specialize (F r I). destruct (r_alias r); [reflexivity|discriminate].
Qed.
Lemma whole_case : sizes32 (map fst (c_recs whole_cfg)) /\ enough whole_cfg 1 /\ clear_cut (read_of whole_cfg) /\ config_ok whole_cfg /\
  List.length (read_of whole_cfg) = 13%nat /\ pseudo_names (c_recs whole_cfg) = ["P0"; "P1"; "blt"] /\
  exists x nu, make_context (A := unit) (U := unit) whole_cfg 1 = Ok (x, nu).
Proof.
  assert (H : exists x nu, make_context (A := unit) (U := unit) whole_cfg 1 = Ok (x, nu)) by (apply context_ok_true; vm_compute; reflexivity).
  split; [exact whole_sizes|]. split; [exact whole_room|]. split; [exact whole_clear|]. split; [|split; [vm_compute; reflexivity|split; [vm_compute; reflexivity|exact H]]].
  destruct H as (x & nu & H). exact (proj2 (proj2 (proj2 (config_lemma whole_cfg 1 whole_sizes whole_room))) whole_clear _ H).
Qed.

(** ** Refused configurations *)
Definition pseudos_only (recs : list prec) : config := mkCfg recs [] [] [] [] [].
Definition none : kind -> option oper_clause := fun _ => None.
Definition p_twice : list prec := [(pseudo_rec "P0" none, mkPC [] [] []); (pseudo_rec "P1" none, mkPC [] [] []); (pseudo_rec "P0" none, mkPC [] [] [])].
Definition p_field : list prec := [(pseudo_rec "P0" none, mkPC ["rs1"; "rs9"] [] [])].
Definition p_special : list prec := [(pseudo_rec "P0" none, mkPC [] [] ["vm"; "vn"])].
Definition p_type : list prec := [(mkIRec None (Some "P0") 0 [] [] None None "" None None [] [] (mkJ (Some ["brunch"]) None none []), mkPC [] [] [])].
Definition thrown (c : config) : option exn := match make_context (A := unit) (U := unit) c 1 with Throw x => Some x | _ => None end.
Lemma thrown_ok c x : thrown c = Some x -> make_context (A := unit) (U := unit) c 1 = Throw x.
Proof. unfold thrown. destruct (make_context c 1); try discriminate. congruence. Qed.
Lemma refused_cases : Forall (fun p => sizes32 (map fst (fst p)) /\ enough (pseudos_only (fst p)) 1 /\ make_context (A := unit) (U := unit) (pseudos_only (fst p)) 1 = Throw (snd p))
  [(p_twice, EBuildErrorDuplicateMnemonic); (p_field, EUnknownFieldID); (p_special, EUnknownSpecialFieldID); (p_type, EBuildErrorUnknownType)].
Proof.
  repeat constructor; cbn [fst snd]; try (apply sizes_check; vm_compute; reflexivity); try (apply thrown_ok; vm_compute; reflexivity); try lia;
    (intros u [->|[]]; vm_compute; reflexivity).
Qed.

(** ** Findings *)
Definition told (c : config) (d : direct) : option (string * option (option string)) :=
  match make_context (A := unit) (U := unit) c 1 with
  | Ok (x, _) => match snd (make_pseudo (cx_pb x) d) with Ok v => Some (d_mnemonic (i_di v), option_map (anno_attr "unit") (i_anno v)) | _ => None end
  | _ => None
  end.
Lemma told_ok c d p : told c d = Some p -> exists x nu v, make_context (A := unit) (U := unit) c 1 = Ok (x, nu) /\ snd (make_pseudo (cx_pb x) d) = Ok v /\
  p = (d_mnemonic (i_di v), option_map (anno_attr "unit") (i_anno v)).
Proof.
  unfold told. destruct (make_context c 1) as [[x nu]| | |]; try discriminate. destruct (snd (make_pseudo (cx_pb x) d)) as [v| | |] eqn:E; try discriminate.
  intros [= <-]. eauto 8.
Qed.
Lemma anno_ex : exists x nu v p, 0 < 1 < w32 /\ make_context (A := unit) (U := unit) whole_cfg 1 = Ok (x, nu) /\ In p (c_recs whole_cfg) /\
  r_pseudo (fst p) = Some "P0" /\ uid_fits (ask "P0") /\ masks_fit (dx_ops (ask "P0")) /\ asks (cx_pb x) "P0" (ask "P0") /\
  snd (make_pseudo (cx_pb x) (ask "P0")) = Ok v /\ option_map (anno_attr "unit") (i_anno v) = Some (Some "alu").
Proof.
  assert (H : told whole_cfg (ask "P0") = Some ("P0", Some (Some "alu"))) by (vm_compute; reflexivity).
  apply told_ok in H as (x & nu & v & H1 & H2 & H3). injection H3 as _ H3.
  exists x, nu, v, (hd (plain_rec (pseudo_rec "" none)) test_pseudos). split; [split; reflexivity|]. split; [exact H1|].
  split; [apply in_or_app; right; now left|]. split; [reflexivity|]. split; [reflexivity|]. split; [exact I|]. split; [left; split; reflexivity|]. auto.
Qed.
Definition overridden : config := mkCfg test_pseudos [[("P0", [("unit", "alu")])]] [] [("P0", "unit", "any")] [] [].
Lemma config_override_refuted : exists c x nu d v mn k w, make_context (A := unit) (U := unit) c 1 = Ok (x, nu) /\
  in_files (c_files c) mn /\ override (c_ovs c) mn k = Some w /\
  snd (make_pseudo (cx_pb x) d) = Ok v /\ d_mnemonic (i_di v) = mn /\ exists a, i_anno v = Some a /\ anno_attr k a <> Some w.
Proof.
  assert (H : told overridden (ask "P0") = Some ("P0", Some (Some "alu"))) by (vm_compute; reflexivity).
  apply told_ok in H as (x & nu & v & H1 & H2 & H3). injection H3 as M H3.
  exists overridden, x, nu, (ask "P0"), v, "P0", "unit", "any". split; [exact H1|].
  split; [exists [("P0", [("unit", "alu")])]; cbn; auto|]. split; [reflexivity|]. split; [exact H2|]. split; [auto|].
  destruct (i_anno v) as [a|]; [|discriminate]. exists a. split; [reflexivity|]. cbn [option_map] in H3. intros Q. rewrite Q in H3. discriminate.
Qed.
Definition tagged_rec (mn tag : string) : prec :=
  (mkIRec None (Some mn) 0 [] [] None None "" None None [] [tag] (mkJ None None none []), mkPC [] [] []).
Definition tagged (recs : list prec) : config := mkCfg recs [] [] [] [] [String.eqb "x"].
Lemma config_tags_refuted : exists c x nu d v p mn, make_context (A := unit) (U := unit) c 1 = Ok (x, nu) /\
  In p (c_recs c) /\ r_pseudo (fst p) = Some mn /\ pseudo_names (c_recs c) = [mn] /\ kept (c_incl c) (c_excl c) (map fst (c_recs c)) = [] /\
  snd (make_pseudo (cx_pb x) d) = Ok v /\ d_mnemonic (i_di v) = mn.
Proof.
  assert (H : told (tagged [tagged_rec "P0" "x"]) (ask "P0") = Some ("P0", None)) by (vm_compute; reflexivity).
  apply told_ok in H as (x & nu & v & H1 & H2 & H3). injection H3 as M H3.
  exists (tagged [tagged_rec "P0" "x"]), x, nu, (ask "P0"), v, (tagged_rec "P0" "x"), "P0". split; [exact H1|].
  split; [now left|]. split; [reflexivity|]. split; [reflexivity|]. split; [reflexivity|]. auto.
Qed.
Lemma config_variants_refuted : exists c, pseudos_ok (filter (fun p => wantedb (c_incl c) (c_excl c) (r_tags (fst p))) (c_recs c)) /\
  make_context (A := unit) (U := unit) c 1 = Throw EBuildErrorDuplicateMnemonic.
Proof.
  exists (tagged [tagged_rec "P0" "y"; tagged_rec "P0" "x"]). split; [|apply thrown_ok; vm_compute; reflexivity].
  change (filter _ _) with [tagged_rec "P0" "y"]. split; [repeat constructor; intros []|]. intros p [<-|[]] _.
  split; [|split; intros n []]. split; [intros ts n; discriminate|]. split; [discriminate|]. split; [intros k l n; discriminate|constructor].
Qed.
