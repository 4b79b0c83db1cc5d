(** Concrete programs with several contexts. *)
From Coq Require Import NArith ZArith List Bool String Lia.
From Verif Require Import M_Base M_Field M_OperandInfo M_Extract M_Decoded M_Cache M_Registry M_Trie M_Builder M_DTable M_Direct M_Pseudo M_Context.
From Verif Require Import S_Maps S_Trie S_Table S_History S_Shipped S_Context L_Registry L_Trie L_Table L_History L_HistClaims L_HistRefuted L_HistCases L_Context.
Import ListNotations.
Local Open Scope string_scope.
Local Open Scope N_scope.

Definition small_config : config := mkCfg (map (fun r => (r, mkPC [] [] [])) small) [] [] [] [] [].
Definition other_config : config := mkCfg (map (fun r => (r, mkPC [] [] [])) small) [] [("addi", 77)] [] [] [].
Definition program : list (gop N N) :=
  [GCall (COp (OGetInfo 0x108093)); GMake "X" other_config 0; GSwitch "X"; GCall (COp (OMake 0x85 1)); GSwitch "Y";
   GCall (CUid "addi"); GHas "X"; GMake "BASE" other_config 0; GSwitch "BASE"; GCall (COp (OMake 0x9086 2)); GHas "Y";
   GCall (CUid "addi"); GSwitch "X"; GCall (COp (OGetInfo 0x108093))].
(** What the answers say, in small. *)
Definition gsum (a : res (gans N N)) : res (option N) :=
  let* a := a in Ok (match a with GAns (CNum n) => Some n | GAns (CAns (AInfo v)) => Some (i_icode v) | GAns (CAns (AObj _ o)) => Some (i_icode (ob_info o))
                     | GBool b => Some (if b then 1 else 0) | _ => None end).
Definition prog_tr (ops : list (gop N N)) (g : mavis N N) := combine ops (snd (grun 0 g ops)).
Definition prog_view (ops : list (gop N N)) :=
  match mavis_new (A := N) (U := N) small_config 1 with
  | Ok g => Some (map gsum (snd (grun 0 g ops)), map fst (decoding (seen "X" "BASE" (prog_tr ops g))), map fst (seen "BASE" "BASE" (prog_tr ops g)),
                  map gsum (map snd (seen "BASE" "BASE" (prog_tr ops g))))
  | _ => None
  end.
Lemma program_view ops v : prog_view ops = Some v -> exists g, mavis_new small_config 1 = Ok g /\
  (map gsum (snd (grun 0 g ops)), map fst (decoding (seen "X" "BASE" (prog_tr ops g))), map fst (seen "BASE" "BASE" (prog_tr ops g)),
   map gsum (map snd (seen "BASE" "BASE" (prog_tr ops g)))) = v.
Proof. unfold prog_view. destruct (mavis_new small_config 1) as [g| | |]; try discriminate. intros [= <-]. exists g. split; reflexivity. Qed.
Lemma program_run : exists g, mavis_new small_config 1 = Ok g /\
  (map gsum (snd (grun 0 g program)), map fst (decoding (seen "X" "BASE" (prog_tr program g))), map fst (seen "BASE" "BASE" (prog_tr program g)),
   map gsum (map snd (seen "BASE" "BASE" (prog_tr program g)))) = 
  ([Ok (Some 0x108093); Ok None; Ok None; Ok (Some 0x85); Throw EUnknownContext; Ok (Some 77); Ok (Some 1); Throw EContextAlreadyExists; Ok None;
    Ok (Some 0x9086); Ok (Some 0); Ok (Some 3); Ok None; Ok (Some 0x108093)],
   [OMake 0x85 1; OGetInfo 0x108093], [COp (OGetInfo 0x108093); COp (OMake 0x9086 2); CUid "addi"], [Ok (Some 0x108093); Ok (Some 0x9086); Ok (Some 3)]).
Proof. apply program_view. vm_compute. reflexivity. Qed.

Definition gcode (a : res (gans N N)) : N := match a with Ok GDone => 0 | Ok (GBool true) => 1 | _ => 2 end.
Lemma gcode_done a : gcode a = 0 -> a = Ok GDone. Proof. destruct a as [[a|[]|]| | |]; cbn; try discriminate. reflexivity. Qed.
Lemma gcode_true a : gcode a = 1 -> a = Ok (GBool true). Proof. destruct a as [[a|[]|]| | |]; cbn; try discriminate. reflexivity. Qed.
Lemma nth_map {B C} (f : B -> C) l k y : nth_error (map f l) k = Some y -> exists a, nth_error l k = Some a /\ f a = y.
Proof. rewrite nth_error_map. destruct (nth_error l k) as [a|]; [|discriminate]. intros [= <-]. eauto. Qed.
Lemma nth_combine {B C} (l : list B) (l' : list C) : forall k a b, nth_error l k = Some a -> nth_error l' k = Some b -> nth_error (combine l l') k = Some (a, b).
Proof.
  revert l'. induction l as [|x l IH]; intros l' [|k] a b; try discriminate; destruct l' as [|y l']; try discriminate; cbn.
  - now intros [= ->] [= ->].
  - apply IH.
Qed.
Lemma program_codes : match mavis_new small_config 1 with Ok g => map gcode (snd (grun 0 g program)) | _ => [] end = [2; 0; 0; 2; 2; 2; 1; 2; 0; 2; 2; 2; 0; 2].
Proof. vm_compute. reflexivity. Qed.
Lemma program_nth g k o c : mavis_new small_config 1 = Ok g -> nth_error program k = Some o ->
  nth_error [2; 0; 0; 2; 2; 2; 1; 2; 0; 2; 2; 2; 0; 2] k = Some c ->
  exists a, nth_error (prog_tr program g) k = Some (o, a) /\ gcode a = c.
Proof.
  intros G O C. pose proof program_codes as P. rewrite G in P. rewrite <- P in C. apply nth_map in C as (a & A1 & A2).
  exists a. split; [|exact A2]. apply nth_combine; [exact O|exact A1].
Qed.
Lemma program_made g : mavis_new small_config 1 = Ok g -> nth_error (prog_tr program g) 1 = Some (GMake "X" other_config 0, Ok GDone).
Proof.
  intros G. destruct (program_nth g 1 (GMake "X" other_config 0) 0 G eq_refl eq_refl) as (a & A1 & A2). apply gcode_done in A2. now subst a.
Qed.
Lemma program_case : exists g, mavis_new small_config 1 = Ok g /\
  made_with small_config (prog_tr program g) "X" other_config /\
  (forall s, Forall (covered (A := N) (U := N) s) (map fst (decoding (seen "X" "BASE" (prog_tr program g))))) /\
  List.length (decoding (seen "X" "BASE" (prog_tr program g))) = 2%nat.
Proof.
  destruct program_run as (g & G & Q). exists g. pose proof (program_made g G) as M. split; [exact G|].
  revert Q M. generalize (map gsum (snd (grun 0 g program))). generalize (prog_tr program g). intros tr l Q M.
  injection Q as Q1 Q2 Q3 _. split; [|split].
  - right. exists 0. apply nth_error_In in M. exact M.
  - intros s. rewrite Q2. repeat constructor.
  - rewrite <- (map_length fst), Q2. reflexivity.
Qed.
(** The UID given to a name known only from a trace. *)
Definition trace_foo : list (gop N N) := [GCall (COp (OTrace 0x108093 "foo" tx 1)); GCall (CUid "foo")].
Definition sums (ops : list (gop N N)) : list (res (option N)) :=
  match mavis_new (A := N) (U := N) small_config 1 with Ok g => map gsum (snd (grun 0 g ops)) | _ => [] end.
Definition made_x : gop N N := GMake "X" other_config 0.
Lemma calls_seen (o o' : cop N N) (l : list (res (gans N N))) x y : map gsum l = [x; y] ->
  map fst (seen "BASE" "BASE" (combine [GCall o; GCall o'] l)) = [o; o'] /\
  map gsum (map snd (seen "BASE" "BASE" (combine [GCall o; GCall o'] l))) = [x; y].
Proof. destruct l as [|a [|b [|c l]]]; try discriminate. intros [= <- <-]. split; reflexivity. Qed.
Lemma calls_seen_x (o o' : cop N N) (l : list (res (gans N N))) z x y : map gsum l = [z; x; y] ->
  map fst (seen "BASE" "BASE" (combine [made_x; GCall o; GCall o'] l)) = [o; o'] /\
  map gsum (map snd (seen "BASE" "BASE" (combine [made_x; GCall o; GCall o'] l))) = [x; y].
Proof. destruct l as [|a [|b [|c [|d l]]]]; try discriminate. intros [= _ <- <-]. split; reflexivity. Qed.
Lemma foo_sums : sums trace_foo = [Ok (Some 0x108093); Ok (Some 10)] /\ sums (made_x :: trace_foo) = [Ok None; Ok (Some 0x108093); Ok (Some 86)].
Proof. split; vm_compute; reflexivity. Qed.
Lemma sums_of ops g : mavis_new small_config 1 = Ok g -> map gsum (snd (grun 0 g ops)) = sums ops.
Proof. unfold sums. intros ->. reflexivity. Qed.
Lemma differ (l l' : list (res (gans N N))) : map gsum l = [Ok (Some 0x108093); Ok (Some 10)] -> map gsum l' = [Ok None; Ok (Some 0x108093); Ok (Some 86)] ->
  map fst (seen "BASE" "BASE" (combine trace_foo l)) = map fst (seen "BASE" "BASE" (combine (made_x :: trace_foo) l')) /\
  map snd (seen "BASE" "BASE" (combine trace_foo l)) <> map snd (seen "BASE" "BASE" (combine (made_x :: trace_foo) l')).
Proof.
  intros Q Q'.
  destruct (calls_seen (COp (OTrace 0x108093 "foo" tx 1)) (CUid "foo") l _ _ Q) as [A1 A2].
  destruct (calls_seen_x (COp (OTrace 0x108093 "foo" tx 1)) (CUid "foo") l' _ _ _ Q') as [B1 B2].
  split; [exact (eq_trans A1 (eq_sym B1))|]. intros E.
  pose proof (eq_trans (eq_trans (eq_sym A2) (f_equal (map gsum) E)) B2) as F. discriminate F.
Qed.
Lemma trace_uid_lemma : exists c (g : mavis N N) (ops ops' : list (gop N N)), mavis_new c 1 = Ok g /\
  let tr := combine ops (snd (grun 0 g ops)) in let tr' := combine ops' (snd (grun 0 g ops')) in
  map fst (seen "BASE" "BASE" tr) = map fst (seen "BASE" "BASE" tr') /\
  map snd (seen "BASE" "BASE" tr) <> map snd (seen "BASE" "BASE" tr').
Proof.
  destruct program_run as (g & G & _). destruct foo_sums as [Q Q'].
  exists small_config, g, trace_foo, (made_x :: trace_foo). split; [exact G|].
  exact (differ _ _ (eq_trans (sums_of _ _ G) Q) (eq_trans (sums_of _ _ G) Q')).
Qed.
Lemma alone_case : exists (g : mavis N N) c, mfind (mv_reg g) "BASE" = Some c /\
  let l := seen "BASE" (mv_cur g) (combine program (snd (grun 0 g program))) in
  Forall traceless (map fst l) /\ List.length l = 3%nat.
Proof.
  destruct program_run as (g & G & Q). injection Q as _ _ Q _. destruct (new_base _ _ _ G) as (x & n & _ & E).
  exists g, x. split; [now rewrite E|]. cbv zeta. assert (mv_cur g = "BASE") as -> by now rewrite E.
  change (combine program (snd (grun 0 g program))) with (prog_tr program g). split.
  - rewrite Q. repeat constructor.
  - rewrite <- (map_length fst), Q. reflexivity.
Qed.
Lemma names_case : exists g before o a after, mavis_new small_config 1 = Ok g /\
  combine program (snd (grun 0 g program)) = (before ++ (o, a) :: after)%list /\ o = GHas "X" /\ was_made "X" before /\ a = Ok (GBool true).
Proof.
  destruct program_run as (g & G & _). pose proof (program_made g G) as M.
  destruct (program_nth g 6 (GHas "X") 1 G eq_refl eq_refl) as (a & A1 & A2). apply gcode_true in A2. subst a.
  exists g. change (combine program (snd (grun 0 g program))) with (prog_tr program g).
  revert M A1. generalize (prog_tr program g). intros tr M A1. destruct (nth_error_split _ _ A1) as (b & c & E & L). exists b, (GHas "X"), (Ok (GBool true)), c.
  split; [exact G|]. split; [exact E|]. split; [reflexivity|]. split; [|reflexivity].
  exists other_config, 0. apply nth_error_In with (n := 1%nat). rewrite E, nth_error_app1 in M; [exact M|rewrite L; auto with arith].
Qed.
