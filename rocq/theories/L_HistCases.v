(** Concrete cases for the claims about histories. *)
From Coq Require Import NArith ZArith List Bool String Lia.
From Verif Require Import M_Base M_Field M_OperandInfo M_Extract M_Decoded M_Cache M_Registry M_Trie M_Builder M_DTable M_Direct M_Raw.
From Verif Require Import S_Maps S_Trie S_Table S_Shipped S_History L_Trie L_Table L_Decode L_Claims L_History L_HistClaims L_HistRefuted L_Traces L_Names.
Import ListNotations.
Local Open Scope N_scope.
Local Open Scope string_scope.

Lemma small_name {A U} s ic n : make_decoder [] [] 1 [] [] small = Ok s ->
  name_of (decode (A := unit) (U := unit) s ic) = Ok n -> agreed (A := A) (U := U) s ic n.
Proof. intros _ Q v H. apply name_ok in Q as (w & Q & <-). rewrite decode_pure in H. rewrite decode_pure in Q. congruence. Qed.
(** Decoding twice, an agreeing trace record, construction by name, a changed object, a flush. *)
Definition calls : list (op N N) :=
  [OGetInfo 0x108093; OMake 0x85 1; OTrace 0x108093 "addi" tx 2; ODirect "addi" 0 tx 3; OMutate 0 5; OFlush; OMake 0x85 4; ORead 0].
Lemma calls_case : exists s, make_decoder [] [] 1 [] [] small = Ok s /\ 0 < 1 < w32 /\ separated (encodings (kept [] [] small)) /\
  can_flush (A := N) (U := N) s /\ Forall (covered s) calls /\ covered s (OMake (U := N) 0x85 9) /\
  map summary (snd (run 0 (dt_new s) calls)) =
  [Ok (Some ("addi", 0x108093, None)); Ok (Some ("c.addi", 0x85, Some (1, 0))); Ok (Some ("addi", 0x108093, Some (2, 0)));
   Ok (Some ("addi", 0, Some (3, 0))); Ok None; Ok None; Ok (Some ("c.addi", 0x85, Some (4, 0))); Ok (Some ("c.addi", 0x85, Some (1, 5)))].
Proof.
  destruct small_decoder as (s & E & HN & WF & Q). injection Q as _ _ _ _ _ Q _ _ _ _.
  destruct (script_ok small calls _ ltac:(vm_compute; reflexivity)) as (s' & E' & R).
  assert (s' = s) as -> by congruence. clear E'. exists s. pose proof (wf_cells _ WF) as SE.
  pose proof (can_flush_lemma (A := N) (U := N) _ _ _ _ _ _ _ E SE) as CF.
  split; [exact E|]. split; [exact HN|]. split; [exact SE|]. split; [exact CF|]. split; [|split; [reflexivity|exact R]].
  pose proof (small_name (A := N) (U := N) s _ _ E Q) as AG. unfold calls.
  repeat constructor; cbn [covered]; try exact I; try reflexivity; [exact AG|exact CF].
Qed.
(** A history with a disputed opcode. *)
Definition disputes : list (op N N) := [OTrace 0x108093 "foo" tx 1; OMutate 0 7; OMake 0x108093 2; OGetInfo 0x108093; OMake 0x85 3].
Lemma disputes_case : exists s, make_decoder [] [] 1 [] [] small = Ok s /\ separated (encodings (kept [] [] small)) /\
  Forall (foreign s disputes) disputes /\ disputed s disputes 0x108093 /\ ~ disputed s disputes 0x85 /\
  map summary (snd (run 0 (dt_new s) disputes)) =
  [Ok (Some ("foo", 0x108093, Some (1, 0))); Ok None; Ok (Some ("foo", 0x108093, Some (1, 7))); Ok (Some ("addi", 0x108093, None));
   Ok (Some ("c.addi", 0x85, Some (3, 0)))].
Proof.
  assert (F : match make_decoder [] [] 1 [] [] small with
              | Ok s => match get_opcode s "foo" with Throw EUnknownMnemonic => true | _ => false end | _ => false end = true) by (vm_compute; reflexivity).
  destruct small_decoder as (s & E & HN & WF & Q). injection Q as _ _ _ _ _ Q _ _ _ _.
  destruct (script_ok small disputes _ ltac:(vm_compute; reflexivity)) as (s' & E' & R).
  assert (s' = s) as -> by congruence. clear E'. rewrite E in F.
  assert (GO : get_opcode s "foo" = Throw EUnknownMnemonic).
  { destruct (get_opcode s "foo") as [|[]| |]; (reflexivity || discriminate F). }
  clear F. exists s. split; [exact E|]. split; [exact (wf_cells _ WF)|]. split; [|split; [|split; [|exact R]]].
  - unfold disputes at 2. repeat constructor; cbn [foreign]; try exact I; try reflexivity. intros _. exact GO.
  - exists "foo", tx, 1. split; [now left|]. intros AG. apply name_ok in Q as (v & Q & M). rewrite decode_pure in Q.
    specialize (AG v). rewrite decode_pure in AG. specialize (AG Q). congruence.
  - intros (mn & x & a & H & _). unfold disputes in H. cbn [In] in H. intuition discriminate.
Qed.
Lemma addi_case : exists r, In r (kept [] [] small) /\ is_inst r "addi" /\ r_expand r = "" /\ uniform (kept [] [] small) r "addi".
Proof.
  destruct C43_case as (r & H1 & H2 & H3 & H4). exists r. split; [exact H1|]. split; [exact H2|]. split; [exact H3|].
  destruct small_decoder as (_ & _ & _ & WF & _). now apply (wf_meta _ WF r "addi").
Qed.
Lemma nameless_case : nameless (kept [] [] small) "c.addi" /\ nameless (kept [] [] small) "foo" /\
  nameless (kept [] [] small) "UNSET-in-ExtractorDirectBase".
Proof.
  rewrite kept_all.
  assert (G : forall n, n <> "nop" -> n <> "cmov" -> forallb (fun r => match r_overlay r with Some _ => true | None =>
     if String.eqb (r_expand r) "" then
     (match r_factory r with Some f => negb (String.eqb f n) | None => true end) && (match r_mn r with Some m => negb (String.eqb m n) | None => true end)
     else true end)%bool small = true -> nameless small n).
  { intros n N1 N2 F. split; [exact N1|]. split; [exact N2|]. rewrite forallb_forall in F. intros r Hr O X. specialize (F r Hr).
    rewrite O, X in F. cbn [String.eqb] in F. apply andb_true_iff in F as [F1 F2]. split; intros EQ; rewrite EQ, String.eqb_refl in *; discriminate. }
  split; [|split]; apply G; try discriminate; vm_compute; reflexivity.
Qed.
Lemma addi_uid_case : exists s, make_decoder [] [] 1 [] [] small = Ok s /\ lookup_uid s "addi" + DEFAULT_UP_SIZE < w32.
Proof.
  assert (F : match make_decoder [] [] 1 [] [] small with Ok s => N.ltb (lookup_uid s "addi" + DEFAULT_UP_SIZE) w32 | _ => false end = true) by (vm_compute; reflexivity).
  destruct small_decoder as (s & E & _). exists s. split; [exact E|]. rewrite E in F. now apply N.ltb_lt.
Qed.
(** Two instructions made from one opcode. *)
Definition pair_calls : list (op N N) := [OMake 0x85 1; OMake 0x85 2].
Definition reads_obj (ops : list (op N N)) (k : nat) : bool :=
  match make_decoder [] [] 1 [] [] small with
  | Ok s => match snd (step 0 (fst (run 0 (dt_new s) ops)) (ORead k)) with Ok (AObj _ _) => true | _ => false end
  | _ => false
  end.
Lemma obj_ok (r : res (ans N N)) : match r with Ok (AObj _ _) => true | _ => false end = true -> exists i o, r = Ok (AObj i o).
Proof. destruct r as [[v|i o|]| | |]; try discriminate. eauto. Qed.
Lemma reads_ok ops k s : reads_obj ops k = true -> make_decoder [] [] 1 [] [] small = Ok s ->
  exists i o, snd (step 0 (fst (run 0 (dt_new s) ops)) (ORead k)) = Ok (AObj i o).
Proof. unfold reads_obj. intros H E. rewrite E in H. now apply obj_ok. Qed.
Lemma calls_read s : make_decoder [] [] 1 [] [] small = Ok s ->
  exists i o, snd (step 0 (fst (run 0 (dt_new s) calls)) (ORead 0)) = Ok (AObj i o).
Proof. apply reads_ok. vm_compute. reflexivity. Qed.
Definition pair_handed : option (list nat) :=
  match make_decoder [] [] 1 [] [] small with Ok s => Some (handed pair_calls (snd (run 0 (dt_new s) pair_calls))) | _ => None end.
Lemma handed_ok l s : pair_handed = Some l -> make_decoder [] [] 1 [] [] small = Ok s ->
  handed pair_calls (snd (run 0 (dt_new s) pair_calls)) = l.
Proof. unfold pair_handed. intros H E. rewrite E in H. congruence. Qed.
Lemma two_ids (o : option (list nat)) : match o with Some [a; b] => negb (Nat.eqb a b) | _ => false end = true ->
  exists a b, o = Some [a; b] /\ a <> b.
Proof.
  destruct o as [[|a [|b [|]]]|]; try discriminate. intros H. exists a, b. split; [reflexivity|]. intros ->.
  rewrite PeanoNat.Nat.eqb_refl in H. discriminate H.
Qed.
Lemma pair_ids : exists a b, pair_handed = Some [a; b] /\ a <> b.
Proof. apply two_ids. vm_compute. reflexivity. Qed.
Lemma pair_case : exists s a b, make_decoder [] [] 1 [] [] small = Ok s /\
  handed pair_calls (snd (run 0 (dt_new s) pair_calls)) = [a; b] /\ a <> b /\
  Forall no_trace pair_calls /\ Forall (fun o => ~ touches o 0) [OMutate (A := N) (U := N) 1 7] /\
  exists ob, snd (step 0 (fst (run 0 (dt_new s) pair_calls)) (ORead 0)) = Ok ob /\ ob <> AUnit.
Proof.
  destruct small_decoder as (s & E & _). exists s.
  destruct pair_ids as (a & b & H & NE). exists a, b. split; [exact E|]. split; [exact (handed_ok _ s H E)|].
  split; [exact NE|]. split; [repeat constructor|].
  split; [repeat constructor; cbn [touches]; discriminate|].
  destruct (reads_ok pair_calls 0 s ltac:(vm_compute; reflexivity) E) as (i & o & R). exists (AObj i o). split; [exact R|]. intros X. discriminate X.
Qed.
