(** Cases: what flushCaches forgets, and what it does not (C75). *)
From Coq Require Import NArith List Bool String Lia.
From Verif Require Import M_Base M_Field M_OperandInfo M_Extract M_Decoded M_Cache M_Registry M_Trie M_Builder M_DTable M_Direct M_Raw.
From Verif Require Import S_Maps S_Trie S_Table S_Shipped S_History S_Forget L_Trie L_Table L_Decode L_Check L_Claims L_HistRefuted L_HistCases.
Import ListNotations.
Local Open Scope N_scope.
Local Open Scope string_scope.

(** Trace records that call a compressed instruction by the name of its expansion, an addi a
    nop, and an addi an instruction nobody knows. *)
Definition before : list (op N N) :=
  poison 0x85 ++ [OGetInfo 0x85; OTrace 0x108093 "nop" tx 3; OTrace 0x108093 "foo" tx 4; OMake 0x108093 5].
Definition after : list (op N N) := [OGetInfo 0x85; OTrace 0x85 "c.addi" tx 6; OMake 0x108093 7].
Lemma no_factories mn : not_only_factory (kept [] [] small) mn.
Proof.
  intros r k I _ _ E. exfalso. assert (F : forallb (fun r => match r_factory r with None => true | Some _ => false end) (kept [] [] small) = true) by (vm_compute; reflexivity).
  rewrite forallb_forall in F. specialize (F r I). rewrite E in F. discriminate.
Qed.
Lemma forget_case : exists s, make_decoder [] [] 1 [] [] small = Ok s /\ separated (encodings (kept [] [] small)) /\
  names_instructions (kept [] [] small) before /\ Forall (agreeing s) after /\
  map summary (snd (run 0 (dt_new s) (before ++ OFlush :: after))) =
  [Ok (Some ("c.addi", 0x85, Some (1, 0))); Ok (Some ("c.addi", 273, None)); Ok (Some ("mv", 0x85, Some (2, 0))); Ok (Some ("c.addi", 4225, None));
   Ok (Some ("mv", 0x85, None)); Ok (Some ("nop", 0x108093, Some (3, 0))); Ok (Some ("foo", 0x108093, Some (4, 0))); Ok (Some ("foo", 0x108093, Some (4, 0)));
   Ok None; Ok (Some ("c.addi", 0x85, None)); Ok (Some ("c.addi", 0x85, Some (6, 0))); Ok (Some ("addi", 0x108093, Some (7, 0)))].
Proof.
  destruct small_decoder as (s & E & HN & WF & Q). injection Q as _ _ _ _ _ _ _ Q _ _.
  destruct (script_ok small (before ++ OFlush :: after) _ ltac:(vm_compute; reflexivity)) as (s' & E' & R).
  assert (s' = s) as -> by congruence. clear E'. exists s. split; [exact E|]. split; [exact (wf_cells _ WF)|].
  split; [intros ic mn x a _; apply no_factories|]. split; [|exact R].
  unfold after. apply Forall_cons; [exact (eq_refl : (0x85 < cache_bound)%N)|]. apply Forall_cons; [|apply Forall_cons; [exact (eq_refl : (0x108093 < cache_bound)%N)|apply Forall_nil]].
  cbn [agreeing]. split; [reflexivity|]. intros v. rewrite decode_pure. intros H. apply name_ok in Q as (w & Q & M). rewrite decode_pure in Q. congruence.
Qed.

(** A shipped record under another factory. *)
Definition under (F n : string) (r : irec) : irec :=
  match r_mn r with
  | Some k => if String.eqb k n
              then mkIRec (r_mn r) (r_pseudo r) (r_stencil r) (r_fixed r) (r_ignore r) (r_xform r) (Some F) (r_expand r) (r_form r) (r_overlay r)
                     (r_alias r) (r_tags r) (r_meta r)
              else r
  | None => r
  end.
Definition refitted : list irec := map (under "foo" "addi") (map rec_of (pick ["addi"; "c.addi"] raw_rv64)).
Definition seen (a : res (ans N N)) : option (string * option anno * N) :=
  match a with
  | Ok (AInfo v) => Some (d_mnemonic (i_di v), i_anno v, d_sources (i_di v))
  | Ok (AObj _ o) => Some (d_mnemonic (i_di (ob_info o)), i_anno (ob_info o), d_sources (i_di (ob_info o)))
  | _ => None
  end.
Definition scripts (annos : list (string * anno)) (recs : list irec) (h h' : list (op N N)) :=
  match make_decoder [] annos 1 [] [] recs with
  | Ok s => Some (map seen (snd (run 0 (dt_new s) h)), map seen (snd (run 0 (dt_new s) h')))
  | _ => None
  end.
Lemma scripts_ok annos recs h h' l l' : scripts annos recs h h' = Some (l, l') ->
  exists s, make_decoder [] annos 1 [] [] recs = Ok s /\ map seen (snd (run 0 (dt_new s) h)) = l /\ map seen (snd (run 0 (dt_new s) h')) = l'.
Proof.
  unfold scripts. destruct (make_decoder _ _ _ _ _ _) as [s| | |]; try discriminate. intros H. exists s. split; [reflexivity|]. split; congruence.
Qed.
Lemma refitted_separated : separated (encodings refitted).
Proof. apply separatedb_ok. vm_compute. reflexivity. Qed.
Lemma factory_name_case : exists annos recs s ic mn ic', make_decoder [] annos 1 [] [] recs = Ok s /\ separated (encodings (kept [] [] recs)) /\
  map seen (snd (run 0 (dt_new s) [OGetInfo ic])) = [Some ("c.addi", None, 2)] /\
  map seen (snd (run 0 (dt_new s) [OTrace ic' mn tx 1; OFlush; OGetInfo ic])) = [Some ("addi", Some [], 2); None; Some ("c.addi", Some [], 2)].
Proof.
  destruct (scripts_ok [("foo", [])] refitted [OGetInfo 0x85] [OTrace 0x108093 "foo" tx 1; OFlush; OGetInfo 0x85]
    [Some ("c.addi", None, 2)] [Some ("addi", Some [], 2); None; Some ("c.addi", Some [], 2)] ltac:(vm_compute; reflexivity)) as (s & E & F1 & F2).
  exists [("foo", [])], refitted, s, 0x85, "foo", 0x108093. split; [exact E|]. split; [rewrite kept_all; exact refitted_separated|]. split; [exact F1|exact F2].
Qed.
Lemma record_case : exists recs s ic mn, make_decoder [] [] 1 [] [] recs = Ok s /\ separated (encodings (kept [] [] recs)) /\
  map seen (snd (run 0 (dt_new s) [OTrace ic mn (trace_ext 8 16 0) 1])) = [Some (mn, None, 8)] /\
  map seen (snd (run 0 (dt_new s) [OTrace ic mn (trace_ext 2 4 0) 1; OFlush; OTrace ic mn (trace_ext 8 16 0) 1])) = [Some (mn, None, 2); None; Some (mn, None, 2)].
Proof.
  destruct (scripts_ok [] small [OTrace 0x108093 "foo" (trace_ext 8 16 0) 1] [OTrace 0x108093 "foo" (trace_ext 2 4 0) 1; OFlush; OTrace 0x108093 "foo" (trace_ext 8 16 0) 1]
    [Some ("foo", None, 8)] [Some ("foo", None, 2); None; Some ("foo", None, 2)] ltac:(vm_compute; reflexivity)) as (s & E & F1 & F2).
  destruct small_decoder as (_ & _ & _ & WF & _).
  exists small, s, 0x108093, "foo". split; [exact E|]. split; [exact (wf_cells _ WF)|]. split; [exact F1|exact F2].
Qed.
