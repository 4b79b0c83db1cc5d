(** Scripts of calls on concrete decoders: what the caches and trace records change. *)
From Coq Require Import NArith ZArith List Bool String Lia.
From Verif Require Import M_Base M_Field M_OperandInfo M_Extract M_Decoded M_Cache M_Registry M_Trie M_Builder M_DTable M_Direct M_Raw.
From Verif Require Import S_Maps S_Trie S_Table S_Shipped S_History L_Trie L_Table L_Claims.
Import ListNotations.
Local Open Scope N_scope.
Local Open Scope string_scope.

(** What each call of a script reports: mnemonic, opcode, constructor arguments and user state
    (numbers here; a new instruction has user state 0). *)
Definition summary (a : res (ans N N)) : res (option (string * N * option (N * N))) :=
  let* a := a in
  Ok (match a with
      | AInfo v => Some (d_mnemonic (i_di v), i_icode v, None)
      | AObj _ o => Some (d_mnemonic (i_di (ob_info o)), i_icode (ob_info o), Some (ob_args o, ob_user o))
      | AUnit => None
      end).
Definition script (recs : list irec) (ops : list (op N N)) :=
  match make_decoder [] [] 1 [] [] recs with
  | Ok s => Some (map summary (snd (run 0 (dt_new s) ops)))
  | _ => None
  end.
Lemma script_ok recs ops l : script recs ops = Some l ->
  exists s, make_decoder [] [] 1 [] [] recs = Ok s /\ map summary (snd (run 0 (dt_new s) ops)) = l.
Proof.
  unfold script. destruct (make_decoder _ _ _ _ _ _) as [s| | |] eqn:E; try discriminate. intros H. exists s. split; [reflexivity|congruence].
Qed.
Definition tx : Ext := trace_ext 2 4 0.

Lemma info_of_summary a n ic : summary a = Ok (Some (n, ic, None)) ->
  exists v, a = Ok (AInfo v) /\ d_mnemonic (i_di v) = n /\ i_icode v = ic.
Proof. destruct a as [[v|k o|]| | |]; cbn; try discriminate. intros [= <- <-]. eauto. Qed.
Lemma obj_of_summary a n ic x y : summary a = Ok (Some (n, ic, Some (x, y))) ->
  exists k o, a = Ok (AObj k o) /\ d_mnemonic (i_di (ob_info o)) = n /\ i_icode (ob_info o) = ic /\ ob_args o = x /\ ob_user o = y.
Proof. destruct a as [[v|k o|]| | |]; cbn; try discriminate. intros [= <- <- <- <-]. exists k, o. auto. Qed.
Lemma unit_of_summary a : summary a = Ok None -> a = Ok AUnit.
Proof. destruct a as [[v|k o|]| | |]; cbn; try discriminate. reflexivity. Qed.
Lemma throw_of_summary a e : summary a = Throw e -> a = Throw e.
Proof. destruct a as [[v|k o|]| | |]; cbn; try discriminate. congruence. Qed.
Lemma assert_of_summary a : summary a = AssertFail -> a = AssertFail.
Proof. destruct a as [[v|k o|]| | |]; cbn; try discriminate. reflexivity. Qed.
Ltac answers Q := repeat match type of Q with
  | map _ ?l = [] => destruct l as [|? ?]; [clear Q|discriminate Q]
  | map _ ?l = _ :: _ => destruct l as [|? ?]; [discriminate Q|]; cbn [map] in Q;
      let H := fresh "H" in pose proof (f_equal (fun l => hd (Ok None) l) Q) as H; apply (f_equal (@tl _)) in Q; cbn [hd tl] in H, Q
  end.

(** C08: the arguments of the first makeInst are those of every later one. *)
Lemma args_lemma : exists recs (s : builder * tree) ic (a b : N) k o k' o', make_decoder [] [] 1 [] [] recs = Ok s /\ a <> b /\
  snd (run 0 (dt_new s) [OMake ic a; OMake ic b]) = [Ok (AObj k o); Ok (AObj k' o')] /\ ob_args o' = a.
Proof.
  destruct (script_ok small [OMake 0x108093 1; OMake 0x108093 2] _ ltac:(vm_compute; reflexivity)) as (s & E & Q).
  exists small, s, 0x108093, 1, 2. revert Q. generalize (snd (run 0 (dt_new s) [OMake 0x108093 1; OMake 0x108093 2])). intros l Q. answers Q.
  apply obj_of_summary in H as (k & o & -> & _), H0 as (k' & o' & -> & _ & _ & H0 & _).
  exists k, o, k', o'. split; [exact E|]. split; [discriminate|]. split; [reflexivity|exact H0].
Qed.
Lemma collide s ic ic' : (forall (c : cache info) v, cache_lookup CACHE_SIZE (cache_allocate CACHE_SIZE c ic' v) ic = Some v) ->
  forall v w, snd (run (A := N) (U := N) 0 (dt_new s) [OGetInfo ic'; OGetInfo ic]) = [Ok (AInfo v); Ok (AInfo w)] -> w = v.
Proof.
  intros C v w. cbn [run step]. destruct (get_info (dt_new s) ic') as [d1 r1] eqn:E. unfold get_info in E.
  cbn [dt_new dt_oc] in E. replace (cache_lookup CACHE_SIZE cache_new ic') with (@None info) in E by reflexivity.
  destruct (tree_get _ ic') as [d [x| | |]]; injection E as <- <-; try discriminate.
  2:{ destruct (get_info d ic) as [d2 [| | |]]; cbn [snd]; discriminate. }
  unfold get_info. cbn [set_oc dt_oc]. rewrite C. cbn [snd]. congruence.
Qed.
(** C08: opcodes that differ above bit 31 are confused. *)
Lemma wide_lemma : exists recs (s : builder * tree) ic ic' v w, make_decoder [] [] 1 [] [] recs = Ok s /\
  ic < 2 ^ 32 /\ ic' < 2 ^ 64 /\
  snd (run (A := N) 0 (dt_new s) [OGetInfo ic]) = [Ok (AInfo v)] /\ i_icode v = ic /\
  snd (run (A := N) 0 (dt_new s) [OGetInfo ic'; OGetInfo ic]) = [Ok (AInfo w); Ok (AInfo w)] /\ i_icode w = ic'.
Proof.
  set (ic' := 0x13 + 1023 * 2 ^ 32).
  destruct (script_ok small [OGetInfo 0x13] _ ltac:(vm_compute; reflexivity)) as (s & E & Q).
  destruct (script_ok small [OGetInfo ic'; OGetInfo 0x13] _ ltac:(vm_compute; reflexivity)) as (s' & E' & Q').
  assert (s' = s) as -> by congruence. clear E'.
  pose proof (collide s 0x13 ic' (fun c v => eq_refl)) as HIT.
  exists small, s, 0x13, ic'. revert Q Q' HIT. generalize (snd (run (A := N) 0 (dt_new s) [OGetInfo 0x13])). 
  generalize (snd (run (A := N) 0 (dt_new s) [OGetInfo ic'; OGetInfo 0x13])). intros l l' Q Q' HIT. answers Q. answers Q'.
  apply info_of_summary in H as (v & -> & _ & H), H0 as (w & -> & _ & H0), H1 as (w' & -> & _ & H1).
  assert (w' = w) as -> by (apply HIT; reflexivity).
  exists v, w. split; [exact E|]. split; [reflexivity|]. split; [reflexivity|]. split; [reflexivity|]. split; [exact H|]. split; [reflexivity|exact H0].
Qed.
(** C09: flushCaches asserts on a decoder whose table has an alias that could not be placed. *)
Lemma flush_refuted_lemma : exists recs (s : builder * tree), make_decoder [] [] 1 [] [] recs = Ok s /\
  snd (run (A := N) 0 (dt_new s) [OFlush]) = [AssertFail].
Proof.
  destruct (script_ok small_swapped [OFlush] _ ltac:(vm_compute; reflexivity)) as (s & E & Q).
  exists small_swapped, s. split; [exact E|]. revert Q. generalize (snd (run (A := N) 0 (dt_new s) [OFlush])). intros l Q. answers Q.
  apply assert_of_summary in H as ->. reflexivity.
Qed.
(** C10, C11: the object made for a trace record is the cached one. *)
Lemma trace_lemma : exists recs (s : builder * tree) ic mn k o k' o' k2 o2, make_decoder [] [] 1 [] [] recs = Ok s /\
  ic < 2 ^ 32 /\
  snd (run 0 (dt_new s) [OMake ic 1]) = [Ok (AObj k2 o2)] /\ ob_mnemonic o2 <> mn /\
  snd (run 0 (dt_new s) [OTrace ic mn tx 1; OMutate 0 7; OMake ic 2]) = [Ok (AObj k o); Ok AUnit; Ok (AObj k' o')] /\
  ob_mnemonic o' = mn /\ ob_user o' = 7.
Proof.
  destruct (script_ok small [OTrace 0x108093 "foo" tx 1; OMutate 0 7; OMake 0x108093 2] _ ltac:(vm_compute; reflexivity)) as (s & E & Q).
  destruct (script_ok small [OMake 0x108093 1] _ ltac:(vm_compute; reflexivity)) as (s' & E' & Q').
  assert (s' = s) as -> by congruence. clear E'. exists small, s, 0x108093, "foo". revert Q Q'.
  generalize (snd (run 0 (dt_new s) [OTrace 0x108093 "foo" tx 1; OMutate 0 7; OMake 0x108093 2])).
  generalize (snd (run 0 (dt_new s) [OMake 0x108093 1])). intros l l' Q Q'. answers Q. answers Q'.
  apply obj_of_summary in H as (k & o & -> & _), H1 as (k' & o' & -> & M & _ & _ & V), H2 as (k2 & o2 & -> & M2 & _).
  apply unit_of_summary in H0 as ->.
  exists k, o, k', o', k2, o2. split; [exact E|]. split; [reflexivity|]. split; [reflexivity|]. split; [unfold ob_mnemonic; rewrite M2; discriminate|].
  split; [reflexivity|]. split; [exact M|exact V].
Qed.
Lemma register_lemma : exists recs (s : builder * tree) ic mn k o k' o', make_decoder [] [] 1 [] [] recs = Ok s /\
  snd (run 0 (dt_new s) [ODirect mn 0 tx 3]) = [Throw EUnknownMnemonic] /\
  snd (run 0 (dt_new s) [OTrace ic mn tx 1; ODirect mn 0 tx 3]) = [Ok (AObj k o); Ok (AObj k' o')].
Proof.
  destruct (script_ok small [OTrace 0x108093 "foo" tx 1; ODirect "foo" 0 tx 3] _ ltac:(vm_compute; reflexivity)) as (s & E & Q).
  destruct (script_ok small [ODirect "foo" 0 tx 3] _ ltac:(vm_compute; reflexivity)) as (s' & E' & Q').
  assert (s' = s) as -> by congruence. clear E'. exists small, s, 0x108093, "foo". revert Q Q'.
  generalize (snd (run 0 (dt_new s) [OTrace 0x108093 "foo" tx 1; ODirect "foo" 0 tx 3])).
  generalize (snd (run 0 (dt_new s) [ODirect "foo" 0 tx 3])). intros l l' Q Q'. answers Q. answers Q'.
  apply obj_of_summary in H as (k & o & -> & _), H0 as (k' & o' & -> & _). apply throw_of_summary in H1 as ->.
  exists k, o, k', o'. split; [exact E|]. split; reflexivity.
Qed.
(** C11: a trace record that calls a compressed instruction by the name of its expansion. *)
Definition poison (ic : N) : list (op N N) := [OMake ic 1; OGetInfo 273; OTrace ic "addi" tx 2; OGetInfo 4225].
Lemma poison_lemma : exists recs (s : builder * tree) ic v v', make_decoder [] [] 1 [] [] recs = Ok s /\ ic < 2 ^ 16 /\
  snd (run (A := N) 0 (dt_new s) [OGetInfo ic]) = [Ok (AInfo v)] /\ d_mnemonic (i_di v) = "c.addi" /\
  nth_error (snd (run 0 (dt_new s) (poison ic ++ [OGetInfo ic]))) 4 = Some (Ok (AInfo v')) /\ d_mnemonic (i_di v') = "mv".
Proof.
  destruct (script_ok small [OGetInfo 0x85] _ ltac:(vm_compute; reflexivity)) as (s & E & Q).
  destruct (script_ok small (poison 0x85 ++ [OGetInfo 0x85]) _ ltac:(vm_compute; reflexivity)) as (s' & E' & Q').
  assert (s' = s) as -> by congruence. clear E'. exists small, s, 0x85. revert Q Q'.
  generalize (snd (run 0 (dt_new s) (poison 0x85 ++ [OGetInfo 0x85]))).
  generalize (snd (run (A := N) 0 (dt_new s) [OGetInfo 0x85])). intros l l' Q Q'. answers Q. answers Q'.
  apply info_of_summary in H as (v & -> & M & _). 
  match goal with H : summary ?a = Ok (Some ("mv", _, None)) |- _ => apply info_of_summary in H as (v' & -> & M' & _) end.
  exists v, v'. split; [exact E|]. split; [reflexivity|]. split; [reflexivity|]. split; [exact M|]. split; [reflexivity|exact M'].
Qed.
(** C12: names that decoding reports but that cannot be asked for; UIDs that are not assigned. *)
Lemma names_refuted_lemma : exists recs (s : builder * tree) ic ic' v v', make_decoder [] [] 1 [] [] recs = Ok s /\
  snd (run (A := N) (U := N) 0 (dt_new s) [OGetInfo ic; OGetInfo ic']) = [Ok (AInfo v); Ok (AInfo v')] /\
  d_mnemonic (i_di v) = "c.addi" /\ d_mnemonic (i_di v') = "mv" /\ lookup_uid s "c.addi" <> 0 /\ lookup_uid s "mv" <> 0 /\
  snd (run (A := N) (U := N) 0 (dt_new s) [ODirect "c.addi" 0 tx 1; ODirect "mv" 0 tx 1]) =
    [Throw EUnknownMnemonic; Throw EUnknownMnemonic].
Proof.
  assert (F : match make_decoder [] [] 1 [] [] small with
              | Ok s => negb (N.eqb (lookup_uid s "c.addi") 0) && negb (N.eqb (lookup_uid s "mv") 0) | _ => false end = true) by (vm_compute; reflexivity).
  destruct (script_ok small [OGetInfo 0x85; OGetInfo 0x8093] _ ltac:(vm_compute; reflexivity)) as (s & E & Q).
  destruct (script_ok small [ODirect "c.addi" 0 tx 1; ODirect "mv" 0 tx 1] _ ltac:(vm_compute; reflexivity)) as (s' & E' & Q').
  assert (s' = s) as -> by congruence. clear E'. rewrite E in F. apply andb_true_iff in F as [F1 F2].
  exists small, s, 0x85, 0x8093. revert Q Q'.
  generalize (snd (run 0 (dt_new s) [ODirect "c.addi" 0 tx 1; ODirect "mv" 0 tx 1])).
  generalize (snd (run (A := N) 0 (dt_new s) [OGetInfo 0x85; OGetInfo 0x8093])). intros l l' Q Q'. answers Q. answers Q'.
  apply info_of_summary in H as (v & -> & M & _), H0 as (v' & -> & M' & _). apply throw_of_summary in H1 as ->, H2 as ->.
  exists v, v'. split; [exact E|]. split; [reflexivity|]. split; [exact M|]. split; [exact M'|].
  split; [apply negb_true_iff, N.eqb_neq in F1; exact F1|]. split; [apply negb_true_iff, N.eqb_neq in F2; exact F2|]. reflexivity.
Qed.
Lemma uid_refuted_lemma : exists recs (s : builder * tree) uid, make_decoder [] [] 1 [] [] recs = Ok s /\ uid <> INVALID_UID /\
  snd (run (A := N) (U := N) 0 (dt_new s) [ODirect "" uid tx 1]) = [Throw EStdOutOfRange].
Proof.
  destruct (script_ok small [ODirect "" 12345 tx 1] _ ltac:(vm_compute; reflexivity)) as (s & E & Q).
  exists small, s, 12345. split; [exact E|]. split; [discriminate|]. revert Q.
  generalize (snd (run 0 (dt_new s) [ODirect "" 12345 tx 1])). intros l Q. answers Q. apply throw_of_summary in H as ->. reflexivity.
Qed.
