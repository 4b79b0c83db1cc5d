(** Contexts do not influence each other. *)
From Coq Require Import NArith ZArith List Bool String Lia.
From Verif Require Import M_Base M_Field M_OperandInfo M_Extract M_Decoded M_Cache M_Registry M_Trie M_Builder M_DTable M_Direct M_Pseudo M_Context.
From Verif Require Import S_Maps S_Trie S_Table S_History S_Context L_Registry L_Trie L_Table L_History L_HistClaims.
Import ListNotations.
Local Open Scope N_scope.

Section Nu.
Context {A U : Type} (u0 : U) (n : N).
Notation dt := (dt A U).
Definition at_nu (d : dt) : dt := set_b d (builder_at (dt_b d) n).
Definition over {T} (r : dt * T) : dt * T := (at_nu (fst r), snd r).

Lemma leaf_get_nu d i mn ic x : leaf_get (at_nu d) i mn ic x = over (leaf_get d i mn ic x).
Proof.
  destruct d as [b t oc ic0 st hp nx out]. unfold leaf_get, over. cbn [at_nu set_b dt_stash dt_b].
  change (get_fact (builder_at b n) i) with (get_fact b i).
  destruct (stash_lookup _ _ _ _ _); [reflexivity|]. destruct (let* f := get_fact b i in _); reflexivity.
Qed.
Lemma tree_get_nu d ic : tree_get (at_nu d) ic = over (tree_get d ic).
Proof.
  unfold tree_get. change (dt_tree (at_nu d)) with (dt_tree d). destruct (tree_sel (dt_tree d) ic) as [[mn p]| | |]; try reflexivity.
  destruct (x_illop _ ic) as [[]| | |]; try reflexivity. apply leaf_get_nu.
Qed.
Lemma get_info_nu d ic : get_info (at_nu d) ic = over (get_info d ic).
Proof.
  unfold get_info. change (dt_oc (at_nu d)) with (dt_oc d). destruct (cache_lookup _ _ _); [reflexivity|].
  rewrite tree_get_nu. destruct (tree_get d ic) as [d' [v| | |]]; reflexivity.
Qed.
Lemma copy_out_nu d i : copy_out (at_nu d) i = over (copy_out d i).
Proof. unfold copy_out. change (dt_heap (at_nu d)) with (dt_heap d). destruct (dt_heap d i); reflexivity. Qed.
Lemma make_inst_nu d ic a : make_inst u0 (at_nu d) ic a = over (make_inst u0 d ic a).
Proof.
  unfold make_inst. change (dt_ic (at_nu d)) with (dt_ic d). destruct (cache_lookup _ _ _); [apply copy_out_nu|].
  rewrite get_info_nu. destruct (get_info d ic) as [d' [v| | |]]; try reflexivity. cbn [over fst snd].
  unfold alloc. cbn [at_nu set_b dt_b dt_tree dt_oc dt_ic dt_stash dt_heap dt_next dt_out].
  match goal with |- _ = over (copy_out ?d ?i) => rewrite <- (copy_out_nu d i) end. reflexivity.
Qed.
Lemma find_uid_nu b u : find_ifact_uid (builder_at b n) u =
  match find_ifact_uid b u with Ok (b', o) => Ok (builder_at b' n, o) | Throw e => Throw e | AssertFail => AssertFail | UB => UB end.
Proof.
  unfold find_ifact_uid. cbn [builder_at set_inst b_stash b_inst].
  destruct (dk_contains_n _ _); [destruct (dk_lookup_n _ _); reflexivity|]. destruct (ir_mnemonic _ _); try reflexivity. cbn [rbind].
  change (find_ifact (builder_at b n) a) with (find_ifact b a).
  destruct (find_ifact b a); [|reflexivity]. destruct (dk_add _ _ _ _); reflexivity.
Qed.
Lemma directly_nu d mn uid x a : make_inst_directly u0 (at_nu d) mn uid x a = over (make_inst_directly u0 d mn uid x a).
Proof.
  unfold make_inst_directly.
  assert (G : forall d o (m : string), match o with None => (at_nu d, Throw EUnknownMnemonic)
    | Some i => match (let* f := get_fact (dt_b (at_nu d)) i in bypass_info f m x) with
      | Ok v => let (d, k) := alloc (at_nu d) (mkObj v a u0) in (d, Ok k)
      | Throw e => (at_nu d, Throw e) | AssertFail => (at_nu d, AssertFail) | UB => (at_nu d, UB) end end =
    over (match o with None => (d, Throw EUnknownMnemonic)
    | Some i => match (let* f := get_fact (dt_b d) i in bypass_info f m x) with
      | Ok v => let (d, k) := alloc d (mkObj v a u0) in (d, Ok k)
      | Throw e => (d, Throw e) | AssertFail => (d, AssertFail) | UB => (d, UB) end end)).
  { intros d' [i|] m; [|reflexivity]. change (get_fact (dt_b (at_nu d')) i) with (get_fact (dt_b d') i).
    destruct (let* f := get_fact (dt_b d') i in _); reflexivity. }
  destruct (uid =? INVALID_UID); [exact (G d (find_ifact (dt_b d) mn) mn)|].
  change (b_inst (dt_b (at_nu d))) with (b_inst (dt_b d)). destruct (ir_mnemonic _ uid) as [mn'| | |]; try reflexivity.
  change (dt_b (at_nu d)) with (builder_at (dt_b d) n). rewrite find_uid_nu.
  destruct (find_ifact_uid (dt_b d) uid) as [[b' o]| | |]; try reflexivity. exact (G (set_b d b') o mn').
Qed.
Lemma morph_nu d k mn x : morph_inst (at_nu d) k mn x = over (morph_inst d k mn x).
Proof.
  unfold morph_inst. change (find_ifact (dt_b (at_nu d)) mn) with (find_ifact (dt_b d) mn). destruct (find_ifact _ mn); [|reflexivity].
  change (get_fact (dt_b (at_nu d)) n0) with (get_fact (dt_b d) n0). destruct (let* f := get_fact (dt_b d) n0 in _); try reflexivity.
  change (dt_heap (at_nu d)) with (dt_heap d). destruct (dt_heap d k); reflexivity.
Qed.
Lemma flush_nu d : flush_caches (at_nu d) = over (flush_caches d).
Proof. unfold flush_caches. change (dt_tree (set_oc (set_ic (at_nu d) cache_new) cache_new)) with (dt_tree (set_oc (set_ic d cache_new) cache_new)). destruct (flush_tree _); reflexivity. Qed.
Lemma lift_obj_nu (r : dt * res nat) : lift_obj (over r) = over (lift_obj r).
Proof. destruct r as [d [k| | |]]; try reflexivity. unfold over, lift_obj. cbn [fst snd]. change (dt_heap (at_nu d)) with (dt_heap d). destruct (dt_heap d k); reflexivity. Qed.
Lemma lift_unit_nu (r : dt * res unit) : lift_unit (over r) = over (lift_unit r).
Proof. destruct r as [d [k| | |]]; reflexivity. Qed.
Lemma step_nu d o : no_trace o -> step u0 (at_nu d) o = over (step u0 d o).
Proof.
  destruct o; cbn [no_trace step]; intros H; try contradiction; change (held (at_nu d) ?k) with (held d k).
  - rewrite get_info_nu. destruct (get_info d ic) as [d' [| | |]]; reflexivity.
  - now rewrite make_inst_nu, lift_obj_nu.
  - now rewrite directly_nu, lift_obj_nu.
  - destruct (held d k); [|reflexivity]. now rewrite morph_nu, lift_unit_nu.
  - now rewrite flush_nu, lift_unit_nu.
  - destruct (held d k) as [i|]; [|reflexivity]. change (dt_heap (at_nu d)) with (dt_heap d). destruct (dt_heap d i); reflexivity.
  - destruct (held d k) as [i|]; [|reflexivity]. change (dt_heap (at_nu d)) with (dt_heap d). destruct (dt_heap d i); reflexivity.
Qed.
Lemma cstep_nu (c : ctxt A U) o : traceless o -> cstep u0 (ctxt_at c n) o = (ctxt_at (fst (cstep u0 c o)) n, snd (cstep u0 c o)).
Proof.
  destruct c as [d pb]. destruct o; cbn [traceless cstep ctxt_at cx_dt cx_pb]; intros H; try reflexivity.
  - fold (at_nu d). rewrite (step_nu d o H). destruct (step u0 d o) as [d' a]. reflexivity.
  - destruct (make_pseudo pb d0) as [pb' v]. reflexivity.
Qed.
End Nu.

Section Isolation.
Context {A U : Type} (u0 : U).
Definition like (c c' : ctxt A U) : Prop := forall n, ctxt_at c n = ctxt_at c' n.
Lemma like_at (c : ctxt A U) n : like (ctxt_at c n) c. Proof. intros m. destruct c as [[]]. reflexivity. Qed.
Lemma like_cstep (c c' : ctxt A U) (o : cop A U) : traceless o -> like c c' ->
  snd (cstep u0 c o) = snd (cstep u0 c' o) /\ like (fst (cstep u0 c o)) (fst (cstep u0 c' o)).
Proof.
  intros T L. assert (forall n, ctxt_at (fst (cstep u0 c o)) n = ctxt_at (fst (cstep u0 c' o)) n /\ snd (cstep u0 c o) = snd (cstep u0 c' o)) as Q.
  { intros n. pose proof (cstep_nu u0 n c o T) as E. rewrite (L n), (cstep_nu u0 n c' o T) in E.
    split; [exact (f_equal fst (eq_sym E))|exact (f_equal snd (eq_sym E))]. }
  split; [exact (proj2 (Q 0))|intros n; apply Q].
Qed.
Lemma like_sym c c' : like c c' -> like c' c. Proof. intros H n. now rewrite H. Qed.
Lemma like_trans c c' c'' : like c c' -> like c' c'' -> like c c''. Proof. intros H H' n. now rewrite H. Qed.

(** A call in one context, or on the contexts, leaves the others alone. *)
Lemma gstep_other (g : mavis A U) (o : gop A U) X (c : ctxt A U) : mfind (mv_reg g) X = Some c -> (match o with GCall _ => mv_cur g <> X | _ => True end) ->
  mfind (mv_reg (fst (gstep u0 g o))) X = Some c.
Proof.
  intros H. destruct o as [m cf nu'|m|m|o]; cbn [gstep].
  - intros _. destruct (mfind (mv_reg g) m) eqn:E; [exact H|]. destruct (make_context cf (mv_nu g)) as [[x nu]| | |]; try exact H.
    cbn [fst mv_reg madd mfind]. unfold madd. cbn [mfind]. destruct (String.eqb_spec m X) as [->|]; [congruence|exact H].
  - intros _. destruct (mfind (mv_reg g) m); exact H.
  - intros _. exact H.
  - intros NE. destruct (mfind (mv_reg g) (mv_cur g)); [|exact H]. destruct (cstep u0 _ o) as [c' a]. cbn [fst mv_reg]. unfold madd. cbn [mfind].
    destruct (String.eqb_spec (mv_cur g) X); [contradiction|exact H].
Qed.
Lemma grun_cons (g : mavis A U) (o : gop A U) r : grun u0 g (o :: r) = match snd (gstep u0 g o) with
  | AssertFail | UB => (fst (gstep u0 g o), [snd (gstep u0 g o)])
  | a => (fst (grun u0 (fst (gstep u0 g o)) r), a :: snd (grun u0 (fst (gstep u0 g o)) r)) end.
Proof.
  cbn [grun]. destruct (gstep u0 g o) as [g' a]. cbn [fst snd]. destruct a; try reflexivity; now destruct (grun u0 g' r).
Qed.
Lemma crun_cons (c : ctxt A U) o r : crun u0 c (o :: r) = match snd (cstep u0 c o) with
  | AssertFail | UB => (fst (cstep u0 c o), [snd (cstep u0 c o)])
  | a => (fst (crun u0 (fst (cstep u0 c o)) r), a :: snd (crun u0 (fst (cstep u0 c o)) r)) end.
Proof.
  cbn [crun]. destruct (cstep u0 c o) as [c' a]. cbn [fst snd]. destruct a; try reflexivity; now destruct (crun u0 c' r).
Qed.
Definition cur_after (cur : string) (o : gop A U) (a : res (gans A U)) : string :=
  match o, a with GSwitch n, Ok _ => n | _, _ => cur end.
Lemma cur_step (g : mavis A U) (o : gop A U) : mv_cur (fst (gstep u0 g o)) = cur_after (mv_cur g) o (snd (gstep u0 g o)).
Proof.
  destruct o as [m cf nu'|m|m|o]; cbn [gstep].
  - destruct (mfind (mv_reg g) m); [reflexivity|]. destruct (make_context cf (mv_nu g)) as [[x nu]| | |]; reflexivity.
  - destruct (mfind (mv_reg g) m); reflexivity.
  - reflexivity.
  - destruct (mfind (mv_reg g) (mv_cur g)); [|reflexivity]. destruct (cstep u0 _ o) as [c' a]. reflexivity.
Qed.
Lemma seen_cons X cur (o : gop A U) a r : seen X cur ((o, a) :: r) =
  (match o with GCall c => if String.eqb cur X then [(c, a)] else [] | _ => [] end ++ seen X (cur_after cur o a) r)%list.
Proof. destruct o; [reflexivity|destruct a; reflexivity|reflexivity|]. cbn [seen cur_after]. destruct (String.eqb cur X); reflexivity. Qed.
Lemma gcall_step (g : mavis A U) (o : cop A U) (c : ctxt A U) : mfind (mv_reg g) (mv_cur g) = Some c ->
  snd (gstep u0 g (GCall o)) = wrapc (snd (cstep u0 (ctxt_at c (mv_nu g)) o)) /\
  mfind (mv_reg (fst (gstep u0 g (GCall o)))) (mv_cur g) = Some (fst (cstep u0 (ctxt_at c (mv_nu g)) o)).
Proof.
  intros H. cbn [gstep]. rewrite H. destruct (cstep u0 _ o) as [c' a]. cbn [fst snd mv_reg]. split; [reflexivity|].
  unfold madd. cbn [mfind]. now rewrite String.eqb_refl.
Qed.
Lemma interleaved_lemma (ops : list (gop A U)) : forall (g : mavis A U) X (c c0 : ctxt A U), mfind (mv_reg g) X = Some c -> like c c0 ->
  let tr := combine ops (snd (grun u0 g ops)) in let l := seen X (mv_cur g) tr in
  Forall traceless (map fst l) -> map snd l = map wrapc (snd (crun u0 c0 (map fst l))).
Proof.
  induction ops as [|o r IH]; intros g X c c0 H L; [reflexivity|]. cbv zeta.
  assert (T : forall a l, snd (grun u0 g (o :: r)) = a :: l -> a = snd (gstep u0 g o) /\
            (l = snd (grun u0 (fst (gstep u0 g o)) r) \/ (l = [] /\ (a = AssertFail \/ a = UB)))).
  { intros a l E. rewrite grun_cons in E. destruct (snd (gstep u0 g o)); cbn [snd] in E; injection E as <- <-; auto 6. }
  destruct (snd (grun u0 g (o :: r))) as [|a l] eqn:E.
  { rewrite grun_cons in E. destruct (snd (gstep u0 g o)); discriminate. }
  destruct (T a l eq_refl) as [Ea El]. clear T. cbn [combine]. rewrite seen_cons. replace (cur_after (mv_cur g) o a) with (mv_cur (fst (gstep u0 g o))) by (rewrite Ea; apply cur_step).
  assert (REST : forall c', mfind (mv_reg (fst (gstep u0 g o))) X = Some c' -> forall c0, like c' c0 ->
    let l' := seen X (mv_cur (fst (gstep u0 g o))) (combine r l) in Forall traceless (map fst l') ->
    map snd l' = map wrapc (snd (crun u0 c0 (map fst l')))).
  { intros c' H' c1 L'. destruct El as [->|[-> _]]; [exact (IH _ X c' c1 H' L')|]. cbv zeta. destruct r; reflexivity. }
  destruct o as [m cf nu'|m|m|o]; cbn [app].
  1:{ exact (REST c (gstep_other g (GMake m cf nu') X c H I) c0 L). }
  1:{ exact (REST c (gstep_other g (GSwitch m) X c H I) c0 L). }
  1:{ exact (REST c (gstep_other g (GHas m) X c H I) c0 L). }
  destruct (String.eqb_spec (mv_cur g) X) as [<-|NE].
  2:{ apply (REST c (gstep_other g (GCall o) X c H NE) c0 L). }
  cbn [app map fst snd]. intros F. inversion F as [|? ? TL F' EQ]. destruct (gcall_step g o c H) as [A1 A2].
  destruct (like_cstep (ctxt_at c (mv_nu g)) c0 o TL (like_trans _ _ _ (like_at c _) L)) as [S1 S2].
  specialize (REST _ A2 _ S2 F'). cbv zeta in REST. rewrite crun_cons. rewrite <- S1. rewrite A1 in Ea.
  rewrite grun_cons, A1 in E. clear El.
  assert (NIL : combine r (@nil (res (gans A U))) = []) by (destruct r; reflexivity).
  destruct (snd (cstep u0 (ctxt_at c (mv_nu g)) o)) as [v|e| |] eqn:SA; cbn [wrapc rbind snd] in E, Ea |- *; rewrite Ea; cbn [map wrapc rbind].
  - f_equal. exact REST.
  - f_equal. exact REST.
  - injection E as _ E2. rewrite <- E2, NIL. reflexivity.
  - injection E as _ E2. rewrite <- E2, NIL. reflexivity.
Qed.

(** ** Which contexts exist *)
Lemma gstep_reg (g : mavis A U) (o : gop A U) n : mfind (mv_reg (fst (gstep u0 g o))) n <> None <->
  mfind (mv_reg g) n <> None \/ exists c nu', o = GMake n c nu' /\ snd (gstep u0 g o) = Ok GDone.
Proof.
  destruct o as [m cf nu'|m|m|o]; cbn [gstep].
  - destruct (mfind (mv_reg g) m) eqn:E; cbn [fst snd].
    { split; [auto|]. intros [H|(c9 & n' & _ & H)]; [exact H|discriminate]. }
    destruct (make_context cf (mv_nu g)) as [[x nu]|e| |]; cbn [fst snd mv_reg];
      try (split; [auto|]; intros [H|(c9 & n' & _ & H)]; [exact H|discriminate]).
    unfold madd. cbn [mfind]. destruct (String.eqb_spec m n) as [->|NE].
    + split; [intros _; right; exists cf, nu'; auto|discriminate].
    + split; [auto|]. intros [H|(c9 & n' & H & _)]; [exact H|congruence].
  - destruct (mfind (mv_reg g) m); cbn [fst snd mv_reg]; (split; [auto|]; intros [H|(c9 & n' & H & _)]; [exact H|discriminate]).
  - cbn [fst]. split; [auto|]. intros [H|(c9 & n' & H & _)]; [exact H|discriminate].
  - destruct (mfind (mv_reg g) (mv_cur g)) as [c0|] eqn:E; [|cbn [fst]; split; [auto|]; intros [H|(c1 & n' & H & _)]; [exact H|discriminate]].
    destruct (cstep u0 _ o) as [c' a]. cbn [fst mv_reg]. unfold madd. cbn [mfind].
    destruct (String.eqb_spec (mv_cur g) n) as [<-|NE].
    + split; [intros _; left; congruence|discriminate].
    + split; [auto|]. intros [H|(c1 & n' & H & _)]; [exact H|discriminate].
Qed.
Lemma run_head (g : mavis A U) (o : gop A U) r : exists l, combine (o :: r) (snd (grun u0 g (o :: r))) = (o, snd (gstep u0 g o)) :: combine r l /\
  match snd (gstep u0 g o) with AssertFail | UB => l = [] | _ => l = snd (grun u0 (fst (gstep u0 g o)) r) end.
Proof.
  rewrite grun_cons. destruct (snd (gstep u0 g o)) eqn:E; eexists; (split; [reflexivity|]); auto.
Qed.
Lemma run_tail (g : mavis A U) (o : gop A U) r l :
  match snd (gstep u0 g o) with AssertFail | UB => l = [] | _ => l = snd (grun u0 (fst (gstep u0 g o)) r) end ->
  l = snd (grun u0 (fst (gstep u0 g o)) r) \/ l = [].
Proof. destruct (snd (gstep u0 g o)); auto. Qed.
Lemma names_at (ops : list (gop A U)) : forall (g : mavis A U) before o a after,
  combine ops (snd (grun u0 g ops)) = (before ++ (o, a) :: after)%list ->
  exists g', a = snd (gstep u0 g' o) /\ forall n, mfind (mv_reg g') n <> None <-> mfind (mv_reg g) n <> None \/ was_made n before.
Proof.
  induction ops as [|o1 r IH]; intros g before o a after; [destruct before; discriminate|].
  destruct (run_head g o1 r) as (l & -> & L). destruct before as [|e before]; cbn [app].
  - intros [= <- <- _]. exists g. split; [reflexivity|]. intros n. split; [auto|]. intros [H|(c & nu' & [])]. exact H.
  - intros [= <- E]. apply run_tail in L. destruct L as [->| ->]; [|destruct r, before; discriminate].
    destruct (IH _ _ _ _ _ E) as (g' & A1 & A2). exists g'. split; [exact A1|]. intros n. rewrite A2, gstep_reg.
    split.
    + intros [[H|(c & nu' & -> & H)]|(c & nu' & H)]; [auto|right; exists c, nu'; left; now rewrite H|right; exists c, nu'; right; exact H].
    + intros [H|(c & nu' & [H|H])]; [auto| |right; exists c, nu'; exact H].
      left. right. exists c, nu'. split; congruence.
Qed.
(** ** What one context answers *)
Context (s : builder * tree) (SU : named_once (b_inst (fst s))).
Definition simc (c : ctxt A U) h : Prop := sim u0 s (cx_dt c) h.
Lemma simc_at (c : ctxt A U) n h : simc c h -> simc (ctxt_at c n) h.
Proof.
  intros [H O C E]. destruct c as [d pb]. destruct H as [H1 H2 H3 H4 [H51 H52 H53 H54] H6 H7]. split; [|destruct O; split; auto|exact C|exact E].
  split; cbn; auto. split; cbn; auto.
Qed.
Lemma gview_wrap (a : res (ans A U)) : gview (wrapc (let* a := a in Ok (CAns a))) = view a.
Proof. destruct a; reflexivity. Qed.
Lemma decoder_lemma (ops : list (gop A U)) : forall (g : mavis A U) X c h, mfind (mv_reg g) X = Some c -> simc c h ->
  let l := decoding (seen X (mv_cur g) (combine ops (snd (grun u0 g ops)))) in
  Forall (covered (A := A) (U := U) s) (map fst l) -> map gview (map snd l) = prun u0 s h (map fst l).
Proof.
  induction ops as [|o r IH]; intros g X c h H S; [reflexivity|]. cbv zeta.
  destruct (run_head g o r) as (l & -> & L). rewrite seen_cons, <- cur_step.
  assert (REST : forall c' h', mfind (mv_reg (fst (gstep u0 g o))) X = Some c' -> simc c' h' ->
    let l' := decoding (seen X (mv_cur (fst (gstep u0 g o))) (combine r l)) in Forall (covered (A := A) (U := U) s) (map fst l') ->
    map gview (map snd l') = prun u0 s h' (map fst l')).
  { intros c' h' H' S'. apply run_tail in L. destruct L as [->| ->]; [exact (IH _ X c' h' H' S')|]. cbv zeta. destruct r; reflexivity. }
  destruct o as [m cf nu'|m|m|o]; cbn [app].
  1:{ exact (REST c h (gstep_other g (GMake m cf nu') X c H I) S). }
  1:{ exact (REST c h (gstep_other g (GSwitch m) X c H I) S). }
  1:{ exact (REST c h (gstep_other g (GHas m) X c H I) S). }
  destruct (String.eqb_spec (mv_cur g) X) as [<-|NE]; cbn [app].
  2:{ exact (REST c h (gstep_other g (GCall o) X c H NE) S). }
  destruct (gcall_step g o c H) as [A1 A2]. apply simc_at with (n := mv_nu g) in S.
  destruct o as [o| | | | | |].
  2:{ refine (REST _ h A2 _). cbn [cstep]. destruct (make_pseudo _ d) as [pb v]. exact S. }
  2-6: refine (REST _ h A2 _); exact S.
  cbn [decoding flat_map fst snd app map]. intros F. apply Forall_cons_iff in F. destruct F as [F1 F2].
  destruct (step_sim u0 s SU _ _ o S F1) as [S1 S2]. cbn [cstep] in A1, A2.
  destruct (step u0 (cx_dt (ctxt_at c (mv_nu g))) o) as [d' a]. cbn [fst snd] in *.
  cbn [prun]. destruct (pstep u0 s h o) as [h' p]. cbn [fst snd] in *. rewrite A1, gview_wrap, S2.
  specialize (REST _ h' A2 S1 F2). cbv zeta in REST.
  assert (NIL : combine r (@nil (res (gans A U))) = []) by (destruct r; reflexivity).
  rewrite A1 in L. destruct a as [v|e| |]; cbn [rbind wrapc] in L.
  - destruct p as [w|e| |]; [| |destruct v; discriminate..]; (f_equal; exact REST).
  - destruct p as [w|e'| |]; [|f_equal; exact REST|discriminate..]. f_equal. exact REST.
  - destruct p; try discriminate. rewrite L, NIL. reflexivity.
  - destruct p; try discriminate. rewrite L, NIL. reflexivity.
Qed.
End Isolation.

Section Claims.
Context {A U : Type} (u0 : U).
Lemma make_context_inv (c : config) nu (x : ctxt A U) nu' : make_context c nu = Ok (x, nu') ->
  exists annos s, anno_files (c_ovs c) (c_files c) [] = Ok annos /\
    make_decoder (c_uids c) annos nu (c_incl c) (c_excl c) (map fst (c_recs c)) = Ok s /\ cx_dt x = dt_new s.
Proof.
  unfold make_context. destruct (ir_new (c_uids c) nu) as [[n1 i1]| | |]; try discriminate. cbn [rbind].
  destruct (anno_files (c_ovs c) (c_files c) []) as [an| | |] eqn:E1; try discriminate. cbn [rbind].
  destruct (make_decoder _ an nu _ _ _) as [s| | |] eqn:E2; try discriminate. cbn [rbind].
  destruct (ir_new (c_uids c) (b_nu (fst s))) as [[n2 i2]| | |]; try discriminate. cbn [rbind].
  destruct (anno_files [] (c_files c) []) as [pan| | |]; try discriminate. cbn [rbind].
  destruct (make_pseudos _ _ _ _) as [pb| | |]; try discriminate. cbn [rbind].
  intros H. exists an, s. split; [reflexivity|]. split; [exact E2|]. assert (x = mkCx (dt_new s) pb) as -> by congruence. reflexivity.
Qed.
Lemma fresh_serves (g : mavis A U) X x c nu nu' (ops : list (gop A U)) :
  make_context c nu = Ok (x, nu') -> mfind (mv_reg g) X = Some x ->
  serves u0 c (decoding (seen X (mv_cur g) (combine ops (snd (grun u0 g ops))))).
Proof.
  intros M H. destruct (make_context_inv _ _ _ _ M) as (an & s & E1 & E2 & E3). exists an, nu, s. split; [exact E1|]. split; [exact E2|].
  intros N F. destruct (ready _ _ _ _ _ _ _ N E2) as [R1 R2].
  apply (decoder_lemma u0 s R1 ops g X x [] H); [|exact F]. unfold simc. rewrite E3. now apply sim_new.
Qed.
Lemma made_once (ops : list (gop A U)) (g : mavis A U) X c nu' : mfind (mv_reg g) X <> None ->
  ~ In (GMake X c nu', Ok GDone) (combine ops (snd (grun u0 g ops))).
Proof.
  intros H I. apply in_split in I. destruct I as (b & a & E). destruct (names_at u0 ops g b _ _ _ E) as (g' & A1 & A2).
  cbn [gstep] in A1. destruct (mfind (mv_reg g') X) eqn:Q; [discriminate|]. apply (proj2 (A2 X)); auto.
Qed.
Lemma cur_known (g : mavis A U) (o : gop A U) : mfind (mv_reg g) (mv_cur g) <> None ->
  mfind (mv_reg (fst (gstep u0 g o))) (mv_cur (fst (gstep u0 g o))) <> None.
Proof.
  intros H. rewrite cur_step. destruct o as [m cf nu'|m|m|o]; cbn [cur_after]; try (apply gstep_reg; left; exact H).
  destruct (snd (gstep u0 g (GSwitch m))) eqn:E; try (apply gstep_reg; left; exact H).
  apply gstep_reg. left. cbn [gstep] in E. destruct (mfind (mv_reg g) m); [discriminate|discriminate E].
Qed.
Lemma later_serves (ops : list (gop A U)) : forall (g : mavis A U) X c nu', mfind (mv_reg g) (mv_cur g) <> None -> mfind (mv_reg g) X = None ->
  In (GMake X c nu', Ok GDone) (combine ops (snd (grun u0 g ops))) ->
  serves u0 c (decoding (seen X (mv_cur g) (combine ops (snd (grun u0 g ops))))).
Proof.
  induction ops as [|o r IH]; intros g X c nu' C N; [intros []|].
  destruct (run_head u0 g o r) as (l & -> & L). rewrite seen_cons, <- cur_step.
  assert (SAME : match o with GCall c => if String.eqb (mv_cur g) X then [(c, snd (gstep u0 g o))] else [] | _ => [] end = []).
  { destruct o; try reflexivity. destruct (String.eqb_spec (mv_cur g) X); [congruence|reflexivity]. }
  rewrite SAME. cbn [app]. apply (cur_known g o) in C.
  intros [I|I].
  - injection I as E1 E2. rewrite E2 in L. subst l. subst o. cbn [gstep] in E2 |- *. rewrite N in E2 |- *.
    destruct (make_context c (mv_nu g)) as [[x nu1]| | |] eqn:M; try discriminate. cbn [fst].
    refine (fresh_serves _ X x c _ _ r M _). cbn [mv_reg]. unfold madd. cbn [mfind]. now rewrite String.eqb_refl.
  - apply run_tail in L. destruct L as [->| ->]; [|destruct r; contradiction].
    apply (IH _ X c nu' C); [|exact I].
    destruct (mfind (mv_reg (fst (gstep u0 g o))) X) eqn:E; [|reflexivity]. exfalso. revert I. apply made_once. congruence.
Qed.
Lemma new_base (c : config) nu (g : mavis A U) : mavis_new c nu = Ok g -> exists x nu',
  make_context c nu = Ok (x, nu') /\ g = mkMV nu' [("BASE"%string, x)] "BASE".
Proof. unfold mavis_new. destruct (make_context c nu) as [[x nu']| | |]; try discriminate. intros [= <-]. eauto. Qed.
Lemma contexts_lemma (c0 : config) nu0 (g : mavis A U) (ops : list (gop A U)) : mavis_new c0 nu0 = Ok g ->
  let tr := combine ops (snd (grun u0 g ops)) in
  forall X c, made_with c0 tr X c -> serves u0 c (decoding (seen X "BASE" tr)).
Proof.
  intros G tr X c W. destruct (new_base _ _ _ G) as (x & nu' & M & E).
  assert (mv_cur g = "BASE"%string) as B by now rewrite E. assert (mfind (mv_reg g) "BASE" = Some x) as R by now rewrite E.
  rewrite <- B. destruct W as [[-> ->]|(n & I)].
  - exact (fresh_serves g "BASE" x c0 nu0 nu' ops M R).
  - destruct (mfind (mv_reg g) X) eqn:Q; [exfalso; revert I; apply made_once; congruence|].
    refine (later_serves ops g X c n _ Q I). rewrite B. congruence.
Qed.
(** The names of the contexts. *)
Lemma names_lemma (c0 : config) nu0 (g : mavis A U) (ops : list (gop A U)) before o a after : mavis_new c0 nu0 = Ok g ->
  combine ops (snd (grun u0 g ops)) = (before ++ (o, a) :: after)%list ->
  match o with
  | GHas n => a = Ok (GBool true) /\ (n = "BASE"%string \/ was_made n before) \/
              a = Ok (GBool false) /\ ~ (n = "BASE"%string \/ was_made n before)
  | GSwitch n => a = Ok GDone /\ (n = "BASE"%string \/ was_made n before) \/
                 a = Throw EUnknownContext /\ ~ (n = "BASE"%string \/ was_made n before)
  | GMake n c _ => n = "BASE"%string \/ was_made n before -> a = Throw EContextAlreadyExists
  | GCall _ => True
  end.
Proof.
  intros G E. destruct (new_base _ _ _ G) as (x & nu' & M & EG).
  destruct (names_at u0 ops g before o a after E) as (g' & A1 & A2).
  assert (K : forall n, mfind (mv_reg g') n <> None <-> n = "BASE"%string \/ was_made n before).
  { intros n. rewrite A2, EG. cbn [mv_reg mfind]. destruct (String.eqb_spec "BASE" n) as [<-|NE].
    - split; intros _; left; congruence.
    - split; intros [H|H]; auto; congruence. }
  destruct o as [n c nu1|n|n|o]; [| | |exact I]; specialize (K n); cbn [gstep] in A1;
    destruct (mfind (mv_reg g') n) as [y|] eqn:Q; cbn [snd] in A1.
  - intros _. exact A1.
  - intros H. exfalso. apply K in H. congruence.
  - left. split; [exact A1|]. apply K. congruence.
  - right. split; [exact A1|]. intros H. apply K in H. congruence.
  - left. split; [exact A1|]. apply K. congruence.
  - right. split; [exact A1|]. intros H. apply K in H. congruence.
Qed.
End Claims.
