(** Lemmas: what flushCaches forgets (C75). *)
From Coq Require Import Arith NArith List Bool Lia ZifyBool ZifyN ZifyNat String.
From Verif Require Import M_Base M_Field M_Meta M_Extract M_Decoded M_Cache M_Registry M_Trie M_Builder M_DTable.
From Verif Require Import S_Maps S_Trie S_Table S_History S_Forget L_Bits L_Trie L_Table L_Uids L_Decode L_History L_Objects L_HistClaims L_Founder L_Founder L_FounderC L_Builtin L_Traces.
Import ListNotations.
Local Open Scope N_scope.

Lemma extract_lt f ic : f_extract f ic < f_size f.
Proof.
  unfold f_extract, f_size. rewrite N.shiftl_1_l. assert (M : f_mask f < 2 ^ f_len f).
  { unfold f_mask. rewrite N.shiftr_div_pow2, N.ones_equiv. apply N.div_lt_upper_bound; [apply N.pow_nonzero; discriminate|].
    rewrite <- N.pow_add_r. assert (2 ^ 64 <= 2 ^ (64 - f_len f + f_len f)) by (apply N.pow_le_mono_r; lia). lia. }
  assert (L : forall a b, N.land a b <= b).
  { intros a b. apply N.ldiff_le. apply N.bits_inj. intros i. rewrite N.ldiff_spec, N.land_spec, N.bits_0. destruct (N.testbit a i), (N.testbit b i); reflexivity. }
  specialize (L (N.shiftr ic (f_rpos f)) (f_mask f)). lia.
Qed.
(** ** Every factory that decoding can reach is flushed *)
Lemma flush_special_in tab d ic mn p : forall fs, flush_node (Special tab d) = Ok fs -> tsel (Special tab d) ic = Ok (mn, p) -> In (pay_fact p) fs.
Proof.
  cbn [flush_node tsel]. induction tab as [|e r IH]; intros fs H T.
  - cbn [find] in T. assert (fs = match d with None => [] | Some (_, q) => [pay_fact q] end) as -> by congruence. destruct d as [[m q]|]; [|discriminate].
    assert (q = p) as -> by congruence. now left.
  - destruct (se_pay e) as [q|] eqn:EQ; [|discriminate]. cbn [find] in T.
    match type of H with rbind ?z _ = _ => destruct z as [gs| | |] eqn:EG end; cbn [rbind] in H; try discriminate.
    assert (fs = pay_fact q :: gs) as -> by congruence. destruct (se_hit ic e); [|right; exact (IH _ eq_refl T)].
    rewrite EQ in T. assert (q = p) as -> by congruence. now left.
Qed.
Lemma flush_repr_in n E : repr n E -> forall fs ic mn p, flush_node n = Ok fs -> tsel n ic = Ok (mn, p) -> In (pay_fact p) fs.
Proof.
  induction 1 as [f tab d E F H1 H2 IH2 H3 H4 IH4|tab d E F L]; intros fs ic mn p HF HT; [|eapply flush_special_in; eauto].
  cbn [flush_node] in HF.
  assert (G : forall l fs, (fix go (l : list N) : res (list nat) := match l with
        | [] => match d with None => Ok [] | Some dn => flush_node dn end
        | i :: r => let* a := match tab i with None => Ok [] | Some c => flush_node c end in let* b := go r in Ok (a ++ b)%list end) l = Ok fs ->
      (forall i c, In i l -> tab i = Some c -> exists gs, flush_node c = Ok gs /\ incl gs fs) /\
      (forall c, d = Some c -> exists gs, flush_node c = Ok gs /\ incl gs fs)).
  { clear. induction l as [|i r IH]; intros fs H.
    - split; [intros ? ? []|]. intros c ->. exists fs. split; [exact H|apply incl_refl].
    - destruct (match tab i with None => Ok [] | Some c => flush_node c end) as [a| | |] eqn:EA; cbn [rbind] in H; try discriminate.
      match type of H with rbind ?z _ = _ => destruct z as [b| | |] eqn:EB end; cbn [rbind] in H; try discriminate.
      assert (fs = (a ++ b)%list) as -> by congruence. destruct (IH _ eq_refl) as (I1 & I2). split.
      + intros j c [<-|I] T; [rewrite T in EA; exists a; split; [exact EA|apply incl_appl, incl_refl]|].
        destruct (I1 _ _ I T) as (gs & G1 & G2). exists gs. split; [exact G1|now apply incl_appr].
      + intros c D. destruct (I2 _ D) as (gs & G1 & G2). exists gs. split; [exact G1|now apply incl_appr]. }
  destruct (G _ _ HF) as (G1 & G2). clear G. cbn [tsel] in HT.
  assert (DD : forall c, d = Some c -> tsel c ic = Ok (mn, p) -> In (pay_fact p) fs).
  { intros c D T. destruct (G2 _ D) as (gs & Q1 & Q2). apply Q2. exact (IH4 c D _ _ _ _ Q1 T). }
  destruct (tab (f_extract f ic)) as [c|] eqn:ET; [|destruct d as [c|]; [now apply (DD c)|discriminate]].
  destruct (tsel c ic) as [[m q]| | |] eqn:EC.
  - assert (IN : In (f_extract f ic) (nseq 0 (N.to_nat (f_size f)))) by (apply nseq_In; pose proof (extract_lt f ic); lia).
    destruct (G1 _ _ IN ET) as (gs & Q1 & Q2). apply Q2. apply (IH2 _ _ ET _ ic mn p Q1). congruence.
  - destruct e; try discriminate. destruct d as [c0|]; [now apply (DD c0)|discriminate].
  - discriminate.
  - discriminate.
Qed.
Lemma flush_tree_in t X : tree_ok t X -> forall fs ic mn p, flush_tree t = Ok fs -> tree_sel t ic = Ok (mn, p) -> In (pay_fact p) fs.
Proof.
  intros [_ H] fs ic mn p HF HT. unfold tree_sel in HT. destruct (C01_root_lemma ic) as (RC & LC). rewrite RC in HT.
  destruct (t (length_class ic)) as [n|] eqn:EN; [|discriminate]. unfold flush_tree in HF.
  assert (G : forall l fs, flush_tree_from t l = Ok fs -> In (length_class ic) l -> In (pay_fact p) fs).
  { induction l as [|c r IH]; intros gs HG I; [destruct I|]. cbn [flush_tree_from] in HG.
    destruct (match t c with None => Ok [] | Some n => flush_node n end) as [a| | |] eqn:EA; cbn [rbind] in HG; try discriminate.
    destruct (flush_tree_from t r) as [b| | |] eqn:EB; cbn [rbind] in HG; try discriminate.
    assert (gs = (a ++ b)%list) as -> by congruence. apply in_or_app. destruct I as [->|I]; [left|right; eauto].
    rewrite EN in EA. destruct (H (length_class ic)) as [_ H']. exact (flush_repr_in _ _ (H' _ EN) _ _ _ _ EA HT). }
  apply (G _ _ HF). apply nseq_In. lia.
Qed.

(** ** Names under which a factory has a number and an annotation already *)
Definition calm (b : builder) (k : string) : Prop :=
  exists i f, find_ifact b k = Some i /\ nth_error (b_facts b) i = Some f /\ mfind (fc_uids f) k <> None /\ mfind (fc_annos f) k <> None.
Lemma keeps_some {V} (l l' : list (string * V)) k : keeps l l' -> mfind l k <> None -> mfind l' k <> None.
Proof. intros K N. destruct (mfind l k) eqn:E; [|contradiction]. rewrite (K _ _ E). discriminate. Qed.
Lemma calm_le b b' k : b_le b b' -> find_ifact b' k = find_ifact b k -> calm b k -> calm b' k.
Proof.
  intros L E (i & f & C1 & C2 & C3 & C4). destruct (bl_facts _ _ L _ _ C2) as (f' & F1 & F2). exists i, f'. split; [congruence|]. split; [exact F1|].
  split; [exact (keeps_some _ _ _ (fl_uids _ _ F2) C3)|exact (keeps_some _ _ _ (fl_annos _ _ F2) C4)].
Qed.
Lemma added k u a f : mfind (fc_uids (fact_add_uid k u (fact_add_anno k a f))) k <> None /\ mfind (fc_annos (fact_add_uid k u (fact_add_anno k a f))) k <> None.
Proof.
  assert (A : mfind (fc_annos (fact_add_anno k a f)) k <> None).
  { unfold fact_add_anno. destruct (mfind (fc_annos f) k) eqn:E; [congruence|]. cbn [fc_annos]. apply madd_some. }
  unfold fact_add_uid. destruct (mfind (fc_uids (fact_add_anno k a f)) k) eqn:E; [split; [congruence|exact A]|]. cbn [fc_uids fc_annos]. split; [apply madd_some|exact A].
Qed.
Lemma calm_bld b mn fname st m b' i : bld b mn fname "" st m = Ok (b', i) -> calm b' mn /\ forall k, calm b k -> calm b' k.
Proof.
  intros H. apply bld_normal_inv in H as [(f0 & u & D & N & M) O R _ L].
  assert (C : calm b' mn).
  { exists i. eexists. split; [rewrite R, String.eqb_refl; reflexivity|]. split; [exact N|]. apply added. }
  split; [exact C|]. intros k CK. destruct (String.eqb mn k) eqn:E1; [apply String.eqb_eq in E1; now subst k|].
  apply (calm_le b); auto. rewrite R, E1. cbn [orb]. destruct (String.eqb fname k) eqn:E2; [|reflexivity]. apply String.eqb_eq in E2. subst k.
  destruct CK as (j & f & C1 & _). destruct D as [(D & _)|(D & _)]; congruence.
Qed.
Definition calms (AN : list (string * anno)) (P : list irec) (b : builder) : Prop :=
  ninv AN P b /\ forall k, custom k \/ (exists r, In r P /\ is_inst r k /\ r_expand r = ""%string) -> calm b k.
Lemma calms_new AN uids nu b : builder_new uids AN nu = Ok b -> calms AN [] b.
Proof.
  intros H. split; [eapply ninv_new; eauto|]. apply builder_new_inv in H as (u & u' & mn & mc & F & B1 & B2 & R1 & R2 & U1 & U2 & A).
  intros k [[->| ->]|(r & [] & _)]; [exists 0%nat|exists 1%nat]; (eexists; split; [eassumption|]); (split; [rewrite F; reflexivity|]); split; discriminate.
Qed.
Lemma calms_metas AN P b mn m : calms AN P b -> calms AN P (set_metas b (madd (b_metas b) mn m)).
Proof. intros [N C]. split; [now apply ninv_metas|exact C]. Qed.
Lemma calms_bld AN P b r mn m b' i : is_inst r mn -> own_meta r = Ok m -> (forall q, In q P -> ~ is_inst q mn) -> mfind (b_metas b) mn <> None ->
  calms AN P b -> bld b mn (fname_of r mn) (r_expand r) (r_stencil r) m = Ok (b', i) -> calms AN (P ++ [r]) b'.
Proof.
  intros HI OM NEW KN [N C] H. split; [eapply ninv_bld; eauto|]. intros k D.
  destruct (string_dec (r_expand r) "") as [EX|EX].
  - rewrite EX in H. destruct (calm_bld _ _ _ _ _ _ _ H) as (C1 & C2). destruct D as [D|(q & I & Q1 & Q2)]; [apply C2, C; now left|].
    apply in_app_or in I as [I|[<-|[]]]; [apply C2, C; right; eauto|]. assert (k = mn) as -> by (destruct HI, Q1; congruence). exact C1.
  - apply (bld_expand_inv _ _ _ _ _ _ _ _ EX) in H as [_ _ R _ L].
    apply (calm_le b); [exact L|unfold find_ifact; now rewrite R|]. apply C. destruct D as [D|(q & I & Q1 & Q2)]; [now left|].
    apply in_app_or in I as [I|[<-|[]]]; [right; eauto|contradiction].
Qed.
Lemma calms_overlay AN P b r mn o x b' : r_mn r = Some mn -> r_overlay r = Some o -> calms AN P b ->
  build_overlay b mn o r x = Ok b' -> calms AN (P ++ [r]) b'.
Proof.
  intros E1 E2 [N C] H. split; [eapply ninv_overlay; eauto|]. intros k D. apply build_overlay_inv in H as [_ R _ L].
  apply (calm_le b); [exact L|unfold find_ifact; now rewrite R|]. apply C. destruct D as [D|(q & I & Q1 & Q2)]; [now left|].
  apply in_app_or in I as [I|[<-|[]]]; [right; eauto|]. destruct Q1; congruence.
Qed.

(** ** Calls leave the table's factories alone *)
Section Calls.
Context {A U : Type} (u0 : U) (s : builder * tree).
Context (VP : forall ic mn p, tree_sel (snd s) ic = Ok (mn, p) -> (pay_fact p < List.length (b_facts (fst s)))%nat).
Notation dt := (dt A U).
Notation op := (op A U).
Definition quiet (k : string) : Prop := calm (fst s) k \/ find_ifact (fst s) k = None.
Record qinv (d : dt) : Prop := mkQI {
  qi_tree : dt_tree d = snd s;
  qi_b : bext s (dt_b d);
  qi_reg : forall k, calm (fst s) k -> find_ifact (dt_b d) k = find_ifact (fst s) k }.
Lemma qinv_same d d' : dt_tree d' = dt_tree d -> dt_b d' = dt_b d -> qinv d -> qinv d'.
Proof. intros E1 E2 [H1 H2 H3]. split; rewrite ?E1, ?E2; auto. Qed.
Lemma add_present k u a f : mfind (fc_uids f) k <> None -> mfind (fc_annos f) k <> None -> fact_add_uid k u (fact_add_anno k a f) = f.
Proof.
  intros H1 H2. assert (fact_add_anno k a f = f) as -> by (unfold fact_add_anno; destruct (mfind (fc_annos f) k); congruence).
  unfold fact_add_uid. destruct (mfind (fc_uids f) k); congruence.
Qed.
Lemma bld_qinv d k st m b i : quiet k -> qinv d -> bld (dt_b d) k k "" st m = Ok (b, i) -> qinv (set_b d b).
Proof.
  intros Q [H1 H2 H3] E. destruct Q as [Q|Q].
  - pose proof (H3 k Q) as R3. destruct Q as (j & f & C1 & C2 & C3 & C4). pose proof E as E'. apply bld_normal_inv in E as [(f0 & u & D & N & M) O R _ L].
    assert (LT : (j < List.length (b_facts (fst s)))%nat) by (apply nth_error_Some; congruence).
    assert (i = j /\ f0 = f) as [-> ->].
    { destruct D as [(D1 & D2)|(D1 & _)]; [|congruence]. assert (i = j) as -> by congruence. split; [reflexivity|]. rewrite (bx_old _ _ H2 _ LT) in D2. congruence. }
    rewrite add_present in N by assumption.
    assert (SF : forall l, nth_error (b_facts b) l = nth_error (b_facts (dt_b d)) l).
    { intros l. destruct (Nat.eq_dec l j) as [->|NE]; [|auto]. rewrite N, (bx_old _ _ H2 _ LT). congruence. }
    assert (SR : forall l, find_ifact b l = find_ifact (dt_b d) l).
    { intros l. rewrite R, orb_diag. destruct (String.eqb_spec k l) as [<-|]; [congruence|reflexivity]. }
    split; cbn [set_b dt_b dt_tree]; [exact H1| |intros l Cl; rewrite SR; auto].
    destruct H2 as [B1 B2 B3]. split.
    + intros l Hl. rewrite SF. auto.
    + destruct (Nat.le_gt_cases (List.length (b_facts (fst s))) (List.length (b_facts b))) as [|GT]; [assumption|]. exfalso.
      pose proof (SF (List.length (b_facts b))) as Z. rewrite (proj2 (nth_error_None _ _)) in Z by lia. symmetry in Z. apply nth_error_None in Z. lia.
    + intros l i0. rewrite SR. apply B3.
  - pose proof E as E'. apply (bld_ext s (fun _ => False) (fun i => (i < List.length (b_facts (fst s)))%nat) (fun _ H => H) VP) in E as [BX LI]; [|exact H2|exact Q]. split; cbn [set_b dt_b dt_tree]; [exact H1|exact BX|].
    intros l Cl. apply bld_normal_inv in E' as [_ _ R _ _]. rewrite R, orb_diag. destruct (String.eqb_spec k l) as [<-|]; [|auto].
    destruct Cl as (j & f & C1 & _). congruence.
Qed.
Lemma leaf_qinv d j n k x : qinv d -> qinv (fst (leaf_get d j n k x)).
Proof.
  intros H. unfold leaf_get. destruct (stash_lookup _ _ _ _ k); [exact H|]. destruct (let* f := _ in _); try exact H. cbn [fst]. apply (qinv_same d); auto.
Qed.
Lemma get_qinv d k : qinv d -> qinv (fst (get_info d k)).
Proof.
  intros C. unfold get_info. destruct (cache_lookup _ _ k); [exact C|]. unfold tree_get.
  destruct (tree_sel (dt_tree d) k) as [[n p]| | |]; try exact C. destruct (x_illop _ k) as [[]| | |]; try exact C.
  match goal with |- context [leaf_get ?a ?b ?c ?e ?f] => pose proof (leaf_qinv a b c e f C) as Q; destruct (leaf_get a b c e f) as [d' [v| | |]] end; try exact Q.
  apply (qinv_same d'); auto.
Qed.
Lemma make_qinv d k a : qinv d -> qinv (fst (make_inst u0 d k a)).
Proof.
  assert (CO : forall d j, qinv d -> qinv (fst (copy_out d j))).
  { intros d0 j C. unfold copy_out. destruct (dt_heap d0 j); [|exact C]. cbn [alloc fst]. apply (qinv_same d0); auto. }
  intros C. unfold make_inst. destruct (cache_lookup _ _ k); [now apply CO|].
  pose proof (get_qinv d k C) as Q. destruct (get_info d k) as [d' [v| | |]]; try exact Q. cbn [alloc]. apply CO. apply (qinv_same d'); auto.
Qed.
Lemma trace_qinv d k tmn x a : quiet tmn -> qinv d -> qinv (fst (make_inst_from_trace u0 d k tmn x a)).
Proof.
  intros NE C. unfold make_inst_from_trace. pose proof (make_qinv d k a C) as Q. destruct (make_inst u0 d k a) as [d1 [j| | |]]; try exact Q. cbn [fst] in Q.
  destruct (dt_heap d1 j) as [o|]; [|exact Q]. destruct (String.eqb _ tmn); [exact Q|].
  destruct (bld (dt_b d1) tmn tmn "" 0 meta_rv32i) as [[b l]| | |] eqn:E; try exact Q.
  pose proof (bld_qinv _ _ _ _ _ _ NE Q E) as C1.
  pose proof (leaf_qinv _ l tmn k x C1) as C2. destruct (leaf_get (set_b d1 b) l tmn k x) as [d2 [v| | |]]; try exact C2.
  cbn [alloc fst]. apply (qinv_same d2); auto.
Qed.
Lemma uid_qinv d b w o : qinv d -> find_ifact_uid (dt_b d) w = Ok (b, o) -> qinv (set_b d b).
Proof.
  intros [H1 H2 H3] E. apply find_uid_same in E as [F R]. split; cbn [set_b dt_b dt_tree]; [exact H1|eapply bext_same; eauto|].
  intros k C. unfold find_ifact. rewrite R. now apply H3.
Qed.
Lemma lift_qinv (p : dt * res nat) : qinv (fst p) -> qinv (fst (lift_obj p)).
Proof. destruct p as [d [k| | |]]; try (intros C; exact C). cbn [fst lift_obj]. intros C. destruct (dt_heap d k); [|exact C]. apply (qinv_same d); auto. Qed.
Lemma lift_unit_qinv (p : dt * res unit) : qinv (fst p) -> qinv (fst (lift_unit p)).
Proof. destruct p as [d [k| | |]]; intros C; exact C. Qed.
Definition quiet_op (o : op) : Prop := match o with OTrace _ n _ _ => quiet n | _ => True end.
Lemma step_qinv d (o : op) : quiet_op o -> qinv d -> qinv (fst (step u0 d o)).
Proof.
  intros NT C. destruct o as [k|k a|k n x a|n w x a|k n x| |k w|k]; cbn [step].
  - pose proof (get_qinv d k C) as Q. destruct (get_info d k) as [d1 [v| | |]]; exact Q.
  - apply lift_qinv. now apply make_qinv.
  - apply lift_qinv. now apply trace_qinv.
  - apply lift_qinv. unfold make_inst_directly. match goal with |- context [let (_, _) := ?p in _] => set (q := p) end.
    assert (Q : qinv (fst q)).
    { unfold q. destruct (w =? INVALID_UID); [exact C|]. destruct (ir_mnemonic _ w); try exact C.
      destruct (find_ifact_uid (dt_b d) w) as [[b o]| | |] eqn:E; try exact C. exact (uid_qinv _ _ _ _ C E). }
    destruct q as [d1 r]. cbn [fst] in Q. destruct r as [[mn' [j|]]| | |]; try exact Q. destruct (let* f := _ in _); try exact Q.
    cbn [alloc fst]. apply (qinv_same d1); auto.
  - destruct (held d k) as [j|]; [|exact C]. apply lift_unit_qinv. unfold morph_inst. destruct (find_ifact _ n); [|exact C].
    destruct (let* f := _ in _); try exact C. destruct (dt_heap d j); [|exact C]. apply (qinv_same d); auto.
  - apply lift_unit_qinv. unfold flush_caches. cbn [dt_tree set_oc set_ic]. destruct (flush_tree _) as [fs| | |]; apply (qinv_same d); auto.
  - destruct (held d k) as [j|]; [|exact C]. destruct (dt_heap d j); [|exact C]. apply (qinv_same d); auto.
  - destruct (held d k) as [j|]; [|exact C]. destruct (dt_heap d j); exact C.
Qed.
Lemma run_qinv (ops : list op) : Forall quiet_op ops -> forall d, qinv d -> qinv (fst (run u0 d ops)).
Proof.
  induction 1 as [|o ops O F IH]; intros d C; cbn [run]; [exact C|].
  pose proof (step_qinv d o O C) as Q. destruct (step u0 d o) as [d' a]. cbn [fst] in Q.
  destruct a; try exact Q; pose proof (IH d' Q) as R; destruct (run u0 d' ops); exact R.
Qed.
Lemma qinv_new : qinv (dt_new s).
Proof. split; [reflexivity|apply bext_new|reflexivity]. Qed.
(** ** After a flush *)
Definition reach (i : nat) : Prop := exists ic mn p, tree_sel (snd s) ic = Ok (mn, p) /\ pay_fact p = i.
Lemma flush_tinv d fs : qinv d -> winv d -> flush_tree (snd s) = Ok fs -> (forall i, reach i -> In i fs) ->
  tinv u0 s (fun _ => False) reach (fst (step u0 d OFlush)).
Proof.
  intros [H1 H2 H3] W HF HR. cbn [step]. unfold flush_caches. cbn [dt_tree set_oc set_ic]. rewrite H1, HF. cbn [lift_unit fst]. split.
  - split; cbn; [exact H1|exact H2|apply line_all_new|]. intros i R. apply HR in R.
    assert (existsb (Nat.eqb i) fs = true) as -> by (apply existsb_exists; exists i; split; [exact R|apply Nat.eqb_refl]). apply stash_all_new.
  - destruct W. constructor; cbn; auto. discriminate.
  - apply line_all_new.
Qed.
End Calls.

Section Claims.
Context {A U : Type} (u0 : U) (uids : list (string * N)) (annos : list (string * anno)) (nu : N)
  (incl excl : list pattern) (recs : list irec) (s : builder * tree).
Context (HD : make_decoder uids annos nu incl excl recs = Ok s) (HS : separated (encodings (kept incl excl recs))).
Notation op := (op A U).
Lemma made_calms : calms annos (filter has_mn (kept incl excl recs)) (fst s).
Proof.
  pose proof HD as H. unfold make_decoder in H. destruct (builder_new uids annos nu) as [b0| | |] eqn:E; cbn [rbind] in H; try discriminate.
  exact (configure_keep_new (calms annos) (calms_metas annos) (fun P b r mn C => ni_named annos P b (proj1 C) r mn) (calms_bld annos) (calms_overlay annos)
    incl excl recs [] (b0, tree_new) s (calms_new annos _ _ _ E) H).
Qed.
Lemma quiet_name mn : not_only_factory (kept incl excl recs) mn -> quiet s mn.
Proof.
  intros NF. destruct (find_ifact (fst s) mn) as [i|] eqn:EF; [left|now right]. apply (proj2 made_calms).
  assert (IN : forall q, In q (kept incl excl recs) -> is_inst q mn -> r_expand q = ""%string -> custom mn \/
    exists r, In r (filter has_mn (kept incl excl recs)) /\ is_inst r mn /\ r_expand r = ""%string).
  { intros q Q1 Q2 Q3. right. exists q. split; [|auto]. eapply in_filter; eauto. }
  destruct s as [b t]. pose proof HD as H. unfold make_decoder in H. cbn [fst] in *.
  destruct (builder_new uids annos nu) as [b0| | |] eqn:EB; cbn [rbind] in H; try discriminate.
  destruct (configured _ _ _ _ _ _ _ _ _ EB H HS) as (X & P & TT & M & I & F & R).
  destruct (bi_keys _ _ _ I _ _ EF) as [C|(r & K1 & K2 & K3 & K4)]; [now left|]. apply R in K1 as [K1 K1'].
  destruct (r_mn r) as [k|] eqn:EK; [|contradiction]. assert (HI : is_inst r k) by (split; assumption).
  destruct K4 as [K4|K4]; [assert (k = mn) as -> by congruence; eapply IN; eauto|].
  destruct (NF r k K1 HI K3 K4) as [C|(q & Q1 & Q2 & Q3)]; [now left|eapply IN; eauto].
Qed.
Lemma forget_lemma (h h' : list op) ic a : names_instructions (kept incl excl recs) h -> Forall (agreeing s) h' -> ic < cache_bound ->
  let d := fst (step u0 (fst (run u0 (dt_new s) h)) OFlush) in let d' := fst (run u0 d h') in
  snd (step u0 d' (OGetInfo ic)) = snd (step u0 (dt_new s) (OGetInfo ic)) /\
  view (snd (step u0 d' (OMake ic a))) = view (snd (step u0 (dt_new s) (OMake ic a))).
Proof.
  intros NI F B d d'. pose proof (payload_valid uids annos nu incl excl recs s HD HS) as VP.
  assert (Q : qinv s (fst (run u0 (dt_new s) h))).
  { apply run_qinv; [exact VP| |apply qinv_new]. apply Forall_forall. intros o Ho. destruct o; cbn [quiet_op]; auto. apply quiet_name. eapply NI. exact Ho. }
  pose proof (proj1 (run_objects u0 h (dt_new s) (winv_new s))) as W.
  assert (TR : exists fs, flush_tree (snd s) = Ok fs /\ forall i, reach s i -> In i fs).
  { destruct s as [b t]. pose proof HD as H. unfold make_decoder in H. cbn [snd].
    destruct (builder_new uids annos nu) as [b0| | |] eqn:EB; cbn [rbind] in H; try discriminate.
    destruct (configured _ _ _ _ _ _ _ _ _ EB H HS) as (X & P & TT & _). destruct (flush_tree_ok _ _ TT) as (fs & E). exists fs. split; [exact E|].
    intros i (k & mn & p & T & <-). exact (flush_tree_in _ _ TT _ _ _ _ E T). }
  destruct TR as (fs & E & R). pose proof (flush_tinv u0 s _ fs Q W E R) as TI. fold d in TI.
  assert (GO : forall i, reach s i -> (i < List.length (b_facts (fst s)))%nat) by (intros i (k & mn & p & T & <-); exact (VP _ _ _ T)).
  assert (GV : forall k mn p, tree_sel (snd s) k = Ok (mn, p) -> reach s (pay_fact p)) by (intros k mn p T; exists k, mn, p; auto).
  assert (F' : Forall (tok s (fun _ => False)) h').
  { eapply Forall_impl; [|exact F]. intros o Ho. destruct o; cbn [agreeing tok] in *; auto. destruct Ho as [Ho AG]. split; [exact Ho|left]. split; [|auto].
    intros v Hv. apply AG. now rewrite decode_pure. }
  pose proof (run_tinv u0 s (fun _ => False) (reach s) GO GV h' d TI F') as TI'. fold d' in TI'.
  pose proof (tinv_new (A := A) u0 s (fun _ => False) (reach s)) as TN. split.
  - now rewrite !(info_pure u0 s (fun _ => False) (reach s) GO GV).
  - now rewrite !(make_pure u0 s (fun _ => False) (reach s) GO GV).
Qed.
End Claims.
