(** Lemmas: compressed instructions and the first record of a factory (C60). *)
From Coq Require Import NArith List Bool String Lia.
From Verif Require Import M_Base M_Field M_Forms M_Meta M_Extract M_Decoded M_Registry M_Trie M_Builder M_DTable.
From Verif Require Import S_Bits S_Trie S_Agree S_Table S_Founder S_FounderC L_Trie L_Table L_Ids L_Decode L_Founder.
Import ListNotations.
Local Open Scope N_scope.

(** ** Induction over the records, in order, with the names known to be new *)
Section Preserve.
Context (Q : list irec -> builder -> Prop).
Context (QM : forall P b mn m, Q P b -> Q P (set_metas b (madd (b_metas b) mn m))).
Context (QN : forall P b r mn, Q P b -> In r P -> is_inst r mn -> mfind (b_metas b) mn <> None).
Context (QB : forall P b r mn m b' i, is_inst r mn -> own_meta r = Ok m -> (forall q, In q P -> ~ is_inst q mn) -> mfind (b_metas b) mn <> None ->
  Q P b -> bld b mn (fname_of r mn) (r_expand r) (r_stencil r) m = Ok (b', i) -> Q (P ++ [r])%list b').
Context (QO : forall P b r mn o x b', r_mn r = Some mn -> r_overlay r = Some o -> Q P b ->
  build_overlay b mn o r x = Ok b' -> Q (P ++ [r])%list b').
Lemma madd_some {A} (l : list (string * A)) k a : mfind (madd l k a) k <> None.
Proof. rewrite mfind_madd, String.eqb_refl. discriminate. Qed.
Lemma parse_keep_new P r mn s s' : r_mn r = Some mn -> Q P (fst s) -> parse_inst s r mn = Ok s' -> Q (P ++ [r])%list (fst s').
Proof.
  intros M HQ H. unfold parse_inst in H.
  match type of H with (rbind ?r _) = _ => destruct r as [x| | |]; cbn [rbind] in H; try discriminate end.
  destruct (r_overlay r) as [o|] eqn:EO.
  - destruct (build_overlay (fst s) mn o r x) as [b| | |] eqn:E; cbn [rbind] in H; try discriminate.
    assert (s' = (b, snd s)) as -> by congruence. eapply QO; eauto.
  - destruct (r_form r) as [fn|]; [|discriminate]. destruct (get_form fn) as [fm| | |]; cbn [rbind] in H; try discriminate.
    unfold make_inst_meta in H. destruct (make_meta _ _ _) as [m| | |] eqn:EMM; cbn [rbind] in H; try discriminate.
    destruct (mfind (b_metas (fst s)) mn) eqn:EM; cbn [rbind] in H; try discriminate.
    set (b0 := set_metas _ _) in H.
    destruct (build_tree _ _ _ _ (snd s)) as [[t1 [[b1 i1] al]]| | |] eqn:E; cbn [rbind] in H; try discriminate.
    apply build_tree_leaf in E as (c & c' & E).
    assert (Q (P ++ [r])%list b1).
    { apply (build_leaf_inv b0 fm []) in E as (c0 & tab & d & tab' & d' & _ & _ & _ & _ & E). cbv zeta in E.
      eapply QB; [split; eauto| | | | |exact E].
      - unfold own_meta. rewrite EMM. cbn [rbind]. destruct (r_fixed r); reflexivity.
      - intros q I HI. exact (QN _ _ _ _ HQ I HI EM).
      - destruct (r_fixed r); unfold b0; cbn [set_metas b_metas]; apply madd_some.
      - destruct (r_fixed r); [|apply QM]; apply QM, HQ. }
    destruct al; [assert (s' = (b1, t1)) as -> by congruence; auto|]. eapply (aliases_keep Q QM); [|exact H]. auto.
Qed.
Lemma configure_keep_new incl excl recs : forall P s s', Q P (fst s) -> configure incl excl recs s = Ok s' ->
  Q (P ++ filter has_mn (kept incl excl recs))%list (fst s').
Proof.
  induction recs as [|r recs IH]; intros P s s' HQ H; cbn [configure] in H.
  - assert (s' = s) as -> by congruence. cbn. now rewrite app_nil_r.
  - unfold kept. cbn [filter]. fold (kept incl excl recs). destruct (r_mn r) as [mn|] eqn:EM.
    + rewrite C18_filter_lemma in H. destruct (wantedb incl excl (r_tags r)) eqn:EW; [|eapply IH; eauto].
      destruct (parse_inst s r mn) as [s1| | |] eqn:E; cbn [rbind] in H; try discriminate.
      apply (parse_keep_new P _ _ _ _ EM HQ) in E. specialize (IH _ _ _ E H). rewrite <- app_assoc in IH.
      cbn [filter]. unfold has_mn at 1. rewrite EM. exact IH.
    + destruct (r_pseudo r); [|discriminate]. specialize (IH _ _ _ HQ H).
      destruct (wantedb incl excl (r_tags r)); [|exact IH]. cbn [filter]. unfold has_mn at 1. rewrite EM. exact IH.
Qed.
End Preserve.

(** ** The invariant *)
Record cinv (P : list irec) (b : builder) : Prop := mkCI {
  ci_named : forall q n, In q P -> is_inst q n -> mfind (b_metas b) n <> None;
  ci_key : forall F, find_ifact b F <> None -> custom F \/ exists r, In r P /\ (member F r \/ (is_inst r F /\ r_expand r = ""%string));
  ci_merge : forall i f mn u, nth_error (b_facts b) i = Some f -> mfind (fc_metas f) mn = Some u ->
    exists r m, In r P /\ is_inst r mn /\ r_expand r <> ""%string /\ own_meta r = Ok m /\ u = meta_merge (fc_meta f) m /\
      (own_name P (r_expand r) -> find_ifact b (r_expand r) = Some i) }.
Lemma own_name_app P Q n : own_name (P ++ Q) n -> own_name P n.
Proof. intros (C & H). split; [exact C|]. intros r I. apply H, in_or_app. auto. Qed.
Lemma own_named P F : own_name P F -> (exists r, In r P /\ (member F r \/ (is_inst r F /\ r_expand r = ""%string))) -> exists q, In q P /\ is_inst q F.
Proof.
  intros (_ & O) (r & I & [(n & HI & _ & E)|(HI & _)]); [|eauto]. exists r. split; [exact I|]. unfold fname_of in E.
  destruct (r_factory r) as [f|] eqn:EF; [subst f|subst n; exact HI]. split; [exact (O r I EF)|apply HI].
Qed.
Lemma uid_metas mn u f : fc_metas (fact_add_uid mn u f) = fc_metas f /\ fc_meta (fact_add_uid mn u f) = fc_meta f.
Proof. unfold fact_add_uid. destruct (mfind _ _); auto. Qed.
Lemma anno_metas mn a f : fc_metas (fact_add_anno mn a f) = fc_metas f /\ fc_meta (fact_add_anno mn a f) = fc_meta f.
Proof. unfold fact_add_anno. destruct (mfind _ _); auto. Qed.
Lemma cinv_bld P b r mn m b' i : is_inst r mn -> own_meta r = Ok m -> (forall q, In q P -> ~ is_inst q mn) -> mfind (b_metas b) mn <> None ->
  cinv P b -> bld b mn (fname_of r mn) (r_expand r) (r_stencil r) m = Ok (b', i) -> cinv (P ++ [r]) b'.
Proof.
  intros HI OM NEW KN [I1 I2 I3] H.
  assert (INR : In r (P ++ [r])%list) by (apply in_or_app; right; now left).
  assert (NAMED : forall b'', b_metas b'' = b_metas b -> forall q n, In q (P ++ [r])%list -> is_inst q n -> mfind (b_metas b'') n <> None).
  { intros b'' E q n I Q. rewrite E. apply in_app_or in I as [I|[<-|[]]]; [eauto|]. assert (n = mn) as -> by (destruct Q, HI; congruence). exact KN. }
  destruct (String.eqb (r_expand r) "") eqn:EX.
  2:{ apply String.eqb_neq in EX. apply bld_expand_inv in H; [|exact EX]. destruct H as [(f0 & u & G1 & G2 & G3 & _) G4 G5 G6 G7].
    assert (RR : forall k, find_ifact b' k = find_ifact b k) by (intros k; unfold find_ifact; now rewrite G5).
    constructor.
    - apply NAMED, G6.
    - intros F HF. rewrite RR in HF. destruct (I2 F HF) as [C|(q & A & B)]; [auto|right]. exists q. split; [apply in_or_app; auto|exact B].
    - intros j f n w Hj Hw.
      assert (OLD : forall f', nth_error (b_facts b) j = Some f' -> mfind (fc_metas f') n = Some w -> fc_meta f = fc_meta f' ->
        exists r1 m1, In r1 (P ++ [r])%list /\ is_inst r1 n /\ r_expand r1 <> ""%string /\ own_meta r1 = Ok m1 /\ w = meta_merge (fc_meta f) m1 /\
          (own_name (P ++ [r]) (r_expand r1) -> find_ifact b' (r_expand r1) = Some j)).
      { intros f' Hj' Hw' E. destruct (I3 j f' n w Hj' Hw') as (q & m1 & Q1 & Q2 & Q3 & Q4 & Q5 & Q6). exists q, m1.
        split; [apply in_or_app; auto|]. do 3 (split; [assumption|]). split; [congruence|]. intros O. rewrite RR. apply Q6. exact (own_name_app _ _ _ O). }
      destruct (PeanoNat.Nat.eq_dec j i) as [->|NE]; [|rewrite G4 in Hj by exact NE; apply (OLD f Hj Hw eq_refl)].
      rewrite G3 in Hj. injection Hj as <-. destruct (uid_metas mn u f0) as (U1 & U2). unfold fact_merge_meta in Hw, OLD |- *. rewrite U1 in *.
      destruct (mfind (fc_metas f0) mn) as [w0|] eqn:E0.
      + rewrite U1 in Hw. exact (OLD f0 G2 Hw U2).
      + cbn [fc_metas fc_meta] in *. rewrite U2 in *. rewrite mfind_madd in Hw. destruct (String.eqb mn n) eqn:EN.
        * apply String.eqb_eq in EN. subst n. injection Hw as <-. exists r, m. do 4 (split; [assumption|]). split; [reflexivity|]. intros _. rewrite RR. exact G1.
        * exact (OLD f0 G2 Hw eq_refl). }
  apply String.eqb_eq in EX. rewrite EX in H. apply bld_normal_inv in H. destruct H as [(f0 & u & G1 & G2 & _) G4 G5 G6 G7].
  constructor.
  - apply NAMED, G6.
  - intros F HF. rewrite G5 in HF. destruct (String.eqb_spec mn F) as [E|N1].
    { right. exists r. split; [exact INR|]. rewrite <- E. auto. }
    destruct (String.eqb_spec (fname_of r mn) F) as [E|N2]; cbn [orb] in HF.
    { right. exists r. split; [exact INR|]. left. exists mn. auto. }
    destruct (I2 F HF) as [C|(q & A & B)]; [auto|right]. exists q. split; [apply in_or_app; auto|exact B].
  - intros j f n w Hj Hw.
    assert (OLD : forall f', nth_error (b_facts b) j = Some f' -> mfind (fc_metas f') n = Some w -> fc_meta f = fc_meta f' ->
      exists r1 m1, In r1 (P ++ [r])%list /\ is_inst r1 n /\ r_expand r1 <> ""%string /\ own_meta r1 = Ok m1 /\ w = meta_merge (fc_meta f) m1 /\
        (own_name (P ++ [r]) (r_expand r1) -> find_ifact b' (r_expand r1) = Some j)).
    { intros f' Hj' Hw' E. destruct (I3 j f' n w Hj' Hw') as (q & m1 & Q1 & Q2 & Q3 & Q4 & Q5 & Q6). exists q, m1.
      split; [apply in_or_app; auto|]. do 3 (split; [assumption|]). split; [congruence|]. intros O. rewrite G5.
      pose proof (own_name_app _ _ _ O) as OP. specialize (Q6 OP).
      assert (NM : mn <> r_expand q).
      { intros EM. destruct (I2 (r_expand q)) as [C|Z]; [congruence|exact (proj1 OP C)|].
        destruct (own_named P _ OP Z) as (q' & J1 & J2). apply (NEW q' J1). now rewrite EM. }
      assert (NF : fname_of r mn <> r_expand q).
      { unfold fname_of. destruct (r_factory r) as [g|] eqn:EG; [|exact NM]. intros EM. subst g.
        pose proof (proj2 O r INR EG) as X. destruct HI as (X' & _). congruence. }
      apply String.eqb_neq in NM, NF. rewrite NM, NF. exact Q6. }
    destruct (PeanoNat.Nat.eq_dec j i) as [->|NE]; [|rewrite G4 in Hj by exact NE; apply (OLD f Hj Hw eq_refl)].
    rewrite G2 in Hj. injection Hj as <-. destruct (uid_metas mn u (fact_add_anno mn (panno_of b (fname_of r mn) mn) f0)) as (U1 & U2).
    destruct (anno_metas mn (panno_of b (fname_of r mn) mn) f0) as (U3 & U4). rewrite U1, U3 in Hw.
    destruct G1 as [(_ & K2)|(_ & -> & _)]; [|discriminate]. exact (OLD f0 K2 Hw (eq_trans U2 U4)).
Qed.
Lemma cinv_overlay P b r mn o x b' : r_mn r = Some mn -> r_overlay r = Some o -> cinv P b ->
  build_overlay b mn o r x = Ok b' -> cinv (P ++ [r]) b'.
Proof.
  intros E1 E2 [I1 I2 I3] H. apply build_overlay_inv in H as [(base & mask & v & bm & m & uid & i & f & _ & _ & _ & _ & H5 & _ & H7) R M L]. cbv zeta in H7.
  assert (RR : forall k, find_ifact b' k = find_ifact b k) by (intros k; unfold find_ifact; now rewrite R).
  constructor.
  - intros q n I Q. rewrite M. apply in_app_or in I as [I|[<-|[]]]; [eauto|]. destruct Q; congruence.
  - intros F HF. rewrite RR in HF. destruct (I2 F HF) as [C|(q & A & B)]; [auto|right]. exists q. split; [apply in_or_app; auto|exact B].
  - intros j f' n w Hj Hw.
    assert (exists f1, nth_error (b_facts b) j = Some f1 /\ fc_metas f1 = fc_metas f' /\ fc_meta f1 = fc_meta f') as (f1 & F1 & F2 & F3).
    { rewrite H7, nth_set_nth in Hj. destruct (Nat.eqb i j) eqn:E; [|eauto]. apply PeanoNat.Nat.eqb_eq in E as <-. rewrite H5 in Hj. injection Hj as <-.
      exists f. auto. }
    rewrite <- F2 in Hw. destruct (I3 j f1 n w F1 Hw) as (q & m1 & Q1 & Q2 & Q3 & Q4 & Q5 & Q6). exists q, m1.
    split; [apply in_or_app; auto|]. do 3 (split; [assumption|]). split; [congruence|]. intros O. rewrite RR. apply Q6. exact (own_name_app _ _ _ O).
Qed.
Lemma cinv_metas P b mn m : cinv P b -> cinv P (set_metas b (madd (b_metas b) mn m)).
Proof.
  intros [I1 I2 I3]. constructor; auto. intros q n I Q. cbn [set_metas b_metas]. rewrite mfind_madd. destruct (String.eqb mn n); [discriminate|eauto].
Qed.
Lemma cinv_new b : binv [] b -> cinv [] b.
Proof.
  intros I. constructor.
  - intros q n [].
  - intros F H. destruct (find_ifact b F) as [i|] eqn:E; [|congruence]. destruct (bi_keys _ _ _ I F i E) as [C|(r & [] & _)]. auto.
  - intros i f mn u Hf Hu. destruct (bi_fmetas _ _ _ I i f mn u Hf Hu) as (r & [] & _).
Qed.

Section Claims.
Context (uids : list (string * N)) (annos : list (string * anno)) (nu : N) (incl excl : list (string -> bool)) (recs : list irec) (s : builder * tree).
Context (HD : make_decoder uids annos nu incl excl recs = Ok s) (HS : separated (encodings (kept incl excl recs))).
Local Notation K := (kept incl excl recs).
Lemma made_cinv : cinv (filter has_mn K) (fst s).
Proof.
  unfold make_decoder in HD. destruct (builder_new uids annos nu) as [b0| | |] eqn:E; cbn [rbind] in HD; try discriminate.
  exact (configure_keep_new cinv cinv_metas (fun P b r mn C => ci_named P b C r mn) cinv_bld cinv_overlay incl excl recs [] (b0, tree_new) s (cinv_new b0 (builder_new_ok _ _ _ _ E)) HD).
Qed.
Lemma compressed_lemma {A U} ic v : decode (A := A) (U := U) s ic = Ok v ->
  exists r e, listed K r e /\ selected (encodings K) e ic /\
    ((forall mn mask, ~ overlay_hit K mn (en_mn e) mask ic) -> r_expand r <> ""%string -> ~ custom (en_mn e) -> own_name K (r_expand r) ->
     forall rx r0, In rx K -> is_inst rx (r_expand r) -> r_expand rx = ""%string ->
     alone K (fname_of rx (r_expand r)) -> founder K (fname_of rx (r_expand r)) r0 ->
     exists m0 m, own_meta r0 = Ok m0 /\ own_meta r = Ok m /\ i_meta v = meta_merge m0 m).
Proof.
  intros H. destruct (decode_ok_cases _ _ _ _ _ _ _ HD HS _ _ H) as (P & r & e & x & i & f & I & HP & L & S & X & IL & RG & Hf & LI).
  exists r, e. split; [exact L|]. split; [exact S|]. intros NO EX NC ON rx r0 IX HX XX AL FO.
  destruct (listed_mn _ _ (proj2 L)) as (HI & _).
  assert (HR : In r P) by (apply HP; split; [apply L|destruct HI; congruence]).
  assert (HRX : In rx P) by (apply HP; split; [exact IX|destruct HX; congruence]).
  pose proof RG as (f' & m & Hf' & OM & _ & _ & _ & _ & RX & _). assert (f' = f) as -> by congruence.
  destruct (RX EX NC) as (_ & FM).
  destruct made_cinv as [_ _ C3]. destruct (C3 i f _ _ Hf FM) as (r' & m' & Q1 & Q2 & _ & _ & _ & Q6).
  assert (r' = r) as ->.
  { apply (bi_uniq _ _ _ I r' r (en_mn e)); auto. apply filter_In in Q1 as (Q1 & Q1'). apply HP. split; [exact Q1|now apply has_mn_iff]. }
  assert (FX : find_ifact (fst s) (r_expand r) = Some i).
  { apply Q6. split; [apply ON|]. intros q Iq. apply filter_In in Iq. apply (proj2 ON), Iq. }
  destruct (bi_insts _ _ _ I rx (r_expand r) HRX HX) as (i' & RG').
  pose proof RG' as (g & mx & Hg & _ & _ & _ & _ & RN & _). destruct (RN XX) as (R1 & _). assert (i' = i) as -> by congruence.
  destruct (fact_found uids annos nu incl excl recs s HD P rx (r_expand r) i f r0 I HP Hf RG' XX AL FO) as (OM0 & _).
  exists (fc_meta f), m. split; [exact OM0|]. split; [exact OM|].
  destruct (leaf_info_cases _ _ _ _ _ LI) as (uid & a & _ & _ & _ & D). destruct D as [(o & O1 & O2 & _)|(_ & _ & O4 & _)].
  - exfalso. apply find_some in O1 as [O1 O5]. destruct (bi_ols _ _ _ I _ _ _ Hf O1) as (_ & ro & Hro & OV).
    apply (NO (ov_mn o) (ov_mask o)). exists ro. rewrite <- O2. exact (overlay_of_hit _ _ _ P (fst s) ro o ic HP Hro OV O5).
  - rewrite O4. unfold fact_meta. now rewrite FM.
Qed.
End Claims.
