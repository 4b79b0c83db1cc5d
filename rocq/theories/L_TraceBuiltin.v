(** Lemmas: trace records called nop or cmov, the two instructions that exist before any record is read. *)
From Coq Require Import NArith ZArith Arith List Bool String Lia ZifyBool ZifyN ZifyNat.
From Verif Require Import M_Base M_Field M_Forms M_Meta M_OperandInfo M_Extract M_Decoded M_Cache M_Registry M_Trie M_Builder M_DTable M_Direct M_Raw.
From Verif Require Import S_Bits S_Maps S_Uids S_Trie S_Table S_Anno S_History S_TraceRecord.
From Verif Require Import L_Check L_Claims.
From Verif Require Import L_Bits L_Count L_OperandInfo L_Cache L_Registry L_Uids L_CtxUids L_Ids L_Trie L_Table L_Decode L_History L_Objects L_Direct L_AnnoDecode S_Shipped L_HistRefuted L_TraceRecord L_TraceKnown.
From Verif Require Import L_Local L_Builtin L_Founder.
Import ListNotations.
Local Open Scope N_scope.

(** ** The factory of an untouched name stays *)
Section Stay.
Context (mn : string) (i0 : nat).
Definition stay (P : list irec) (b : builder) : Prop := untouched P mn -> find_ifact b mn = Some i0.
Lemma stay_metas P b n m : stay P b -> stay P (set_metas b (madd (b_metas b) n m)).
Proof. intros H U. exact (H U). Qed.
Lemma stay_bld P b r n m b' i : is_inst r n -> own_meta r = Ok m -> stay P b ->
  bld b n (fname_of r n) (r_expand r) (r_stencil r) m = Ok (b', i) -> stay (P ++ [r]) b'.
Proof.
  intros [I1 I2] _ H E U. pose proof (H (untouched_app _ _ _ U)) as F. destruct U as (_ & U).
  assert (NE : n <> mn) by (intros ->; destruct (U r ltac:(apply in_or_app; right; now left) I1) as [Q _]; contradiction).
  destruct (String.eqb_spec (r_expand r) "") as [EX|EX].
  - rewrite EX in E. apply bld_normal_inv in E as [(f0 & u & D & _) _ R _ _]. rewrite R.
    rewrite (proj2 (String.eqb_neq n mn) NE). cbn [orb]. destruct (String.eqb_spec (fname_of r n) mn) as [Q|]; [|exact F].
    rewrite Q in D. destruct D as [(D & _)|(D & _)]; congruence.
  - apply bld_expand_inv in E; [|exact EX]. unfold find_ifact. rewrite (bx_reg _ _ _ _ _ _ E). exact F.
Qed.
Lemma stay_overlay P b r n o x b' : r_mn r = Some n -> r_overlay r = Some o -> stay P b -> build_overlay b n o r x = Ok b' -> stay (P ++ [r]) b'.
Proof.
  intros _ _ H E U. pose proof (H (untouched_app _ _ _ U)) as F. apply build_overlay_inv in E. unfold find_ifact. rewrite (bo_reg _ _ _ _ _ _ E). exact F.
Qed.
End Stay.

Section Table.
Context (uids : list (string * N)) (annos : list (string * anno)) (nu : N)
  (incl excl : list pattern) (recs : list irec) (s : builder * tree).
Context (HN : 0 < nu < w32) (HD : make_decoder uids annos nu incl excl recs = Ok s).
Let K := kept incl excl recs.
Context (W : well_formed K) (mn : string) (U : untouched K mn) (ic : N).
Lemma first_fact : exists i f u, find_ifact (fst s) mn = Some i /\ nth_error (b_facts (fst s)) i = Some f /\ fc_name f = mn /\ mfind (fc_uids f) mn = Some u /\
  mfind (ir_map (b_inst (fst s))) mn = Some u /\ mfind (fc_annos f) mn = Some (mfind annos mn) /\ built_in mn (fc_meta f).
Proof.
  unfold make_decoder in HD. destruct (builder_new uids annos nu) as [b0| | |] eqn:EB; cbn [rbind] in HD; try discriminate.
  pose proof (configure_le _ _ _ _ _ HD) as LE. cbn [fst] in LE.
  apply builder_new_inv in EB as (u & u' & m1 & m2 & F & B1 & B2 & R1 & R2 & U1 & U2 & _).
  assert (UF : untouched ([] ++ filter has_mn K)%list mn) by (split; [apply U|]; intros r Hr; apply U; cbn [app] in Hr; now apply filter_In in Hr).
  assert (ST : forall i, find_ifact b0 mn = Some i -> find_ifact (fst s) mn = Some i).
  { intros i E. refine (configure_keep_own (stay mn i) (stay_metas mn i) (stay_bld mn i) (stay_overlay mn i) incl excl recs [] _ s _ HD UF). intros _. exact E. }
  assert (G : forall i m w, find_ifact b0 mn = Some i -> nth_error (b_facts b0) i = Some (mkFact mn 0 m [(mn, w)] [(mn, mfind annos mn)] [] []) ->
    mfind (ir_map (b_inst b0)) mn = Some w -> built_in mn m ->
    exists i f u, find_ifact (fst s) mn = Some i /\ nth_error (b_facts (fst s)) i = Some f /\ fc_name f = mn /\ mfind (fc_uids f) mn = Some u /\
      mfind (ir_map (b_inst (fst s))) mn = Some u /\ mfind (fc_annos f) mn = Some (mfind annos mn) /\ built_in mn (fc_meta f)).
  { intros i m w E1 E2 E3 E4. destruct (bl_facts _ _ LE _ _ E2) as (f & Hf & L). exists i, f, w. split; [auto|]. split; [exact Hf|].
    split; [exact (fl_name _ _ L)|]. split; [apply (fl_uids _ _ L); cbn [fc_uids mfind]; now rewrite String.eqb_refl|].
    split; [exact (bl_ids _ _ LE _ _ E3)|]. split; [apply (fl_annos _ _ L); cbn [fc_annos mfind]; now rewrite String.eqb_refl|].
    rewrite (fl_meta _ _ L). exact E4. }
  destruct U as ([->| ->] & _); [apply (G 0%nat m1 u)|apply (G 1%nat m2 u')]; auto; rewrite F; reflexivity.
Qed.
Lemma built_fact : exists i f u, find_ifact (fst s) mn = Some i /\ nth_error (b_facts (fst s)) i = Some f /\ mfind (fc_uids f) mn = Some u /\
  mfind (ir_map (b_inst (fst s))) mn = Some u /\ u <> 0 /\ mfind (fc_annos f) mn = Some (mfind annos mn) /\ built_in mn (fact_meta f mn) /\
  (forall o, In o (fc_olays f) -> ov_base o = mn -> ov_match ic o = false) /\
  (forall m0 p, tree_sel (snd s) ic = Ok (m0, p) -> pay_fact p = i -> exists r e, listed K r e /\ selected (encodings K) e ic /\ r_expand r = mn).
Proof.
  destruct first_fact as (i & f & u & FI & Hf & FN & U1 & U2 & AN & BI).
  destruct (payload_reg uids annos nu incl excl recs s HD W) as (P & I & HP & PR). pose proof (decoder_sound _ _ _ _ _ _ _ HN HD) as [_ _ _ SR].
  exists i, f, u. split; [exact FI|]. split; [exact Hf|]. split; [exact U1|]. split; [exact U2|].
  split; [apply (ro_bound _ _ _ SR) in U2; lia|]. split; [exact AN|]. split; [|split].
  - unfold fact_meta. destruct (mfind (fc_metas f) mn) as [m1|] eqn:E; [|exact BI]. exfalso.
    destruct (bi_fmetas _ _ _ I _ _ _ _ Hf E) as (r & R1 & [R2 R2'] & R3). apply HP in R1 as [R1 _]. destruct (proj2 U _ R1 R2). contradiction.
  - intros o O1 O2. destruct (ov_match ic o) eqn:O3; [|reflexivity]. exfalso. destruct (bi_ols _ _ _ I _ _ _ Hf O1) as (_ & ro & Hro & OV).
    pose proof (overlay_of_hit _ _ _ P (fst s) ro o ic HP Hro OV O3) as (Q1 & Q2). rewrite O2 in Q2.
    destruct (wf_base _ W _ _ _ _ _ Q1 Q2) as [(NC & _) _]. exact (NC (proj1 U)).
  - intros m0 p TS PF. destruct (PR _ _ _ TS) as (r & e & L & S & RG). rewrite PF in RG. exists r, e. split; [exact L|]. split; [exact S|].
    destruct (listed_mn _ _ (proj2 L)) as (HI & _). assert (HR : In r P) by (apply HP; split; [apply L|destruct HI; congruence]).
    destruct RG as (f' & m' & Hf' & _ & _ & _ & _ & RN' & RX & _). assert (f' = f) as -> by congruence.
    destruct (string_dec (r_expand r) "") as [EX|EX].
    + exfalso. destruct (RN' EX) as (_ & _ & _ & AL). destruct (wf_meta _ W _ _ (proj1 L) HI EX) as (AN' & _).
      assert (ALP : alone P (fname_of r (en_mn e))) by (destruct AN' as (C & S1); split; [auto|]; intros q Hq; apply S1; now apply HP).
      specialize (AL ALP). apply (proj1 AN'). rewrite <- AL, FN. apply U.
    + destruct (wf_expand _ W _ _ (proj1 L) HI EX) as (NC & SU). destruct (RX EX NC) as (_ & R2).
      destruct (configured_annos _ _ _ _ _ _ _ HD) as (P' & AI & HP').
      destruct (ai_exp _ _ _ AI _ _ _ _ Hf R2) as (r1 & Q1 & Q2 & Q3 & Q4).
      assert (r1 = r) as -> by (apply (bi_uniq _ _ _ I r1 r (en_mn e)); auto; apply HP; now apply HP').
      assert (SUP : sole P' (r_expand r) \/ untouched P' (r_expand r)).
      { destruct SU as [SU|SU]; [left|right].
        - destruct SU as (C & S1 & S2). split; [auto|]. split; intros q Hr; [apply S1|apply S2]; apply HP'; auto.
        - destruct SU as (C & S1). split; [auto|]. intros q Hr. apply S1. apply HP'; auto. }
      specialize (Q4 SUP). destruct (ai_names _ _ _ AI _ _ _ Q4 Hf) as [Q|(q & F & G1 & G2 & G3 & G4)]; [congruence|]. exfalso.
      apply HP' in G1 as [G1 _]. destruct SU as [(_ & _ & S2)|(_ & S1)]; [destruct (S2 _ G1 G2); congruence|destruct (S1 _ G1 G2); congruence].
Qed.
End Table.

Section Claims.
Context {A U : Type} (u0 : U).
Lemma builtin_lemma uids annos nu incl excl recs s : 0 < nu < w32 -> make_decoder uids annos nu incl excl recs = Ok s ->
  let K := kept incl excl recs in well_formed K ->
  forall (h : list (op A U)) ic mn srcs dsts imm a k o, srcs < 2 ^ 64 -> dsts < 2 ^ 64 ->
  let d := fst (run u0 (dt_new s) h) in
  ~ recorded h ic -> snd (step u0 d (OMake ic a)) = Ok (AObj k o) -> ob_mnemonic o <> mn ->
  untouched K mn ->
  (forall r' e, listed K r' e -> selected (encodings K) e ic -> r_expand r' <> mn) ->
  let p := step u0 d (OTrace ic mn (trace_ext srcs dsts imm) a) in
  exists k' v, snd p = Ok (AObj k' (mkObj v a u0)) /\ repeats mn ic srcs dsts imm v /\ i_anno v = mfind annos mn /\
    built_in mn (i_meta v) /\ d_uid (i_di v) = uid_now (fst p) mn /\ d_uid (i_di v) <> 0.
Proof.
  intros HN HD K W h ic mn srcs dsts imm a k o LS LD d NR E NE UT NF.
  destruct (built_fact uids annos nu incl excl recs s HN HD W mn UT ic) as (i & f & u & F1 & F2 & F3 & F4 & F5 & F6 & F7 & F8 & F9).
  assert (KI : kinv (snd s) ic mn i (fc_olays f) u (mfind annos mn) (fact_meta f mn) d).
  { apply run_kinv; [exact NR|]. split; [reflexivity| |intros j; apply stash_all_new]. split; auto. exists f. split; [exact F2|]. repeat split; auto. }
  assert (NH : ~ here (snd s) ic i).
  { intros (m0 & p & TS & PF). destruct (F9 m0 p TS (eq_sym PF)) as (r' & e & L & S & Q). exact (NF _ _ L S Q). }
  destruct (known_step u0 (snd s) ic mn i (fc_olays f) u (mfind annos mn) (fact_meta f mn) d srcs dsts imm a k o LS LD KI F5 NH F8 E NE) as (k' & v & P1 & P2 & P3 & P4 & P5 & P6).
  cbv zeta. exists k', v. split; [exact P1|]. split; [exact P2|]. split; [exact P3|]. split; [rewrite P4; exact F7|]. split; congruence.
Qed.
End Claims.

(** ** Cases *)
Definition by_nop : list (op N N) := [OMake 0x108093 1; OTrace 0x85 "nop" (trace_ext 2 4 0) 1; OMake 0x00B50533 2].
Lemma builtin_case : exists s k o, make_decoder [] [] 1 [] [] family = Ok s /\ well_formed family /\
  ~ recorded by_nop 0x00B50533 /\
  snd (step 0 (fst (run 0 (dt_new s) by_nop)) (OMake 0x00B50533 2)) = Ok (AObj k o) /\ ob_mnemonic o = "add"%string /\
  untouched family "nop" /\ (forall r' e, listed family r' e -> selected (encodings family) e 0x00B50533 -> r_expand r' <> "nop"%string).
Proof.
  assert (G : forall x, match make_decoder [] [] 1 [] [] family with Ok s => sight (snd (step 0 (fst (run 0 (dt_new s) by_nop)) (OMake 0x00B50533 2))) | _ => UB end = Ok (Some x) ->
    exists s, make_decoder [] [] 1 [] [] family = Ok s /\ sight (snd (step 0 (fst (run 0 (dt_new s) by_nop)) (OMake 0x00B50533 2))) = Ok (Some x)).
  { generalize family. intros T x. destruct (make_decoder _ _ _ _ _ T) as [s| | |]; try discriminate. intros H. exists s. auto. }
  destruct (G ("add"%string, 3072, 1024, 0)) as (s & E & Q); [vm_compute; reflexivity|]. clear G.
  apply obj_of_sight in Q as (k & o & Q & M & _).
  exists s, k, o. split; [exact E|]. split; [apply well_formedb_ok; vm_compute; reflexivity|]. split.
  { intros (n & x & a & I). destruct I as [I|[I|[I|[]]]]; discriminate. }
  split; [exact Q|]. split; [exact M|]. split; [apply untouchedb_ok; vm_compute; reflexivity|].
  intros r e L S. apply (strangerb_ok family "nop" 0x00B50533 ltac:(vm_compute; reflexivity) r e L S).
Qed.
