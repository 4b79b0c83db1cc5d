(** Instructions asked for by name or by UID. *)
From Coq Require Import Arith NArith List Bool Lia ZifyBool ZifyN ZifyNat String.
From Verif Require Import M_Base M_Meta M_Extract M_Decoded M_Cache M_Registry M_Trie M_Builder M_DTable M_Direct.
From Verif Require Import S_Maps S_Trie S_Table S_History L_Trie L_Table L_Ids L_Uids L_Decode L_Total L_History L_HistClaims L_Objects L_Traces.
Import ListNotations.
Local Open Scope N_scope.

Section Names.
Context {A U : Type} (u0 : U) (uids : list (string * N)) (annos : list (string * anno)) (nu : N)
  (incl excl : list pattern) (recs : list irec) (s : builder * tree).
Context (NU : 0 < nu < w32) (HD : make_decoder uids annos nu incl excl recs = Ok s)
  (HS : separated (encodings (kept incl excl recs))).
Let K := kept incl excl recs.
Notation op := (op A U).
Notation d0 := (dt_new (A := A) (U := U) s).

Lemma view_gives (a : res (ans A U)) h r : view a = snd (give u0 h r) -> gives u0 r a.
Proof.
  unfold view, give, gives. destruct a as [[v|k [v' a' u']|]|e| |], r as [w|e'| |]; cbn; try discriminate; try congruence.
  intros [= <- <-]. eauto.
Qed.
Lemma direct_gives (h : list op) mn uid x a : Forall (covered s) h -> uid + DEFAULT_UP_SIZE < w32 ->
  gives u0 (plain_direct s mn uid x) (snd (step u0 (fst (run u0 d0 h)) (ODirect mn uid x a))).
Proof.
  intros F C. destruct (ready _ _ _ _ _ _ _ NU HD) as [N S].
  destruct (state_sim u0 s N h d0 [] (sim_new u0 s S) F) as (h' & SM).
  destruct (step_sim u0 s N _ _ (ODirect mn uid x a) SM C) as [_ Q]. exact (view_gives _ _ _ Q).
Qed.

(** ** By name *)
Lemma name_info r mn x : In r K -> is_inst r mn -> r_expand r = ""%string -> uniform K r mn ->
  exists m, own_meta r = Ok m /\ answers (mkRd mn m x) (lookup_uid s mn) 0 (plain_direct s mn INVALID_UID x).
Proof.
  destruct s as [b t] eqn:Es. pose proof HD as HD'. unfold make_decoder in HD'.
  destruct (builder_new uids annos nu) as [b0| | |] eqn:EB; cbn [rbind] in HD'; try discriminate.
  destruct (configured _ _ _ _ _ _ _ _ _ EB HD' HS) as (X & P & _ & _ & I & _ & HP). fold K in HP.
  intros Hr HI EX ((W1 & W2) & W3). assert (HR : In r P) by (apply HP; split; [auto|destruct HI; congruence]).
  destruct (bi_insts _ _ _ I r mn HR HI) as (i & f & m & Hf & OM & _ & AN & _ & RN & _).
  destruct (RN EX) as (R1 & R2 & _ & R4). destruct R2 as (u & R5 & R6 & _).
  assert (fc_name f = fname_of r mn) as FN by (apply R4; split; [auto|]; intros r0 Hr0; apply W2; now apply HP).
  exists m. split; [exact OM|]. unfold plain_direct. cbn [INVALID_UID N.eqb rbind fst]. rewrite R1. unfold get_fact. rewrite Hf. cbn [rbind].
  unfold bypass_info, fact_uid. rewrite R5.
  destruct (configured_ids _ _ _ _ _ _ _ NU HD) as (P' & [_ UR UF] & _). destruct (UF _ _ Hf) as [UF1 _].
  pose proof (UF1 _ _ R5) as NZ. apply N.eqb_neq in NZ. rewrite NZ. cbn [negb rassert rbind].
  assert (fc_meta f = m) as ->.
  { destruct (bi_orig _ _ _ I _ _ Hf) as [D|(_ & r1 & mn1 & Q1 & Q2 & Q3 & Q4 & Q5 & Q6)].
    { exfalso. apply W1. rewrite <- FN. now apply built_in_custom in D. }
    assert (own_meta r1 = own_meta r) by (apply (W3 r1 mn1); auto; [now apply HP|congruence]). congruence. }
  assert (lookup_uid (b, t) mn = u) as -> by (unfold lookup_uid, ir_uid; cbn [fst]; now rewrite R6).
  unfold answers. cbn [rd_mn rd_x rd_meta]. destruct (decode_info mn u x m 0) as [d| | |]; cbn [rbind]; try reflexivity.
  unfold fact_anno. destruct (fc_annos f) eqn:EA; [contradiction|]. cbn [rassert rbind].
  destruct (mfind (_ :: _) mn); cbn [rbind]; [eexists; reflexivity|].
  destruct (mfind (_ :: _) (fc_name f)); cbn [rbind]; eexists; reflexivity.
Qed.
Lemma by_name_lemma (h : list op) r mn x a : Forall (covered s) h ->
  In r K -> is_inst r mn -> r_expand r = ""%string -> uniform K r mn ->
  exists m v, own_meta r = Ok m /\ answers (mkRd mn m x) (lookup_uid s mn) 0 v /\
    gives u0 v (snd (step u0 (fst (run u0 d0 h)) (ODirect mn INVALID_UID x a))).
Proof.
  intros F H1 H2 H3 H5. destruct (name_info r mn x H1 H2 H3 H5) as (m & M1 & M2).
  exists m, (plain_direct s mn INVALID_UID x). split; [exact M1|]. split; [exact M2|]. apply direct_gives; [exact F|reflexivity].
Qed.
(** ** By UID *)
Lemma uid_name_lemma r mn : In r K -> is_inst r mn -> r_expand r = ""%string ->
  ir_mnemonic (b_inst (fst s)) (lookup_uid s mn) = Ok mn /\ lookup_uid s mn <> INVALID_UID.
Proof.
  destruct s as [b t] eqn:Es. pose proof HD as HD'. unfold make_decoder in HD'.
  destruct (builder_new uids annos nu) as [b0| | |] eqn:EB; cbn [rbind] in HD'; try discriminate.
  destruct (configured _ _ _ _ _ _ _ _ _ EB HD' HS) as (X & P & _ & _ & I & _ & HP). fold K in HP.
  intros Hr HI EX. assert (HR : In r P) by (apply HP; split; [auto|destruct HI; congruence]).
  destruct (bi_insts _ _ _ I r mn HR HI) as (i & f & m & Hf & OM & _ & AN & _ & RN & _).
  destruct (RN EX) as (R1 & R2 & _ & R4). destruct R2 as (u & R5 & R6 & _).
  destruct (configured_ids _ _ _ _ _ _ _ NU HD) as (P' & [_ UR UF] & HP').
  unfold lookup_uid, ir_uid. cbn [fst] in *. rewrite R6. split.
  - assert (da_slot (ir_arr (b_inst b)) u = Some mn) as SL.
    { apply (ro_own _ _ _ UR _ _ R6). intros (r0 & E1 & E2 & E3). apply HP' in E1. apply HP in E1. apply E3. now rewrite (bi_uniq _ _ _ I r0 r mn). }
    unfold ir_mnemonic, da_lookup. destruct (ro_arr _ _ _ UR) as [_ DB]. rewrite SL. apply DB in SL. apply N.ltb_lt in SL. now rewrite SL.
  - eapply reg_ok_pos; eauto.
Qed.
Lemma by_uid_lemma (h : list op) r mn mn' x a : Forall (covered s) h ->
  In r K -> is_inst r mn -> r_expand r = ""%string -> lookup_uid s mn + DEFAULT_UP_SIZE < w32 ->
  view (snd (step u0 (fst (run u0 d0 h)) (ODirect mn' (lookup_uid s mn) x a))) =
  view (snd (step u0 (fst (run u0 d0 h)) (ODirect mn INVALID_UID x a))).
Proof.
  intros F H1 H2 H3 H5. destruct (uid_name_lemma r mn H1 H2 H3) as [Q1 Q2]. destruct (ready _ _ _ _ _ _ _ NU HD) as [N S].
  destruct (state_sim u0 s N h d0 [] (sim_new u0 s S) F) as (h' & SM).
  destruct (step_sim u0 s N _ _ (ODirect mn' (lookup_uid s mn) x a) SM H5) as [_ ->].
  destruct (step_sim u0 s N _ _ (ODirect mn INVALID_UID x a) SM eq_refl) as [_ ->]. cbn [pstep]. unfold plain_direct.
  apply N.eqb_neq in Q2. rewrite Q2, Q1. reflexivity.
Qed.
(** ** Unknown names *)
Lemma nameless_find mn : nameless K mn -> find_ifact (fst s) mn = None.
Proof.
  destruct s as [b t] eqn:Es. pose proof HD as HD'. unfold make_decoder in HD'.
  destruct (builder_new uids annos nu) as [b0| | |] eqn:EB; cbn [rbind] in HD'; try discriminate.
  destruct (configured _ _ _ _ _ _ _ _ _ EB HD' HS) as (X & P & _ & _ & I & _ & HP). fold K in HP.
  intros (N1 & N2 & N3). cbn [fst]. destruct (find_ifact b mn) as [i|] eqn:EF; [|reflexivity]. exfalso.
  destruct (bi_keys _ _ _ I _ _ EF) as [[|]|(r0 & K1 & K2 & K3 & K4)]; [contradiction..|].
  apply HP in K1 as [K1 _]. destruct (N3 r0 K1 K2 K3). tauto.
Qed.
Lemma unknown_lemma (h : list op) mn x a : Forall (covered s) h -> nameless K mn ->
  snd (step u0 (fst (run u0 d0 h)) (ODirect mn INVALID_UID x a)) = Throw EUnknownMnemonic.
Proof.
  intros F N. pose proof (direct_gives h mn INVALID_UID x a F eq_refl) as G. unfold plain_direct in G.
  cbn [INVALID_UID N.eqb rbind] in G. rewrite (nameless_find mn N) in G. exact G.
Qed.
(** ** Changing an instruction into another *)
Lemma morph_gives (h : list op) k mn x i o : Forall (covered s) h ->
  let d := fst (run u0 d0 h) in snd (step u0 d (ORead k)) = Ok (AObj i o) ->
  (snd (step u0 d (OMorph k mn x)), snd (step u0 (fst (step u0 d (OMorph k mn x))) (ORead k))) =
  morphed (plain_direct s mn INVALID_UID x) i o.
Proof.
  intros F. destruct (ready _ _ _ _ _ _ _ NU HD) as [N S].
  destruct (state_sim u0 s N h d0 [] (sim_new u0 s S) F) as (h' & SM). cbv zeta. revert SM. generalize (fst (run u0 d0 h)). intros d SM RK.
  pose proof RK as RK'. rewrite read_step in RK'. rewrite morph_step. destruct (held d k) as [i'|] eqn:HK; [|discriminate].
  destruct (dt_heap d i') as [o'|] eqn:HI; [|discriminate]. injection RK' as -> ->.
  destruct SM as [[T1 F1 R1 I1 _ _ _] _ _ _]. unfold plain_direct. cbn [INVALID_UID N.eqb rbind].
  assert (find_ifact (dt_b d) mn = find_ifact (fst s) mn) as FF by (unfold find_ifact; now rewrite R1).
  assert (forall j, get_fact (dt_b d) j = get_fact (fst s) j) as GF by (intros j; unfold get_fact; now rewrite F1).
  unfold morph_inst. rewrite FF. destruct (find_ifact (fst s) mn) as [j|]; [|cbn [lift_unit fst snd morphed]; now rewrite RK].
  rewrite GF. destruct (let* f := _ in _) as [v| | |]; cbn [lift_unit fst snd morphed]; try (now rewrite RK).
  rewrite HI. cbn [lift_unit fst snd]. rewrite read_step.
  match goal with |- context [held ?dd k] => assert (held dd k = Some i) as -> by exact HK end.
  cbn [set_heap dt_heap]. rewrite Nat.eqb_refl. reflexivity.
Qed.
Lemma morph_name_lemma (h : list op) k r mn x i o : Forall (covered s) h ->
  In r K -> is_inst r mn -> r_expand r = ""%string -> uniform K r mn ->
  let d := fst (run u0 d0 h) in snd (step u0 d (ORead k)) = Ok (AObj i o) ->
  exists m v, own_meta r = Ok m /\ answers (mkRd mn m x) (lookup_uid s mn) 0 v /\
    (snd (step u0 d (OMorph k mn x)), snd (step u0 (fst (step u0 d (OMorph k mn x))) (ORead k))) = morphed v i o.
Proof.
  intros F H1 H2 H3 H5 d RK. destruct (name_info r mn x H1 H2 H3 H5) as (m & M1 & M2).
  exists m, (plain_direct s mn INVALID_UID x). split; [exact M1|]. split; [exact M2|]. now apply morph_gives.
Qed.
Lemma morph_unknown_lemma (h : list op) k mn x i o : Forall (covered s) h -> nameless K mn ->
  let d := fst (run u0 d0 h) in snd (step u0 d (ORead k)) = Ok (AObj i o) ->
  snd (step u0 d (OMorph k mn x)) = Throw EUnknownMnemonic /\
  snd (step u0 (fst (step u0 d (OMorph k mn x))) (ORead k)) = Ok (AObj i o).
Proof.
  intros F N d RK. pose proof (morph_gives h k mn x i o F RK) as Q. fold d in Q. unfold plain_direct in Q.
  cbn [INVALID_UID N.eqb rbind] in Q. rewrite (nameless_find mn N) in Q. cbn [morphed] in Q.
  split; [exact (f_equal fst Q)|exact (f_equal snd Q)].
Qed.
(** morphInst looks only at the mnemonic; an extractor made from a UID has none. *)
Lemma morph_uid_lemma (h : list op) k uid imm ops i o : Forall (covered s) h ->
  nameless K "UNSET-in-ExtractorDirectBase" ->
  let d := fst (run u0 d0 h) in snd (step u0 d (ORead k)) = Ok (AObj i o) ->
  let dx := direct_numbered uid imm ops in
  snd (step u0 d (OMorph k (dx_mn dx) (direct_ext dx))) = Throw EUnknownMnemonic.
Proof. intros F N d RK dx. now apply (morph_unknown_lemma h k (dx_mn dx) (direct_ext dx) i o F N). Qed.
End Names.
