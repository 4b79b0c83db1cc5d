(** Lemmas: which configurations are accepted (C63). *)
From Coq Require Import NArith ZArith Arith List Bool String Lia ZifyBool ZifyN.
From Verif Require Import M_Base M_Field M_Forms M_Meta M_OperandInfo M_Extract M_Decoded M_Registry M_Trie M_Builder M_DTable M_Direct M_Pseudo M_Context.
From Verif Require Import S_Bits S_Maps S_Trie S_Table S_Meta S_Direct S_Pseudo S_Accept S_Blame S_Config.
From Verif Require Import L_Bits L_Cache L_Registry L_Uids L_UserList L_Trie L_Table L_NameTables L_Ids L_IsaClause L_CtxUids L_TraceRecord L_AcceptTree L_Accept L_AcceptOrder L_AcceptAlias L_BlameTree L_Blame L_Pseudo.
From Verif Require S_Anno L_Anno.
Import ListNotations.
Local Open Scope N_scope.

(** Accepted exactly if [G]; otherwise an exception, of which [W] holds. *)
Definition verdict {T} (r : res T) (G : Prop) (W : exn -> Prop) : Prop :=
  match r with Ok _ => G | Throw x => ~ G /\ W x | AssertFail | UB => False end.
Lemma verdict_bind {T V} (r : res T) (f : T -> res V) G H W : verdict r G W -> (forall v, r = Ok v -> verdict (f v) H W) ->
  verdict (let* v := r in f v) (G /\ H) W.
Proof.
  destruct r as [v| | |]; cbn [rbind verdict]; intros A B; [|intuition auto|destruct A..]. specialize (B v eq_refl).
  destruct (f v); cbn [verdict] in *; intuition auto.
Qed.
Lemma verdict_imp {T} (r : res T) G G' (W W' : exn -> Prop) : (G <-> G') -> (forall x, W x -> W' x) -> verdict r G W -> verdict r G' W'.
Proof. unfold verdict. destruct r; intuition auto. Qed.
Lemma verdict_of {T} (r : res T) G W : settles r G -> fails r W False -> verdict r G W.
Proof. destruct r; cbn; auto. Qed.

(** ** Records of pseudo-instructions *)
Lemma fields_verdict m l : verdict (form_fields m l) (forall n, In n l -> exists f, field_name f = Some n)
  (fun x => x = EUnknownFieldID /\ exists n, In n l /\ forall f, field_name f <> Some n).
Proof.
  induction l as [|n l IH]; cbn [form_fields]; [intros n []|]. destruct (get_fid n) as [f|] eqn:E.
  - destruct (form_fields m l); cbn [rbind verdict] in *.
    + intros n' [<-|I']; [exists f; now apply field_names_lemma|auto].
    + destruct IH as (A & -> & n' & B & C). split; [intros H; apply A; intros; apply H; now right|]. split; [reflexivity|]. exists n'. split; [now right|exact C].
    + exact IH.
    + exact IH.
  - cbn [verdict]. assert (Q : forall f, field_name f <> Some n) by (intros f K; apply field_names_lemma in K; congruence).
    split; [intros H; destruct (H n (or_introl eq_refl)) as [f K]; exact (Q f K)|]. split; [reflexivity|]. exists n. split; [now left|exact Q].
Qed.
Lemma specials_verdict l : forall pos t, verdict (form_specials pos l t) (forall n, In n l -> exists s, special_named n s)
  (fun x => x = EUnknownSpecialFieldID /\ exists n, In n l /\ forall s, ~ special_named n s).
Proof.
  induction l as [|n l IH]; intros pos t; cbn [form_specials]; [intros n []|]. destruct (mfind special_names n) as [s|] eqn:E.
  - match goal with |- verdict (form_specials ?p l ?t') _ _ => specialize (IH p t'); destruct (form_specials p l t') end; cbn [verdict] in *.
    + intros n' [<-|I']; [exists s; now apply special_named_iff|auto].
    + destruct IH as (A & -> & n' & B & C). split; [intros H; apply A; intros; apply H; now right|]. split; [reflexivity|]. exists n'. split; [now right|exact C].
    + exact IH.
    + exact IH.
  - cbn [verdict]. assert (Q : forall s, ~ special_named n s) by (intros s K; apply special_named_iff in K; congruence).
    split; [intros H; destruct (H n (or_introl eq_refl)) as [s K]; exact (Q s K)|]. split; [reflexivity|]. exists n. split; [now left|exact Q].
Qed.
Definition clauses_known (c : pclauses) : Prop :=
  (forall n, In n (pc_sources c ++ pc_dests c) -> exists f, field_name f = Some n) /\ (forall n, In n (pc_specials c) -> exists s, special_named n s).
Definition names_fault (c : pclauses) (x : exn) : Prop :=
  (x = EUnknownFieldID /\ exists n, In n (pc_sources c ++ pc_dests c) /\ forall f, field_name f <> Some n) \/
  (x = EUnknownSpecialFieldID /\ exists n, In n (pc_specials c) /\ forall s, ~ special_named n s).
Lemma gform_verdict c m : verdict (make_gform c m) (clauses_known c) (names_fault c).
Proof.
  unfold make_gform, clauses_known.
  apply (verdict_imp _ ((forall n, In n (pc_sources c) -> exists f, field_name f = Some n) /\ (forall n, In n (pc_dests c) -> exists f, field_name f = Some n) /\
    (forall n, In n (pc_specials c) -> exists s, special_named n s) /\ True) _ (names_fault c)); [|exact (fun x H => H)|].
  2:{ apply verdict_bind; [eapply verdict_imp; [reflexivity| |apply fields_verdict]|intros s _].
    { intros x (-> & n & H & K). left. split; [reflexivity|]. exists n. rewrite in_app_iff. auto. }
    apply verdict_bind; [eapply verdict_imp; [reflexivity| |apply fields_verdict]|intros d _].
    { intros x (-> & n & H & K). left. split; [reflexivity|]. exists n. rewrite in_app_iff. auto. }
    apply (verdict_bind _ _ _ True); [eapply verdict_imp; [reflexivity| |apply specials_verdict]|intros sp _; exact I].
    intros x H. right. exact H. }
  split.
  - intros (A & B & C & _). split; [|exact C]. intros n H. apply in_app_iff in H as [H|H]; auto.
  - intros [A B]. repeat split; auto; intros n H; apply A, in_app_iff; auto.
Qed.

(** ** The builder *)
(** There are UIDs for [n] more. *)
Record ready (n : nat) (P : list prec) (b : pbuilder) : Prop := mkReady {
  rd_nu : 0 < pb_nu b /\ pb_nu b + N.of_nat n + 100 < 2 ^ 32;
  rd_reg : reg_ok (fun _ => True) (pb_nu b) (pb_inst b);
  rd_up : da_up (ir_arr (pb_inst b)) = DEFAULT_UP_SIZE;
  rd_metas : forall x, mfind (pb_metas b) x <> None <-> In x (pseudo_names P);
  rd_made : forall x, pfind b x <> None -> In x (pseudo_names P) }.
Lemma pseudo_names_app P Q : pseudo_names (P ++ Q) = (pseudo_names P ++ pseudo_names Q)%list.
Proof. apply flat_map_app. Qed.
Lemma register_bound nu r m nu' r' uid : ir_register r m nu = Ok (nu', r', uid) -> nu' <= nu + 1.
Proof.
  unfold ir_register. destruct (mfind (ir_map r) m).
  - intros H. apply (f_equal (fun q => match q with Ok v => fst (fst v) | _ => 0 end)) in H. cbn [fst] in H. lia.
  - cbn [advance_uid]. destruct (da_add _ _ _); cbn [rbind]; try discriminate. intros H.
    apply (f_equal (fun q => match q with Ok v => fst (fst v) | _ => 0 end)) in H. cbn [fst] in H. rewrite <- H. unfold u32. apply N.mod_le. discriminate.
Qed.
Lemma ppseudo_verdict n P b p mn : r_pseudo (fst p) = Some mn -> (forall d, jm_data (r_meta (fst p)) = Some d -> d < 2 ^ 32) -> ready (S n) P b ->
  verdict (ppseudo b p) (pseudo_ok p /\ ~ In mn (pseudo_names P)) (pseudo_fault P p) /\ forall b', ppseudo b p = Ok b' -> ready n (P ++ [p]) b'.
Proof.
  intros M D [[N0 N1] R U MT MD]. unfold ppseudo. rewrite M.
  pose proof (verdict_of _ _ _ (make_meta_settles (r_meta (fst p)) false [] D) (make_meta_fails (r_meta (fst p)) false [] D)) as VM.
  destruct (make_meta (r_meta (fst p)) false []) as [m|x| |] eqn:EM; cbn [rbind verdict] in *; [| |destruct VM..].
  2:{ split; [|discriminate]. destruct VM as [V1 V2]. split; [intros [(Q & _) _]; auto|]. unfold pseudo_fault. destruct x; try exact V2; destruct V2. }
  destruct (mfind (pb_metas b) mn) as [m0|] eqn:EF.
  { assert (I0 : In mn (pseudo_names P)) by (apply MT; congruence). cbn [verdict pseudo_fault]. split; [|discriminate]. split; [tauto|]. eauto. }
  assert (NI : ~ In mn (pseudo_names P)) by (intros Q; apply MT in Q; congruence).
  set (b1 := mkPB _ _ _ _ _ _ _). pose proof (gform_verdict (snd p) m) as VG.
  destruct (make_gform (snd p) m) as [g|x| |]; cbn [rbind verdict] in *; [| |destruct VG..].
  2:{ split; [|discriminate]. destruct VG as [V1 V2]. split; [intros [(_ & Q) _]; exact (V1 Q)|]. destruct V2 as [[-> Q]|[-> Q]]; exact Q. }
  unfold pbuild. change (pfind b1 mn) with (pfind b mn). destruct (pfind b mn) as [i|] eqn:Q; [exfalso; apply NI, MD; congruence|].
  cbn [b1 pb_inst pb_nu pb_facts pb_reg pb_annos pb_metas pb_stash].
  destruct (register_total (pb_nu b) (pb_inst b) mn N0 ltac:(lia) R U) as (nu' & r' & uid & ER). rewrite ER. cbn [rbind verdict fst snd].
  split; [split; [split; [exact VM|exact VG]|exact NI]|]. intros b' [= <-].
  pose proof (register_bound _ _ _ _ _ _ ER) as LB. pose proof (register_up _ _ _ _ _ _ ER) as UP.
  assert (W : pb_nu b < w32) by (unfold w32; lia).
  destruct (register_ok _ _ _ _ _ _ _ W N0 R ER) as (R1 & R2 & R3 & _).
  assert (NM : forall x, In x (pseudo_names (P ++ [p])) <-> In x (pseudo_names P) \/ x = mn).
  { intros x. rewrite pseudo_names_app, in_app_iff. unfold pseudo_names at 2. cbn [flat_map]. rewrite M. cbn [app In]. intuition auto. }
  constructor; cbn [pb_nu pb_inst pb_metas]; auto.
  - lia.
  - congruence.
  - intros x. rewrite mfind_madd, NM, <- MT. destruct (String.eqb_spec mn x) as [E|E]; [split; [auto|discriminate]|]. intuition congruence.
  - intros x. unfold pfind. cbn [pb_reg]. rewrite mfind_madd, NM. destruct (String.eqb_spec mn x) as [E|E]; [auto|]. intros H. left. now apply MD.
Qed.
Lemma pconfigure_verdict recs : forall n P b, sizes32 (map fst recs) -> ready (n + List.length (pseudo_names recs)) P b ->
  verdict (pconfigure recs b)
    ((forall p, In p recs -> r_pseudo (fst p) <> None -> pseudo_ok p) /\ NoDup (pseudo_names recs) /\ forall x, In x (pseudo_names recs) -> ~ In x (pseudo_names P))
    (fun x => exists Q p R b', recs = (Q ++ p :: R)%list /\ pconfigure Q b = Ok b' /\ r_pseudo (fst p) <> None /\ pseudo_fault (P ++ Q) p x).
Proof.
  induction recs as [|p recs IH]; intros n P b SZ RD; cbn [pconfigure].
  { cbn. split; [intros p []|]. split; [constructor|intros x []]. }
  assert (SZ' : sizes32 (map fst recs)) by (intros r d I'; apply SZ; now right).
  destruct (r_pseudo (fst p)) as [mn|] eqn:M.
  - assert (NM : pseudo_names (p :: recs) = mn :: pseudo_names recs) by (unfold pseudo_names; cbn [flat_map]; now rewrite M).
    rewrite NM in *. cbn [List.length] in RD. rewrite Nat.add_succ_r in RD.
    destruct (ppseudo_verdict (n + List.length (pseudo_names recs)) P b p mn M (fun d H => SZ _ d (or_introl eq_refl) H) RD) as [V1 V2].
    destruct (ppseudo b p) as [b1|x| |] eqn:EP; cbn [rbind verdict] in *; [| |destruct V1..].
    + specialize (IH n (P ++ [p])%list b1 SZ' (V2 _ eq_refl)).
      assert (NA : forall x, In x (pseudo_names (P ++ [p])) <-> In x (pseudo_names P) \/ x = mn).
      { intros x. rewrite pseudo_names_app, in_app_iff. unfold pseudo_names at 2. cbn [flat_map]. rewrite M. cbn [app In]. intuition auto. }
      eapply verdict_imp; [| |exact IH].
      * destruct V1 as [V1 V1']. split.
        -- intros (A1 & A2 & A3). split; [intros p' [<-|I'] Q; auto|]. split.
           ++ constructor; [intros I'; apply (A3 _ I'), NA; auto|exact A2].
           ++ intros x [<-|I']; [exact V1'|]. intros K. apply (A3 _ I'), NA. auto.
        -- intros (A1 & A2 & A3). inversion A2 as [|? ? B1 B2]. split; [intros p' I'; apply A1; now right|]. split; [exact B2|].
           intros y J K. apply NA in K as [K|K]; [exact (A3 y (or_intror J) K)|subst y; contradiction].
      * intros x (Q & p' & R & b' & K1 & K2 & K3 & K4). exists (p :: Q), p', R, b'. split; [cbn; congruence|]. cbn [pconfigure]. rewrite EP. cbn [rbind].
        split; [exact K2|]. split; [exact K3|]. rewrite <- app_assoc in K4. exact K4.
    + destruct V1 as [V1 V1']. split.
      * intros (A1 & A2 & A3). apply V1. split; [apply A1; [now left|congruence]|apply A3; now left].
      * exists [], p, recs, b. cbn. rewrite app_nil_r. repeat split; auto. congruence.
  - assert (NM : pseudo_names (p :: recs) = pseudo_names recs) by (unfold pseudo_names; cbn [flat_map]; now rewrite M).
    rewrite NM in *. assert (EP : ppseudo b p = Ok b) by (unfold ppseudo; now rewrite M). rewrite EP. cbn [rbind].
    assert (NP : pseudo_names (P ++ [p]) = pseudo_names P) by (rewrite pseudo_names_app; unfold pseudo_names at 2; cbn [flat_map]; rewrite M; apply app_nil_r).
    assert (RD' : ready (n + List.length (pseudo_names recs)) (P ++ [p]) b) by (destruct RD; constructor; rewrite ?NP; auto).
    eapply verdict_imp; [| |exact (IH n (P ++ [p])%list b SZ' RD')].
    + rewrite NP. split; intros (A1 & A2); split; auto.
      * intros p' [<-|I'] Q; [congruence|auto].
      * intros p' I'. apply A1. now right.
    + intros x (Q & p' & R & b' & K1 & K2 & K3 & K4). exists (p :: Q), p', R, b'. split; [cbn; congruence|]. cbn [pconfigure]. rewrite EP. cbn [rbind].
      split; [exact K2|]. split; [exact K3|]. rewrite <- app_assoc in K4. exact K4.
Qed.

(** ** The user's list *)
Definition roomy (uids : list (string * N)) (nu : N) (n : nat) : Prop :=
  0 < nu /\ forall u, u = nu \/ In u (map snd uids) -> u + N.of_nat n + 101 < 2 ^ 32.
Lemma ir_new_verdict uids nu n : roomy uids nu n -> verdict (ir_new uids nu) (uids_ok uids) (uid_fault uids) /\
  forall nu1 r1, ir_new uids nu = Ok (nu1, r1) -> (0 < nu1 /\ nu1 + N.of_nat n + 100 < 2 ^ 32) /\ reg_ok (fun _ => True) nu1 r1 /\ da_up (ir_arr r1) = DEFAULT_UP_SIZE.
Proof.
  intros [N0 RM]. unfold ir_new. set (r0 := mkIR [] _).
  assert (R0 : reg_ok (fun _ => False) nu r0).
  { split; try (cbn; discriminate). apply da_new_ok. reflexivity. }
  assert (BB : forall m u, In (m, u) uids -> u + DEFAULT_UP_SIZE < w32).
  { intros m u Q. assert (Q' : In u (map snd uids)) by (apply in_map_iff; exists (m, u); auto). specialize (RM u (or_intror Q')). unfold w32, DEFAULT_UP_SIZE. lia. }
  pose proof (load_checked uids [] nu r0 (ro_arr _ _ _ R0) eq_refl BB) as C. pose proof (load_fails uids [] nu r0 (ro_arr _ _ _ R0) eq_refl BB) as F.
  assert (B : forall u, In u (map snd uids) -> u + 1 <= 2 ^ 32 - N.of_nat n - 101) by (intros u Q; specialize (RM u (or_intror Q)); lia).
  specialize (RM nu (or_introl eq_refl)) as RN. cbv zeta in C.
  destruct (ir_load uids [] nu r0) as [[nu1 r1]|x| |] eqn:L; cbn [verdict fails] in *; [| |destruct C..].
  - split; [destruct C as (C1 & C2 & C3 & _); unfold uids_ok; auto|]. intros nu2 r2 Q. assert (nu2 = nu1) as -> by congruence. assert (r2 = r1) as -> by congruence.
    pose proof (load_nu uids (2 ^ 32 - N.of_nat n - 101) [] nu r0 nu1 r1 ltac:(lia) B L) as LN. pose proof (load_up _ _ _ _ _ _ L) as LU.
    destruct (load_ok uids [] nu r0 nu1 r1 ltac:(unfold w32; lia) R0 ltac:(cbn; discriminate) L) as (L1 & L2 & L3 & _).
    split; [lia|]. split; [|rewrite LU; reflexivity]. eapply reg_ok_weaken; [|reflexivity|exact L3]. tauto.
  - split; [|discriminate]. split.
    + intros (C1 & C2 & C3). apply C. split; [exact C1|]. split; [exact C2|]. split; [exact C3|]. split; [auto|]. cbn. auto.
    + destruct x; cbn in F |- *; try contradiction; try exact F; destruct F as [F|(? & _ & [])]; exact F.
Qed.
Lemma pseudos_verdict uids annos nu recs : sizes32 (map fst recs) -> roomy uids nu (List.length (pseudo_names recs)) ->
  verdict (make_pseudos uids annos nu recs) (uids_ok uids /\ pseudos_ok recs)
    (fun x => uid_fault uids x \/ first_fault recs x).
Proof.
  intros SZ RM. destruct (ir_new_verdict uids nu _ RM) as [V1 V2]. unfold make_pseudos, pbuilder_new.
  destruct (ir_new uids nu) as [[nu1 r1]|x| |]; cbn [rbind verdict] in *; [| |destruct V1..].
  - specialize (V2 _ _ eq_refl). set (b0 := mkPB _ _ _ _ _ _ _).
    assert (RD : ready (0 + List.length (pseudo_names recs)) [] b0).
    { destruct V2 as (W1 & W2 & W3). constructor; cbn [b0 pb_nu pb_inst pb_metas]; auto.
      - intros x. cbn. split; [congruence|intros []].
      - intros x. unfold pfind. cbn. congruence. }
    eapply verdict_imp; [| |exact (pconfigure_verdict recs 0 [] b0 SZ RD)].
    + unfold pseudos_ok. split.
      * intros (A1 & A2 & _). auto.
      * intros (_ & A1 & A2). split; [exact A2|]. split; [exact A1|]. intros x _ [].
    + intros x (Q & p & R & b' & K1 & K2 & K3 & K4). right. exists Q, p, R. split; [exact K1|]. split; [|auto].
      assert (SQ : sizes32 (map fst Q)) by (intros r d I'; apply SZ; rewrite K1, map_app, in_app_iff; auto).
      assert (RQ : ready (0 + List.length (pseudo_names Q)) [] b0).
      { destruct RD as [D1 D2 D3 D4 D5]. constructor; auto. rewrite K1, pseudo_names_app, app_length in D1. lia. }
      pose proof (pconfigure_verdict Q 0 [] b0 SQ RQ) as VQ. rewrite K2 in VQ. destruct VQ as (A1 & A2 & _). split; [exact A2|exact A1].
  - split; [tauto|left; apply V1].
Qed.

(** ** The decoder *)
Lemma configure_inv uids annos n i e recs : sizes32 recs -> forall P E s s', inv uids annos (n + List.length (read i e recs)) P E s ->
  configure i e recs s = Ok s' -> 0 < b_nu (fst s') /\ b_nu (fst s') + N.of_nat n + 150 < 2 ^ 32.
Proof.
  intros SZ. induction recs as [|r recs IH]; intros P E s s' INV; cbn [configure].
  - intros [= <-]. destruct INV as [H _]. cbn [read kept filter List.length] in H. rewrite Nat.add_0_r in H. exact (hd_nu _ _ _ _ _ H).
  - assert (SZ' : sizes32 recs) by (intros r' d I'; apply SZ; now right).
    destruct (r_mn r) as [mn|] eqn:EM.
    + rewrite C18_filter_lemma. destruct (wantedb i e (r_tags r)) eqn:EW.
      * assert (RD : read i e (r :: recs) = r :: read i e recs).
        { unfold read, kept. cbn [filter]. rewrite EW. cbn [filter]. unfold has_name at 1. rewrite EM. reflexivity. }
        rewrite RD in INV. cbn [List.length] in INV. rewrite Nat.add_succ_r in INV.
        assert (SR : forall d, jm_data (r_meta r) = Some d -> d < 2 ^ 32) by (intros d Q; exact (SZ r d (or_introl eq_refl) Q)).
        destruct (parse_accept _ _ _ P E r mn s EM SR INV) as (_ & _ & P3).
        destruct (parse_inst s r mn) as [s1| | |]; cbn [rbind]; try discriminate. intros H.
        destruct (P3 _ eq_refl) as (_ & _ & E' & _ & _ & INV'). exact (IH SZ' _ _ _ _ INV' H).
      * assert (RD : read i e (r :: recs) = read i e recs) by (unfold read, kept; cbn [filter]; rewrite EW; reflexivity).
        rewrite RD in INV. exact (IH SZ' _ _ _ _ INV).
    + assert (RD : read i e (r :: recs) = read i e recs).
      { unfold read, kept. cbn [filter]. destruct (wantedb _ _ _); [|reflexivity]. cbn [filter]. unfold has_name at 1. rewrite EM. reflexivity. }
      rewrite RD in INV. destruct (r_pseudo r); [|discriminate]. exact (IH SZ' _ _ _ _ INV).
Qed.
Lemma decoder_bound uids annos nu i e recs n s : sizes32 recs -> room uids nu (List.length (read i e recs) + n) ->
  make_decoder uids annos nu i e recs = Ok s -> 0 < b_nu (fst s) /\ b_nu (fst s) + N.of_nat n + 150 < 2 ^ 32.
Proof.
  intros SZ RM H. rewrite Nat.add_comm in RM. destruct (new_settles uids annos nu _ RM) as [_ S2]. unfold make_decoder in H.
  destruct (builder_new uids annos nu) as [b| | |]; cbn [rbind] in *; try discriminate.
  exact (configure_inv uids annos n i e recs SZ _ _ _ _ (S2 _ eq_refl) H).
Qed.
Lemma room_less uids nu n m : (m <= n)%nat -> room uids nu n -> room uids nu m.
Proof. intros L [H1 H2]. split; [exact H1|]. intros u I. specialize (H2 u I). lia. Qed.

(** ** Annotations *)
Lemma order_same {A B} uids (an : list (string * A)) (bn : list (string * B)) K :
  (an = [] <-> bn = []) -> (forall x, In x (map fst an) <-> In x (map fst bn)) -> in_order uids an K -> in_order uids bn K.
Proof.
  intros E M H P r Q EK. specialize (H P r Q EK). intros mn HM. specialize (H mn HM). destruct (r_overlay r) as [o|]; [|exact H].
  destruct H as (X & base & mask & v & H1 & H2 & H3 & H4 & H5 & H6 & H7). split; [exact X|]. exists base, mask, v. repeat (split; [assumption|]).
  rewrite <- !M, <- E. exact H7.
Qed.
Lemma annos_known ovs files reg : anno_files ovs files [] = Ok reg -> (reg = [] <-> List.concat files = []) /\
  forall x, In x (map fst reg) <-> In x (map fst (List.concat files)).
Proof.
  intros H. pose proof (L_Anno.attributes_lemma ovs files reg H) as A.
  assert (M : forall x, In x (map fst reg) <-> In x (map fst (List.concat files))).
  { intros x. specialize (A x). rewrite <- L_Anno.listed_concat. destruct (mfind reg x) as [v|] eqn:E.
    - split; [intros _; apply A|]. intros _. destruct (in_dec string_dec x (map fst reg)) as [Q|Q]; [exact Q|]. apply mfind_in in Q. congruence.
    - apply mfind_in in E. tauto. }
  split; [|exact M]. split.
  - intros ->. destruct (List.concat files) as [|[x v] l]; [reflexivity|]. exfalso. apply (proj2 (M x)). cbn. auto.
  - intros E. destruct reg as [|[x v] l]; [reflexivity|]. exfalso. rewrite E in M. apply (proj1 (M x)). cbn. auto.
Qed.

(** ** The configuration *)
Section Context.
Context {A U : Type}.
Lemma context_lemma c nu : sizes32 (map fst (c_recs c)) -> enough c nu ->
  match make_context (A := A) (U := U) c nu with
  | Ok _ => uids_ok (c_uids c) /\ ~ S_Anno.repeats (c_files c) /\
      (exists annos s, anno_files (c_ovs c) (c_files c) [] = Ok annos /\ make_decoder (c_uids c) annos nu (c_incl c) (c_excl c) (map fst (c_recs c)) = Ok s) /\ pseudos_ok (c_recs c)
  | Throw x => uid_fault (c_uids c) x \/ (x = EAnnotationNotUniqueInFile /\ S_Anno.repeats (c_files c)) \/
      (~ S_Anno.repeats (c_files c) /\ forall annos, anno_files (c_ovs c) (c_files c) [] = Ok annos ->
         make_decoder (c_uids c) annos nu (c_incl c) (c_excl c) (map fst (c_recs c)) = Throw x) \/
      (first_fault (c_recs c) x /\ ~ pseudos_ok (c_recs c))
  | AssertFail => ~ S_Anno.repeats (c_files c) /\ forall annos, anno_files (c_ovs c) (c_files c) [] = Ok annos ->
         make_decoder (c_uids c) annos nu (c_incl c) (c_excl c) (map fst (c_recs c)) = AssertFail
  | UB => False
  end /\ (make_context (A := A) (U := U) c nu <> UB ->
    (forall v, make_context (A := A) (U := U) c nu <> Ok v) -> ~ uids_ok (c_uids c) \/ S_Anno.repeats (c_files c) \/ ~ pseudos_ok (c_recs c) \/
    forall annos s, anno_files (c_ovs c) (c_files c) [] = Ok annos -> make_decoder (c_uids c) annos nu (c_incl c) (c_excl c) (map fst (c_recs c)) <> Ok s).
Proof.
  intros SZ RM. unfold enough in RM. set (np := List.length (pseudo_names (c_recs c))) in *.
  assert (RM1 : room (c_uids c) nu (List.length (read_of c))) by (eapply room_less; [|exact RM]; lia).
  assert (RY : roomy (c_uids c) nu np).
  { destruct RM as [N0 RM]. split; [exact N0|]. intros u I'. specialize (RM u I'). lia. }
  unfold make_context. destruct (ir_new_verdict (c_uids c) nu np RY) as [V1 _].
  destruct (ir_new (c_uids c) nu) as [[n1 i1]|x| |]; cbn [rbind verdict] in *; [| |destruct V1..].
  2:{ split; [left; apply V1|]. intros _ _. left. apply V1. }
  destruct (L_Anno.repeats_lemma (c_ovs c) (c_files c)) as [A1 A2]. pose proof (L_Anno.anno_files_lemma (c_ovs c) (c_files c) [] [] (L_Anno.recorded_nil _)) as AL.
  destruct (anno_files (c_ovs c) (c_files c) []) as [annos|x| |] eqn:EA; [| |destruct AL..]; cbn [rbind].
  2:{ destruct x; try contradiction. split; [right; left; auto|]. intros _ _. right. left. exact AL. }
  assert (NR : ~ S_Anno.repeats (c_files c)) by apply AL.
  destruct (accept_lemma (c_uids c) annos nu (c_incl c) (c_excl c) (map fst (c_recs c)) SZ RM1) as (D1 & _).
  destruct (make_decoder (c_uids c) annos nu (c_incl c) (c_excl c) (map fst (c_recs c))) as [s|x| |] eqn:ED; cbn [rbind]; [| | |congruence].
  2:{ split; [right; right; left; split; [exact NR|]; intros an Q; assert (an = annos) as -> by congruence; exact ED|].
    intros _ _. right. right. right. intros an s' Q. assert (an = annos) as -> by congruence. rewrite ED. discriminate. }
  2:{ split; [split; [exact NR|]; intros an Q; assert (an = annos) as -> by congruence; exact ED|].
    intros _ _. right. right. right. intros an s' Q. assert (an = annos) as -> by congruence. rewrite ED. discriminate. }
  destruct (decoder_bound _ _ _ _ _ _ np s SZ RM ED) as [B1 B2].
  assert (RY2 : roomy (c_uids c) (b_nu (fst s)) np).
  { split; [exact B1|]. intros u [->|I']; [lia|]. apply RY. auto. }
  destruct (ir_new_verdict (c_uids c) _ np RY2) as [V2 _].
  destruct (ir_new (c_uids c) (b_nu (fst s))) as [[n2 i2]|x| |]; cbn [rbind verdict] in *; [| |destruct V2..].
  2:{ destruct V2 as [V2 _]. contradiction. }
  destruct (L_Anno.repeats_lemma [] (c_files c)) as [_ A3]. destruct (A3 NR) as [pan EP]. rewrite EP. cbn [rbind].
  pose proof (pseudos_verdict (c_uids c) pan (b_nu (fst s)) (c_recs c) SZ RY2) as V3.
  destruct (make_pseudos (c_uids c) pan (b_nu (fst s)) (c_recs c)) as [pb|x| |]; cbn [rbind verdict] in *; [| |destruct V3..].
  - split; [|intros _ Q; exfalso; exact (Q _ eq_refl)]. split; [exact V1|]. split; [exact NR|]. split; [eauto|apply V3].
  - assert (NP : ~ pseudos_ok (c_recs c)) by tauto. split; [|intros _ _; tauto]. destruct V3 as [_ [V3|V3]]; [left; exact V3|]. right. right. right. auto.
Qed.
Lemma config_lemma c nu : sizes32 (map fst (c_recs c)) -> enough c nu ->
  make_context (A := A) (U := U) c nu <> UB /\
  (config_ok c -> exists v, make_context (A := A) (U := U) c nu = Ok v) /\
  (forall v, make_context (A := A) (U := U) c nu = Ok v ->
     uids_ok (c_uids c) /\ ~ S_Anno.repeats (c_files c) /\ named_all (map fst (c_recs c)) /\
     in_order (c_uids c) (List.concat (c_files c)) (read_of c) /\ fitting (stencils (read_of c)) /\ pseudos_ok (c_recs c)) /\
  (clear_cut (read_of c) -> forall v, make_context (A := A) (U := U) c nu = Ok v -> config_ok c).
Proof.
  intros SZ RM. destruct (context_lemma c nu SZ RM) as [L1 L2].
  assert (RM1 : room (c_uids c) nu (List.length (read_of c))) by (eapply room_less; [|exact RM]; lia).
  assert (NU : make_context (A := A) (U := U) c nu <> UB) by (intros Q; rewrite Q in L1; exact L1).
  split; [exact NU|]. split; [|split].
  - intros (C1 & C2 & C3 & C4 & C5 & C6). specialize (L2 NU).
    destruct (L_Anno.repeats_lemma (c_ovs c) (c_files c)) as [_ A2]. destruct (A2 C2) as [annos EA]. destruct (annos_known _ _ _ EA) as [K1 K2].
    destruct (accept_lemma (c_uids c) annos nu (c_incl c) (c_excl c) (map fst (c_recs c)) SZ RM1) as (_ & D2 & _).
    destruct D2 as [s ED]; [exact C3|exact C1| |exact C5|].
    { eapply order_same; [| |exact C4]; [now symmetry|intros x; now rewrite K2]. }
    destruct (make_context c nu) as [v|x| |]; [eauto|..]; exfalso;
      (destruct L2 as [Q|[Q|[Q|Q]]]; [discriminate|auto|auto|auto|exact (Q _ _ EA ED)]).
  - intros v Q. rewrite Q in L1. destruct L1 as (C1 & C2 & (annos & s & EA & ED) & C6). destruct (annos_known _ _ _ EA) as [K1 K2].
    destruct (accept_lemma (c_uids c) annos nu (c_incl c) (c_excl c) (map fst (c_recs c)) SZ RM1) as (_ & _ & D3).
    destruct (D3 _ ED) as (D4 & _ & D5 & D6). repeat (split; [assumption|]). split; [|auto]. eapply order_same; [exact K1|exact K2|exact D5].
  - intros UN v Q. rewrite Q in L1. destruct L1 as (C1 & C2 & (annos & s & EA & ED) & C6). destruct (annos_known _ _ _ EA) as [K1 K2].
    assert (D3 : named_all (map fst (c_recs c)) /\ uids_ok (c_uids c) /\ in_order (c_uids c) annos (read_of c) /\ fitting (encodings (read_of c))).
    { destruct UN as [UN|UN].
      - apply (accept_unamb_lemma (c_uids c) annos nu (c_incl c) (c_excl c) (map fst (c_recs c)) SZ RM1 UN). eauto.
      - apply (accept_exactly_lemma (c_uids c) annos nu (c_incl c) (c_excl c) (map fst (c_recs c)) SZ RM1 UN). eauto. }
    destruct D3 as (D4 & _ & D5 & D6). split; [exact C1|]. split; [exact C2|]. split; [exact D4|]. split; [|split; [exact D6|exact C6]].
    eapply order_same; [exact K1|exact K2|exact D5].
Qed.
(** ** Annotations of pseudo-instructions *)
Lemma pseudo_anno_lemma c nu (x : ctxt A U) nu' : 0 < nu < w32 -> make_context c nu = Ok (x, nu') ->
  forall h p mn d v, Forall uid_fits h -> uid_fits d -> masks_fit (dx_ops d) -> In p (c_recs c) -> r_pseudo (fst p) = Some mn -> asks (cx_pb x) mn d ->
  snd (make_pseudo (pseudo_run (cx_pb x) h) d) = Ok v ->
  d_mnemonic (i_di v) = mn /\
  match i_anno v with
  | None => ~ S_Anno.in_files (c_files c) mn
  | Some a => S_Anno.in_files (c_files c) mn /\ forall k, S_Anno.anno_attr k a = S_Anno.filed (c_files c) mn k
  end.
Proof.
  intros N H h p mn d v F UF MF IP RP AS HV. destruct (context_fresh c nu x nu' N H) as (mid & (A1 & A2 & _) & _).
  revert H. unfold make_context. destruct (ir_new (c_uids c) nu) as [[n1 i1]| | |]; try discriminate. cbn [rbind].
  destruct (anno_files (c_ovs c) (c_files c) []) as [an| | |] eqn:E1; try discriminate. cbn [rbind].
  destruct (make_decoder _ an nu _ _ _) as [s| | |] eqn:E2; try discriminate. cbn [rbind].
  destruct (ir_new (c_uids c) (b_nu (fst s))) as [[n2 i2]| | |]; try discriminate. cbn [rbind].
  destruct (anno_files [] (c_files c) []) as [pan| | |] eqn:E4; try discriminate. cbn [rbind].
  destruct (make_pseudos _ _ _ _) as [pb| | |] eqn:E3; try discriminate. cbn [rbind].
  intros H. assert (x = mkCx (dt_new s) pb) as -> by congruence. cbn [cx_pb] in *.
  apply decoder_fresh in E2; [|exact N]. destruct E2 as (L1 & L2 & _).
  assert (NB : 0 < b_nu (fst s) < w32) by lia.
  destruct (pseudo_lemma _ _ _ _ _ NB E3 h p mn d F UF MF IP RP AS) as (m & fs & fd & _ & _ & _ & Q).
  destruct (pm_name _ _ _ _ _ _ _ _ (Q v HV)) as (Q1 & _ & _ & Q2). split; [exact Q1|]. rewrite Q2.
  pose proof (L_Anno.attributes_lemma [] (c_files c) pan E4 mn) as AT. destruct (mfind pan mn); [|exact AT]. split; [apply AT|]. intros k. exact (proj2 AT k).
Qed.
End Context.
Lemma pseudos_accepted_lemma uids annos nu recs : sizes32 (map fst recs) -> room uids nu (List.length (pseudo_names recs)) ->
  ((exists b, make_pseudos uids annos nu recs = Ok b) <-> uids_ok uids /\ pseudos_ok recs) /\
  (forall x, make_pseudos uids annos nu recs = Throw x -> uid_fault uids x \/ first_fault recs x) /\
  make_pseudos uids annos nu recs <> AssertFail /\ make_pseudos uids annos nu recs <> UB.
Proof.
  intros SZ RM. assert (RY : roomy uids nu (List.length (pseudo_names recs))).
  { destruct RM as [N0 RM]. split; [exact N0|]. intros u I'. specialize (RM u I'). lia. }
  pose proof (pseudos_verdict uids annos nu recs SZ RY) as V. destruct (make_pseudos uids annos nu recs) as [b|x| |]; cbn [verdict] in V; [| |destruct V..].
  - split; [split; eauto|]. repeat split; discriminate.
  - destruct V as [V1 V2]. split; [split; [intros [b Q]; discriminate|contradiction]|]. split; [|split; discriminate]. intros y [= <-]. exact V2.
Qed.
Lemma refused_lemma (A U : Type) c nu x : sizes32 (map fst (c_recs c)) -> enough c nu ->
  make_context (A := A) (U := U) c nu = Throw x ->
  uid_fault (c_uids c) x \/ (x = EAnnotationNotUniqueInFile /\ S_Anno.repeats (c_files c)) \/
  (~ S_Anno.repeats (c_files c) /\ forall annos, anno_files (c_ovs c) (c_files c) [] = Ok annos ->
     make_decoder (c_uids c) annos nu (c_incl c) (c_excl c) (map fst (c_recs c)) = Throw x) \/
  (first_fault (c_recs c) x /\ ~ pseudos_ok (c_recs c)).
Proof. intros SZ RM H. destruct (context_lemma (A := A) (U := U) c nu SZ RM) as [L _]. rewrite H in L. exact L. Qed.
