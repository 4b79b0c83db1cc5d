(** Claim C51: HINT encodings. *)
From Coq Require Import NArith ZArith List Bool String Lia.
From Verif Require Import M_Base M_Field M_Forms M_Meta M_OperandInfo M_Extract M_Decoded M_Trie M_Builder M_DTable M_Raw.
From Verif Require Import S_Bits L_Bits S_Trie S_Slots S_Imm S_Pairs S_Agree S_Table S_Shipped S_Reserved S_Manual S_Manual32 S_Hint.
From Verif Require Import L_Slots L_Imm L_Decoded L_Trie L_Decode L_Check L_Readable L_Claims L_Shipped L_Reserved L_Manual L_ManualFull L_ManualClaims L_DasmTables.
Import ListNotations.
Local Open Scope N_scope.

(** ** The formats *)
Lemma ci_imm_zero c ffm ic : ic < 2 ^ 64 -> imm_segs (imm_table c) = ci_imm -> (let* i := x_imm (ext c ffm) ic in Ok (i =? 0)) = Ok (no_ci_imm ic).
Proof.
  intros B I. rewrite imm_lemma by exact B. cbn [rbind]. f_equal.
  assert (E : imm_of (imm_table c) ffm ic = imm_value ci_imm ic) by (destruct c; try discriminate I; reflexivity). rewrite E.
  unfold no_ci_imm, imm_value, seg_value, ci_imm. cbn [fold_right]. change (5 - 5 + 1) with 1. change (4 - 0 + 1) with 5.
  rewrite N.lor_0_r. apply eq_true_iff_eq. rewrite andb_true_iff, !N.eqb_eq, N.lor_eq_0_iff, !N.eq_mul_0.
  assert (2 ^ 5 <> 0 /\ 2 ^ 0 <> 0) by (split; discriminate). tauto.
Qed.
Lemma hint_lemma c ffm ic : ic < 2 ^ 64 -> x_hint (ext c ffm) ic = Ok (hint_when c ffm ic).
Proof.
  intros B. destruct c; try (xunf; reflexivity).
  all: try solve [cbn [hint_when]; unfold is_x0; xunf; lazy [dst_has_x0]; xunf; fslice; destruct (slice 7 5 _ =? 0); cbn [negb];
    [rewrite ?N.lor_0_l, ?N.lor_0_r, has_x0; now destruct (slice 7 5 _ =? 0)|reflexivity]].
  1: exact (ci_imm_zero X_CIX ffm ic B eq_refl).
  1: exact (ci_imm_zero X_CI_addi ffm ic B eq_refl).
  transitivity (let* h := x_hint (ext X_C2_mv ffm) ic in if h then Ok true else let* i := x_imm (ext X_C2_slli ffm) ic in Ok (i =? 0)); [reflexivity|].
  rewrite (ci_imm_zero X_C2_slli ffm ic B eq_refl). cbn [hint_when].
  enough (x_hint (ext X_C2_mv ffm) ic = Ok (is_x0 7 ffm ic)) as -> by (cbn [rbind]; now destruct (is_x0 7 ffm ic)).
  unfold is_x0. xunf. lazy [dst_has_x0]. xunf. fslice. destruct (slice 7 5 ffm =? 0); cbn [negb]; [|reflexivity].
  rewrite ?N.lor_0_l, ?N.lor_0_r, has_x0. now destruct (slice 7 5 _ =? 0).
Qed.

(** ** The shipped tables *)
Definition rd_zero : N * N := (field_mask 7 5, 0).
Definition imm_zero : N * N := (N.lor (field_mask 12 1) (field_mask 2 5), 0).
Definition hint_sets (c : xcls) (ffm : N) : list (N * N) :=
  match c with
  | X_CI_rD_only | X_CI_rD_shifted | X_C2_add | X_C2_mv => if slice 7 5 ffm =? 0 then [rd_zero] else []
  | X_CI_addi | X_CIX => [imm_zero]
  | X_C2_slli => (if slice 7 5 ffm =? 0 then [rd_zero] else []) ++ [imm_zero]
  | _ => []
  end.
Lemma is_x0_sets ffm ic : is_x0 7 ffm ic = true <-> exists q, In q (if slice 7 5 ffm =? 0 then [rd_zero] else []) /\ inside q ic.
Proof.
  unfold is_x0. destruct (slice 7 5 ffm =? 0); cbn [andb].
  - rewrite N.eqb_eq, (L_ManualFull.slice_zero []). split; [intros H; exists rd_zero; split; [now left|exact H]|intros (q & [<-|[]] & H); exact H].
  - split; [discriminate|intros (q & [] & _)].
Qed.
Lemma no_imm_sets ic : no_ci_imm ic = true <-> inside imm_zero ic.
Proof. unfold no_ci_imm, inside. rewrite andb_true_iff, !N.eqb_eq, !(L_ManualFull.slice_zero []). cbn [fst snd imm_zero]. rewrite N.land_lor_distr_r, N.lor_eq_0_iff. tauto. Qed.
Lemma hint_sets_ok c ffm ic : hint_when c ffm ic = true <-> exists q, In q (hint_sets c ffm) /\ inside q ic.
Proof.
  destruct c; cbn [hint_when hint_sets]; try apply is_x0_sets; try (split; [discriminate|intros (q & [] & _)]).
  1,2: rewrite no_imm_sets; split; [intros H; exists imm_zero; split; [now left|exact H]|intros (q & [<-|[]] & H); exact H].
  rewrite orb_true_iff, is_x0_sets, no_imm_sets. split.
  - intros [(q & I & H)|H]; [exists q|exists imm_zero]; (split; [apply in_or_app|assumption]); [now left|right; now left].
  - intros (q & I & H). apply in_app_or in I as [I|[<-|[]]]; [left; eauto|now right].
Qed.

Definition hset : Type := (N * N) * list (N * N).
Definition hsets : list hset := map (fun h => (pat_mv (fst h), map pat_mv (snd h))) hints.
Lemma hint_of_sets ic : hint_of hints ic <-> exists h, In h hsets /\ inside (fst h) ic /\ forall q, In q (snd h) -> ~ inside q ic.
Proof.
  unfold hint_of, hsets. split.
  - intros (p & ex & I & F & X). exists (pat_mv p, map pat_mv ex). split; [apply in_map_iff; exists (p, ex); auto|]. cbn [fst snd].
    split; [now apply pat_fits|]. intros q IQ. apply in_map_iff in IQ as (e & <- & IE). intros G. apply (X _ IE), pat_fits. exact G.
  - intros (h & I & F & X). apply in_map_iff in I as ((p & ex) & <- & I). cbn [fst snd] in *. exists p, ex. split; [auto|].
    split; [now apply pat_fits|]. intros e IE G. apply (X (pat_mv e) (in_map _ _ _ IE)). apply pat_fits. exact G.
Qed.
(** [q]: the pattern of a row; [nar]: the patterns of the narrower rows. *)
Definition hint_okb (q : N * N) (nar : list (N * N)) (H : list hset) (S : list (N * N)) : bool :=
  forallb (fun z => if disjointb q z then true else
    existsb (fun h => if within (both q z) (fst h) then
      forallb (fun x => if disjointb (both q z) x then true else existsb (within (both (both q z) x)) nar) (snd h) else false) H) S &&
  forallb (fun h => if disjointb q (fst h) then true else
    existsb (within (both q (fst h))) (S ++ snd h ++ nar)) H.
Lemma hint_ok q nar H S ic : hint_okb q nar H S = true -> inside q ic -> (forall n, In n nar -> ~ inside n ic) ->
  ((exists z, In z S /\ inside z ic) <-> exists h, In h H /\ inside (fst h) ic /\ forall x, In x (snd h) -> ~ inside x ic).
Proof.
  unfold hint_okb. intros OK I NN. apply andb_true_iff in OK as [OK1 OK2]. rewrite forallb_forall in OK1, OK2. split.
  - intros (z & Iz & Z). specialize (OK1 _ Iz). destruct (disjointb q z) eqn:D; [destruct (disjointb_ok _ _ _ D I Z)|].
    apply existsb_exists in OK1 as (h & Ih & OK). destruct (within (both q z) (fst h)) eqn:W; [|discriminate]. pose proof (both_ok _ _ _ I Z) as Bz.
    exists h. split; [auto|]. split; [exact (within_ok _ _ _ W Bz)|]. intros x Ix X. rewrite forallb_forall in OK. specialize (OK _ Ix).
    destruct (disjointb (both q z) x) eqn:D'; [exact (disjointb_ok _ _ _ D' Bz X)|]. apply existsb_exists in OK as (n & In' & W').
    exact (NN _ In' (within_ok _ _ _ W' (both_ok _ _ _ Bz X))).
  - intros (h & Ih & F & X). specialize (OK2 _ Ih). destruct (disjointb q (fst h)) eqn:D; [destruct (disjointb_ok _ _ _ D I F)|].
    apply existsb_exists in OK2 as (z & Iz & W). pose proof (within_ok _ _ _ W (both_ok _ _ _ I F)) as Z.
    apply in_app_or in Iz as [Iz|Iz]; [eauto|]. apply in_app_or in Iz as [Iz|Iz]; [destruct (X _ Iz Z)|destruct (NN _ Iz Z)].
Qed.
(** Only the rows of the C extension can be narrower where it matters. *)
Definition hints_okb (T : list irec) (M : list minst) : bool :=
  let P := map (fun m => (mi_name m, pat_mv (mi_pat m))) M in
  let C := map snd (filter (fun p => negb (N.land (snd (snd p)) 3 =? 3)) P) in
  let H := hsets in
  masked_okb T &&
  forallb (fun r => forallb (fun q => let '(n, c, ffm, _) := q in
    if mem n odd_hints then true else
    forallb (fun p => if String.eqb (fst p) n then hint_okb (snd p) (filter (fun p' => strictly p' (snd p)) C) H (hint_sets c ffm) else true) P) (readings T r)) T.
Lemma hints_sound T M K u ic v m : hints_okb T M = true -> (forall m, In m M -> provided T (mi_name m)) -> (forall r, In r K -> In r T) -> ic < 2 ^ 64 ->
  decodes K u ic (Ok v) -> closest M T m ic -> mi_name m = d_mnemonic (i_di v) -> ~ In (mi_name m) odd_hints ->
  (d_hint (i_di v) = true <-> hint_of hints ic).
Proof.
  intros OK PR SI B D (IM & F & NN) EN NO. unfold hints_okb in OK. cbv zeta in OK. apply andb_true_iff in OK as [OK1 OK2].
  destruct (reading_in T K u ic v OK1 SI D) as (r & e & c & ffm & Hr & He & MT & RD & XX & IC & DI).
  apply decode_inv in DI as DI'. destruct DI' as (_ & _ & _ & _ & _ & _ & _ & _ & _ & _ & HH & _). rewrite hint_lemma in HH by exact B.
  assert (d_hint (i_di v) = hint_when c ffm ic) as -> by congruence. clear HH.
  rewrite forallb_forall in OK2. specialize (OK2 _ Hr). rewrite forallb_forall in OK2. specialize (OK2 _ RD). cbv beta iota in OK2.
  destruct (mem (d_mnemonic (i_di v)) odd_hints) eqn:ME; [apply mem_in in ME; rewrite EN in NO; contradiction|].
  rewrite forallb_forall in OK2. specialize (OK2 (mi_name m, pat_mv (mi_pat m)) (in_map (fun m => (mi_name m, pat_mv (mi_pat m))) _ _ IM)). cbn [fst snd] in OK2.
  rewrite EN, String.eqb_refl in OK2. rewrite hint_sets_ok, hint_of_sets. apply (hint_ok _ _ _ _ _ OK2); [now apply pat_fits|].
  intros n In' X. apply filter_In in In' as [In' ST]. apply in_map_iff in In' as ((n' & p) & <- & In'). apply filter_In in In' as [In' _].
  apply in_map_iff in In' as (m' & Q & IM'). assert (Q2 : p = pat_mv (mi_pat m')) by congruence. cbn [snd] in X, ST. rewrite Q2 in X, ST.
  apply (NN m' IM' (PR _ IM') (proj2 (pat_fits _ _) X)). now apply strictly_narrower.
Qed.
Lemma book_hints T B : book_of T B -> hints_okb T (bk_rows B) = true.
Proof. intros []; vm_compute; reflexivity. Qed.
Lemma C51_shipped_lemma T B recs uids annos nu incl excl s : book_of T B -> subseq recs T -> 0 < nu < w32 ->
  make_decoder uids annos nu incl excl recs = Ok s ->
  forall A U ic v m, ic < 2 ^ 64 -> decode (A := A) (U := U) s ic = Ok v ->
  closest (bk_rows B) T m ic -> mi_name m = d_mnemonic (i_di v) -> ~ In (mi_name m) odd_hints ->
  (d_hint (i_di v) = true <-> hint_of hints ic).
Proof.
  intros BO SB HN HD A U ic v m L E.
  pose proof (C38_decodes_lemma _ _ _ _ _ _ _ _ (book_shipped T B BO) SB HN HD A U ic) as D. rewrite E in D.
  exact (hints_sound T (bk_rows B) _ _ ic v m (book_hints T B BO) (fun m => book_provides T B m BO) (subseq_in _ _ (kept_sub incl excl recs T SB)) L D).
Qed.
Lemma C51_whole_lemma T B uids annos nu s : book_of T B -> 0 < nu < w32 -> make_decoder uids annos nu [] [] T = Ok s ->
  forall A U ic v, ic < 2 ^ 64 -> decode (A := A) (U := U) s ic = Ok v -> in_manual (bk_rows B) (d_mnemonic (i_di v)) ->
  ~ In (d_mnemonic (i_di v)) (bk_patterns B) -> ~ In (d_mnemonic (i_di v)) odd_hints ->
  (d_hint (i_di v) = true <-> hint_of hints ic).
Proof.
  intros BO HN HD A U ic v L E IM NP NO.
  destruct (C49_instruction_lemma T B BO T uids annos nu [] [] s (subseq_refl T) HN HD A U ic v E NP) as [(m & N' & C)|[Q _]]; [|contradiction].
  rewrite kept_all in C. apply (C51_shipped_lemma T B T uids annos nu [] [] s BO (subseq_refl T) HN HD A U ic v m L E C N'). now rewrite N'.
Qed.

(** ** Witnesses *)
Definition hint_facts (recs : list irec) (ics : list N) : option (list (option (string * bool))) :=
  match make_decoder [] [] 1 [] [] recs with
  | Ok s => Some (map (fun ic => match decode (A := unit) (U := unit) s ic with Ok v => Some (d_mnemonic (i_di v), d_hint (i_di v)) | _ => None end) ics)
  | _ => None
  end.
Lemma hint_facts_ok recs ics l : hint_facts recs ics = Some l -> exists s, make_decoder [] [] 1 [] [] recs = Ok s /\
  map (fun ic => match decode (A := unit) (U := unit) s ic with Ok v => Some (d_mnemonic (i_di v), d_hint (i_di v)) | _ => None end) ics = l.
Proof. unfold hint_facts. destruct (make_decoder _ _ _ _ _ _) as [s| | |] eqn:E; try discriminate. intros H. exists s. split; [reflexivity|congruence]. Qed.
Lemma hint_fact_ok (r : res info) n b : match r with Ok v => Some (d_mnemonic (i_di v), d_hint (i_di v)) | _ => None end = Some (n, b) ->
  exists v, r = Ok v /\ d_mnemonic (i_di v) = n /\ d_hint (i_di v) = b.
Proof. destruct r as [v| | |]; try discriminate. intros H. exists v. split; [reflexivity|]. split; congruence. Qed.
Definition hint_names : list string := ["addi"; "li"; "nop"; "add"; "c.addi"; "c.nop"; "c.add"; "ntl.p1"; "c.ntl.p1"]%string.
Lemma hint_names_ok : hint_facts (only hint_names rv64) [0x1; 0x5; 0x900A; 0x00208033; 0x501; 0x505; 0x9006] =
  Some [Some ("c.nop"%string, true); Some ("c.nop"%string, false); Some ("c.ntl.p1"%string, false); Some ("add"%string, false);
        Some ("c.addi"%string, true); Some ("c.addi"%string, false); Some ("c.add"%string, true)].
Proof. vm_compute. reflexivity. Qed.
Definition hint_ofb (H : list (string * list string)) (ic : N) : bool :=
  existsb (fun h => fitsb (fst h) ic && forallb (fun q => negb (fitsb q ic)) (snd h)) H.
Lemma hint_ofb_ok H ic : hint_ofb H ic = true <-> hint_of H ic.
Proof.
  unfold hint_ofb, hint_of. rewrite existsb_exists. split.
  - intros ((p & ex) & I & Q). apply andb_true_iff in Q as [F X]. cbn [fst snd] in *. exists p, ex. split; [auto|]. split; [now apply fitsb_ok|].
    intros q Iq G. rewrite forallb_forall in X. specialize (X _ Iq). apply fitsb_ok in G. rewrite G in X. discriminate.
  - intros (p & ex & I & F & X). exists (p, ex). split; [auto|]. cbn [fst snd]. rewrite (proj2 (fitsb_ok _ _) F). cbn. apply forallb_forall.
    intros q Iq. destruct (fitsb q ic) eqn:G; [|reflexivity]. apply fitsb_ok in G. destruct (X _ Iq G).
Qed.
Lemma not_hint H ic : hint_ofb H ic = false -> ~ hint_of H ic.
Proof. intros E Q. apply hint_ofb_ok in Q. congruence. Qed.
Lemma C51_witness : exists s, make_decoder [] [] 1 [] [] (only hint_names rv64) = Ok s /\
  (exists v, decode (A := unit) (U := unit) s 0x1 = Ok v /\ d_mnemonic (i_di v) = "c.nop"%string /\ d_hint (i_di v) = true) /\
  (exists v, decode (A := unit) (U := unit) s 0x5 = Ok v /\ d_mnemonic (i_di v) = "c.nop"%string /\ d_hint (i_di v) = false) /\
  (exists v, decode (A := unit) (U := unit) s 0x900A = Ok v /\ d_mnemonic (i_di v) = "c.ntl.p1"%string /\ d_hint (i_di v) = false) /\
  (exists v, decode (A := unit) (U := unit) s 0x00208033 = Ok v /\ d_mnemonic (i_di v) = "add"%string /\ d_hint (i_di v) = false) /\
  (exists v, decode (A := unit) (U := unit) s 0x501 = Ok v /\ d_mnemonic (i_di v) = "c.addi"%string /\ d_hint (i_di v) = true) /\
  (exists v, decode (A := unit) (U := unit) s 0x505 = Ok v /\ d_mnemonic (i_di v) = "c.addi"%string /\ d_hint (i_di v) = false) /\
  (exists v, decode (A := unit) (U := unit) s 0x9006 = Ok v /\ d_mnemonic (i_di v) = "c.add"%string /\ d_hint (i_di v) = true).
Proof.
  destruct (hint_facts_ok _ _ _ hint_names_ok) as (s & E & F). exists s. split; [exact E|]. cbn [map] in F. injection F; intros F7 F6 F5 F4 F3 F2 F1.
  apply hint_fact_ok in F1, F2, F3, F4, F5, F6, F7. auto 10.
Qed.
Lemma C51_nop_lemma : exists recs s v w, subseq recs rv64 /\ make_decoder [] [] 1 [] [] recs = Ok s /\
  decode (A := unit) (U := unit) s 0x1 = Ok v /\ d_hint (i_di v) = true /\ ~ hint_of hints 0x1 /\
  decode (A := unit) (U := unit) s 0x5 = Ok w /\ d_hint (i_di w) = false /\ hint_of hints 0x5.
Proof.
  destruct C51_witness as (s & E & (v & V1 & _ & V2) & (w & W1 & _ & W2) & _). exists (only hint_names rv64), s, v, w.
  split; [apply subseq_filter|]. split; [exact E|]. split; [exact V1|]. split; [exact V2|]. split; [apply not_hint; vm_compute; reflexivity|].
  split; [exact W1|]. split; [exact W2|]. apply hint_ofb_ok. vm_compute. reflexivity.
Qed.
Lemma C51_ntl_lemma : exists recs s v, subseq recs rv64 /\ make_decoder [] [] 1 [] [] recs = Ok s /\
  decode (A := unit) (U := unit) s 0x900A = Ok v /\ d_mnemonic (i_di v) = "c.ntl.p1"%string /\ d_hint (i_di v) = false /\ hint_of hints 0x900A.
Proof.
  destruct C51_witness as (s & E & _ & _ & (v & V1 & V2 & V3) & _). exists (only hint_names rv64), s, v.
  split; [apply subseq_filter|]. do 4 (split; [assumption|]). apply hint_ofb_ok. vm_compute. reflexivity.
Qed.
Lemma C51_wide_lemma : exists recs s v, subseq recs rv64 /\ make_decoder [] [] 1 [] [] recs = Ok s /\
  decode (A := unit) (U := unit) s 0x00208033 = Ok v /\ d_hint (i_di v) = false /\ hint_of wide_hints 0x00208033.
Proof.
  destruct C51_witness as (s & E & _ & _ & _ & (v & V1 & V2 & V3) & _). exists (only hint_names rv64), s, v.
  split; [apply subseq_filter|]. do 3 (split; [assumption|]). apply hint_ofb_ok. vm_compute. reflexivity.
Qed.
Lemma narrower_strictly p q : narrower p q -> strictly (pat_mv p) (pat_mv q) = true.
Proof.
  intros H. apply narrower_within in H as [H1 H2]. unfold strictly. rewrite (all_fit_within _ _ H1). apply negb_true_iff.
  destruct (pat_mv p) as [a b], (pat_mv q) as [c d]. cbn [fst snd]. destruct (N.eqb_spec a c) as [->|]; [|reflexivity].
  destruct (N.eqb_spec b d) as [->|]; [destruct H2|]; reflexivity.
Qed.
Definition closest_rows (M : list minst) (n : string) (ic : N) : list minst :=
  filter (fun m => if String.eqb (mi_name m) n then if fitsb (mi_pat m) ic then
    forallb (fun m' => if fitsb (mi_pat m') ic then negb (strictly (pat_mv (mi_pat m')) (pat_mv (mi_pat m))) else true) M else false else false) M.
Lemma closest_rows_ok M n ic recs : closest_rows M n ic <> [] -> exists m, closest M recs m ic /\ mi_name m = n.
Proof.
  destruct (closest_rows M n ic) as [|m l] eqn:E; [intros H; destruct (H eq_refl)|intros _]. exists m.
  assert (I : In m (closest_rows M n ic)) by (rewrite E; now left). unfold closest_rows in I. apply filter_In in I as [I Q].
  destruct (String.eqb (mi_name m) n) eqn:Q1; [|discriminate]. destruct (fitsb (mi_pat m) ic) eqn:Q2; [|discriminate]. rename Q into Q3.
  apply String.eqb_eq in Q1. apply fitsb_ok in Q2.
  split; [|exact Q1]. split; [exact I|]. split; [exact Q2|]. intros m' I' _ F' NA. rewrite forallb_forall in Q3. specialize (Q3 _ I').
  apply fitsb_ok in F'. apply narrower_strictly in NA. rewrite F', NA in Q3. discriminate.
Qed.
(** c.addi a0, 0 and c.addi a0, 1 *)
Lemma C51_case : exists recs s v w, subseq recs rv64 /\ make_decoder [] [] 1 [] [] recs = Ok s /\
  decode (A := unit) (U := unit) s 0x501 = Ok v /\ d_hint (i_di v) = true /\
  (exists m, closest manual64 rv64 m 0x501 /\ mi_name m = d_mnemonic (i_di v)) /\
  decode (A := unit) (U := unit) s 0x505 = Ok w /\ d_hint (i_di w) = false /\
  (exists m, closest manual64 rv64 m 0x505 /\ mi_name m = d_mnemonic (i_di w)) /\
  d_mnemonic (i_di v) = "c.addi"%string /\ d_mnemonic (i_di w) = "c.addi"%string /\ ~ In "c.addi"%string odd_hints.
Proof.
  destruct C51_witness as (s & E & _ & _ & _ & _ & (v & V1 & V2 & V3) & (w & W1 & W2 & W3) & _). exists (only hint_names rv64), s, v, w.
  split; [apply subseq_filter|]. rewrite V2, W2. do 3 (split; [assumption|]).
  split; [apply closest_rows_ok; vm_compute; discriminate|]. do 2 (split; [assumption|]).
  split; [apply closest_rows_ok; vm_compute; discriminate|]. do 2 (split; [reflexivity|]). intros I. apply mem_in in I. discriminate I.
Qed.
