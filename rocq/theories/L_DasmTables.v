(** Claim C50 for the shipped tables. *)
From Coq Require Import NArith ZArith Arith List Bool String Ascii Lia ZifyBool ZifyN.
From Verif Require Import M_Base M_Field M_Forms M_Meta M_OperandInfo M_Extract M_Decoded M_Trie M_Builder M_DTable M_Raw.
From Verif Require Import S_Bits S_Trie S_Slots S_Imm S_Pairs S_Regs S_Table S_Shipped S_Dasm.
From Verif Require Import L_Bits L_Trie L_Slots L_Imm L_Decoded L_Decode L_Check L_Readable L_Claims L_Shipped L_Manual L_ManualFull L_Dasm.
Import ListNotations.
Local Open Scope N_scope.

(** ** The reading of a decoded opcode *)
Lemma decodes_view recs u ic v : decodes recs u ic (Ok v) ->
  exists r e y, listed recs r e /\ matches e ic /\ S_Table.reads recs r e ic y /\ d_mnemonic (i_di v) = rd_mn y /\
    decode_info (rd_mn y) (d_uid (i_di v)) (rd_x y) (rd_meta y) ic = Ok (i_di v) /\ i_icode v = ic /\ i_x v = rd_x y /\ i_meta v = rd_meta y.
Proof.
  intros [[_ H]|(r & e & x & L & S & X & [[_ H]|(_ & y & w & R & AN & _)])]; [discriminate..|].
  exists r, e, y. split; [auto|]. split; [apply S|]. split; [auto|]. unfold answers in AN.
  destruct (decode_info _ w _ _ _) as [d| | |] eqn:E; try discriminate. destruct AN as [a AN].
  assert (v = mkInfo ic d (rd_x y) (rd_meta y) a) as Q by (apply (f_equal (fun r => match r with Ok v => v | _ => v end)) in AN; exact AN).
  rewrite Q. cbn [i_di i_icode i_x i_meta]. apply decode_info_fields in E as Q'. destruct Q' as [Q1 Q2]. rewrite Q2. auto 10.
Qed.
Definition masked_okb (recs : list irec) : bool :=
  forallb (fun r => forallb (fun e => match fx_mask e with Some _ => true | None => false end) (rec_encs r)) recs.
Lemma reading_in T K u ic v : masked_okb T = true -> (forall r, In r K -> In r T) -> decodes K u ic (Ok v) ->
  exists r e c ffm, In r T /\ In e (rec_encs r) /\ matches e ic /\ In (d_mnemonic (i_di v), c, ffm, i_meta v) (readings T r) /\
    i_x v = ext c ffm /\ i_icode v = ic /\
    decode_info (d_mnemonic (i_di v)) (d_uid (i_di v)) (ext c ffm) (i_meta v) ic = Ok (i_di v).
Proof.
  intros OK SI D. destruct (decodes_view _ _ _ _ D) as (r & e & y & [Hr He] & MT & R & EN & DI & IC & XX & MM).
  unfold masked_okb in OK. rewrite forallb_forall in OK. specialize (OK r (SI _ Hr)). rewrite forallb_forall in OK. specialize (OK e He).
  assert (FX : fx_mask e <> None) by (destruct (fx_mask e); discriminate).
  enough (exists c ffm, rd_x y = ext c ffm /\ In (rd_mn y, c, ffm, rd_meta y) (readings T r)) as (c & ffm & C1 & C2).
  { exists r, e, c, ffm. rewrite EN, XX, MM, <- C1. auto 10. }
  destruct (listed_mn _ _ He) as (HI & _). apply instb_ok in HI. unfold readings. rewrite HI.
  destruct R as [((D1 & D2 & D3) & _)|(ro & mask & D1 & (D2 & (m0 & D3 & D3') & x & D4 & D5) & _)].
  - destruct (exts_in _ _ _ He FX D3) as (c & C1 & C2). exists (fst c), (snd c). split; [exact C2|]. apply in_or_app. left.
    apply in_flat_map. exists (rd_meta y). split; [eapply L_Shipped.metas_sub; eauto|]. apply in_map_iff. rewrite D1. eauto.
  - assert (exists c, In c (overlay_exts r ro) /\ rd_x y = ext (fst c) (snd c)) as (c & C1 & C2).
    { unfold overlay_extractor in D5. unfold overlay_exts. destruct (r_xform ro) as [n|].
      - destruct D5 as (c & D5 & D6). rewrite D5. exists (c, 0). split; [now left|exact D6].
      - rewrite D5. eapply exts_in; eauto. }
    exists (fst c), (snd c). split; [exact C2|]. apply in_or_app. right.
    apply in_flat_map. exists ro. split; [auto|]. rewrite (ovb_ok _ _ _ _ _ D2). destruct D2 as (D2 & _). rewrite D2, String.eqb_refl.
    apply in_flat_map. exists (rd_meta y). split; [|apply in_map_iff; eauto].
    unfold overlay_metas. rewrite D3, D3'. now left.
Qed.

(** ** What has to be checked of a reading *)
Definition is_xb (m : meta) (f : fid) : bool := match file_of (mt_otype m f) with Some XFile => true | _ => false end.
Definition file_eqb (a b : option regfile) : bool :=
  match a, b with
  | Some XFile, Some XFile | Some FFile, Some FFile | Some VFile, Some VFile | None, None => true
  | _, _ => false
  end.
Definition pair_name (c : xcls) (n : string) : bool :=
  match c with
  | X_I_load_pair => String.eqb n "ld" | X_S_pair => String.eqb n "sd"
  | X_C2_sp_load_word_pair => String.eqb n "c.ldsp" | X_C2_sp_store_word_pair => String.eqb n "c.sdsp"
  | _ => true
  end.
Definition as_reportedb (n : string) (c : xcls) (ffm : N) (m : meta) : bool :=
  (if is_pair c then pair_free c ffm && pair_name c n else true) &&
  match c with
  | X_C2 => negb (slice 2 5 ffm =? 0) || file_eqb (file_of (mt_otype m RS1)) (file_of (mt_otype m RS2))
  | X_CB | X_CJAL | X_CJALR | X_C2_sp | X_C2_sp_load | X_C2_sp_load_word | X_C2_sp_load_double | X_C2_sp_load_word_pair
  | X_C2_sp_load_float_single | X_C2_sp_load_float_double
  | X_C2_sp_store | X_C2_sp_store_word | X_C2_sp_store_double | X_C2_sp_store_word_pair => is_xb m RS1
  | X_CI_rD_only | X_CIW_sp => is_xb m RD
  | X_V_vsetivli => is_xb m RD && (slice 7 5 ffm =? 0)
  | X_CSRI => slice 20 12 ffm =? 0
  | X_CIW => slice 5 8 ffm =? 0
  | _ => true
  end.
Lemma is_xb_ok m f : is_xb m f = true -> is_x m f.
Proof. unfold is_xb, is_x. destruct (file_of _) as [[]|]; easy. Qed.
Lemma file_eqb_ok a b : file_eqb a b = true -> a = b.
Proof. destruct a as [[]|], b as [[]|]; easy. Qed.
Lemma as_reportedb_ok n c ffm m ic : as_reportedb n c ffm m = true -> (is_pair c = true -> first_of_pair n ic <> 0) -> as_reported c ffm m ic.
Proof.
  unfold as_reportedb. intros H F. apply andb_true_iff in H as [H1 H2]. split.
  - intros P. specialize (F P). rewrite P in H1. apply andb_true_iff in H1 as [H1 H3]. split; [exact H1|]. clear H1 H2.
    destruct c; try discriminate P; cbn [pair_name pair_first] in *; try lia; apply String.eqb_eq in H3; subst n; exact F.
  - clear H1 F. destruct c; try exact I; try (apply is_xb_ok; exact H2); try lia.
    + intros Z. rewrite Z in H2. apply file_eqb_ok. exact H2.
    + apply andb_true_iff in H2 as [H2 H3]. split; [now apply is_xb_ok|lia].
Qed.
Definition plainb (s : string) : bool := negb (String.eqb s "") && no_sep s.
Lemma plainb_ok s : plainb s = true -> S_Dasm.plain s.
Proof. unfold plainb. intros H. apply andb_true_iff in H as [H1 H2]. split; [|exact H2]. apply negb_true_iff, String.eqb_neq in H1. exact H1. Qed.
Definition row_bits (p n : N) (e : enc) : option N :=
  match row_of e with Some (mk, v) => if slice p n mk =? N.ones n then Some (slice p n v) else None | None => None end.
Lemma row_bits_ok p n e k ic : enc_ok e -> row_bits p n e = Some k -> matches e ic -> slice p n ic = k.
Proof.
  unfold row_bits. intros O. destruct (row_of e) as [[mk v]|] eqn:R; [|discriminate]. destruct (N.eqb_spec (slice p n mk) (N.ones n)) as [Q|]; [|discriminate].
  intros H M. assert (slice p n v = k) as <- by congruence. rewrite <- (row_ok _ _ _ _ O R M).
  apply N.bits_inj. intros j. rewrite !slice_testbit, N.land_spec. destruct (N.ltb_spec j n) as [L|L]; [|reflexivity].
  assert (T : N.testbit (slice p n mk) j = true) by (rewrite Q; apply N.ones_spec_low; exact L).
  rewrite slice_testbit in T. apply andb_true_iff in T as [_ T]. rewrite T, andb_true_r. reflexivity.
Qed.

(** ** Names with "seg" in them *)
Fixpoint starts (p s : string) : bool :=
  match p, s with
  | EmptyString, _ => true
  | String a p', String b s' => Ascii.eqb a b && starts p' s'
  | _, _ => false
  end.
Lemma starts_app p s : starts p (String.append p s) = true.
Proof. induction p; cbn; [reflexivity|]. now rewrite Ascii.eqb_refl. Qed.
Lemma starts_both p q s : starts p s = true -> starts q s = true -> starts p q = true \/ starts q p = true.
Proof.
  revert p q. induction s as [|a s IH]; intros [|b p] [|c q]; cbn; auto; try discriminate.
  intros H1 H2. apply andb_true_iff in H1 as [E1 H1], H2 as [E2 H2]. apply Ascii.eqb_eq in E1, E2. subst.
  rewrite Ascii.eqb_refl. cbn. auto.
Qed.
Definition dec_digit (a : ascii) : bool := match digit a with Some d => d <? 10 | None => false end.
Fixpoint all_dec (s : string) : bool := match s with EmptyString => true | String a r => dec_digit a && all_dec r end.
Lemma numeral_all_dec s : forall acc n, numeral_from 10 acc s = Some n -> all_dec s = true.
Proof.
  induction s as [|a r IH]; intros acc n; cbn [numeral_from all_dec]; [reflexivity|]. unfold dec_digit.
  destruct (digit a) as [d|]; [|discriminate]. destruct (d <? 10); [|discriminate]. intros H. cbn. eauto.
Qed.
Lemma numeral_decs s n : numeral 10 s = Some n -> all_dec s = true.
Proof. destruct s; [reflexivity|]. apply numeral_all_dec. Qed.
Definition no_digit (q : string) : bool := match q with EmptyString => true | String a _ => negb (dec_digit a) end.
Lemma dec_split d : forall d' q q', all_dec d = true -> all_dec d' = true -> no_digit q = true -> no_digit q' = true ->
  String.append d q = String.append d' q' -> d = d' /\ q = q'.
Proof.
  induction d as [|a d IH]; intros [|b d'] q q' A A' Q Q' E; cbn in *.
  - auto.
  - subst q. apply andb_true_iff in A' as [A' _]. cbn in Q. rewrite A' in Q. discriminate.
  - subst q'. apply andb_true_iff in A as [A _]. cbn in Q'. rewrite A in Q'. discriminate.
  - injection E as -> E. apply andb_true_iff in A as [_ A], A' as [_ A']. destruct (IH _ _ _ A A' Q Q' E) as [-> ->]. auto.
Qed.
Definition tail (k : nat) (n : string) : string := substring k (String.length n - k) n.
Definition head (k : nat) (n : string) : string := String.append (substring 0 k n) "seg".
(** [(n, k)]: in the name n, "seg" is inserted after k letters. *)
Lemma named_inv c ffm n ic name : (4 <= String.length n)%nat -> segmented c ffm ic = true -> S_Dasm.named c ffm n ic name ->
  exists d, name = String.append (head (mode_letters ic) n) (String.append d (tail (mode_letters ic) n)) /\ numeral 10 d = Some (slice 29 3 ic + 1).
Proof.
  intros L S. unfold S_Dasm.named. rewrite S. intros (p & d & q & E & LP & -> & D). exists d. split; [|exact D].
  assert (LM : (mode_letters ic <= 4)%nat) by (unfold mode_letters; destruct (slice 26 2 ic) as [|[]]; try lia; destruct p0; lia).
  destruct (prefix_split n (mode_letters ic) ltac:(lia)) as [X Y]. unfold head, tail. rewrite X in E at 1.
  apply sapp_split in E as [-> ->]; [|congruence]. now rewrite sapp_assoc.
Qed.

(** ** The checks *)
Definition segmentable (c : xcls) (ffm : N) : bool := is_vmem c && (slice 29 3 ffm =? 0).
Definition qname (q : string * xcls * N * meta) : string := fst (fst (fst q)).
Definition seg_names (T : list irec) : list (string * nat) :=
  flat_map (fun r => flat_map (fun q => let '(n, c, ffm, _) := q in
    if segmentable c ffm then flat_map (fun e => match row_bits 26 2 e with Some k => [(n, mode_letters (k * 2 ^ 26))] | None => [] end) (rec_encs r)
    else []) (readings T r)) T.
Definition reading_okb (r : irec) (q : string * xcls * N * meta) : bool :=
  let '(n, c, ffm, m) := q in
  plainb n && as_reportedb n c ffm m &&
  (if segmentable c ffm then (4 <=? String.length n)%nat &&
     forallb (fun e => match row_bits 26 2 e, row_bits 28 1 e with Some _, Some 0 => true | _, _ => false end) (rec_encs r) else true) &&
  shows_operands c ffm &&
  match c with
  | X_V_vsetvli | X_V_vsetivli => if String.eqb n "vsetvli" then true else String.eqb n "vsetivli"
  | X_ISH => if slice 20 6 ffm =? 0 then true else
      forallb (fun e => forallb (fun e' => match row_bits 20 6 e, row_bits 20 6 e' with Some k, Some k' => k =? k' | _, _ => false end) (rec_encs r)) (rec_encs r)
  | _ => true
  end.
Definition names_okb (T : list irec) : bool :=
  let N := map qname (flat_map (readings T) T) in let S := seg_names T in
  nodupb N && forallb (fun p => no_digit (tail (snd p) (fst p)) && forallb (fun n => negb (starts (head (snd p) (fst p)) n)) N &&
    forallb (fun p' => if Nat.eqb (snd p) (snd p') then true else negb (starts (head (snd p) (fst p)) (head (snd p') (fst p')))) S) S.
Definition dasm_okb (T : list irec) : bool :=
  masked_okb T && enc_oks (encodings T) && forallb (fun r => forallb (reading_okb r) (readings T r)) T && names_okb T.
Lemma dasm_ok T : shipped T -> dasm_okb T = true.
Proof. intros []; vm_compute; reflexivity. Qed.
Lemma no_pair_rv64 r n c ffm m : In r rv64 -> In (n, c, ffm, m) (readings rv64 r) -> is_pair c = false.
Proof.
  intros I J. assert (K : forallb (fun r => forallb (fun q => negb (is_pair (snd (fst (fst q))))) (readings rv64 r)) rv64 = true) by (vm_compute; reflexivity).
  rewrite forallb_forall in K. specialize (K _ I). rewrite forallb_forall in K. specialize (K _ J). cbn [fst snd] in K. now apply negb_true_iff in K.
Qed.
Lemma nodupb_ok l : nodupb l = true -> NoDup l.
Proof.
  induction l as [|n r IH]; cbn [nodupb]; [constructor|]. destruct (mem n r) eqn:M; [discriminate|]. intros H. constructor; [|auto].
  intros I. apply mem_in in I. congruence.
Qed.
Lemma nodup_flat {A B C} (f : B -> C) (g : A -> list B) l : NoDup (map f (flat_map g l)) ->
  forall x y a b, In x l -> In y l -> In a (g x) -> In b (g y) -> f a = f b -> x = y /\ a = b.
Proof.
  assert (one : forall l, NoDup (map f l) -> forall a b, In a l -> In b l -> f a = f b -> a = b).
  { induction l0 as [|z l0 IH]; cbn; [easy|]. intros H a b. inversion H; subst. intros [<-|I] [<-|J] E; auto.
    - exfalso. apply H2. rewrite E. now apply in_map.
    - exfalso. apply H2. rewrite <- E. now apply in_map. }
  induction l as [|z l IH]; [easy|]. cbn [flat_map]. rewrite map_app. intros H x y a b Ix Iy Ia Ib E.
  assert (X : forall a b, In a (g z) -> In b (flat_map g l) -> f a <> f b).
  { intros a0 b0 P Q E0. clear - H P Q E0. induction (g z) as [|h t IHt]; [destruct P|]. cbn in H. inversion H; subst.
    destruct P as [->|P]; [|auto]. apply H2. apply in_or_app. right. rewrite E0. now apply in_map. }
  assert (H1 : NoDup (map f (g z)) /\ NoDup (map f (flat_map g l))).
  { clear - H. induction (g z) as [|h t IHt]; [split; [constructor|exact H]|]. cbn in H. inversion H; subst. destruct (IHt H3) as [U V].
    split; [|exact V]. cbn. constructor; [|exact U]. intros I. apply H2. apply in_or_app. now left. }
  destruct H1 as [H1 H2]. destruct Ix as [<-|Ix], Iy as [<-|Iy].
  - split; [reflexivity|]. exact (one _ H1 _ _ Ia Ib E).
  - exfalso. apply (X _ _ Ia (proj2 (in_flat_map _ _ _) (ex_intro _ y (conj Iy Ib)))). exact E.
  - exfalso. apply (X _ _ Ib (proj2 (in_flat_map _ _ _) (ex_intro _ x (conj Ix Ia)))). now symmetry.
  - exact (IH H2 _ _ _ _ Ix Iy Ia Ib E).
Qed.

(** ** The lines of a decoder *)
Lemma mode_same e ic k : enc_ok e -> matches e ic -> row_bits 26 2 e = Some k -> mode_letters ic = mode_letters (k * 2 ^ 26).
Proof.
  intros O M R. unfold mode_letters. pose proof (row_bits_ok _ _ _ _ _ O R M) as Q. rewrite Q.
  assert (k < 4) by (rewrite <- Q; apply (slice_lt 26 2)). assert (k = 0 \/ k = 1 \/ k = 2 \/ k = 3) as K by lia.
  destruct K as [K|[K|[K|K]]]; rewrite K; reflexivity.
Qed.
Section Lines.
Context (T : list irec) (SH : shipped T).
Context (recs : list irec) (uids : list (string * N)) (annos : list (string * anno)) (nu : N) (incl excl : list pattern) (s : builder * tree).
Context (SB : subseq recs T) (HN : 0 < nu < w32) (HD : make_decoder uids annos nu incl excl recs = Ok s).
Context (A U : Type).
Definition pair_shown (ic : N) (v : info) : Prop := T = rv64 \/ first_of_pair (d_mnemonic (i_di v)) ic <> 0.
Ltac checks := pose proof (dasm_ok T SH) as CK; unfold dasm_okb in CK; repeat (apply andb_true_iff in CK as [CK ?]).

Lemma view ic v : decode (A := A) (U := U) s ic = Ok v ->
  exists r e c ffm, In r T /\ In e (rec_encs r) /\ matches e ic /\ In (d_mnemonic (i_di v), c, ffm, i_meta v) (readings T r) /\
    i_x v = ext c ffm /\ i_icode v = ic /\
    decode_info (d_mnemonic (i_di v)) (d_uid (i_di v)) (ext c ffm) (i_meta v) ic = Ok (i_di v) /\
    enc_ok e /\ reading_okb r (d_mnemonic (i_di v), c, ffm, i_meta v) = true.
Proof.
  intros E. pose proof (C38_decodes_lemma T recs uids annos nu incl excl s SH SB HN HD A U ic) as D. rewrite E in D. checks.
  destruct (reading_in T (kept incl excl recs) _ _ _ CK (subseq_in _ _ (kept_sub incl excl recs T SB)) D) as (r & e & c & ffm & Ir & Ie & MT & IR & X & IC & DI).
  exists r, e, c, ffm. repeat (split; [assumption|]).
  rewrite forallb_forall in H0. specialize (H0 _ Ir). rewrite forallb_forall in H0. specialize (H0 _ IR). split; [|exact H0].
  apply enc_oks_ok in H1. rewrite Forall_forall in H1. apply H1. apply in_flat_map. eauto.
Qed.
Lemma reading_parts r n c ffm m : reading_okb r (n, c, ffm, m) = true -> S_Dasm.plain n /\ as_reportedb n c ffm m = true.
Proof.
  unfold reading_okb. intros H. apply andb_true_iff in H as [H _]. apply andb_true_iff in H as [H _]. apply andb_true_iff in H as [H _].
  apply andb_true_iff in H as [H1 H2]. split; [now apply plainb_ok|exact H2].
Qed.
Lemma reading_nameable r e n c ffm m ic : In e (rec_encs r) -> matches e ic -> enc_ok e -> reading_okb r (n, c, ffm, m) = true -> nameable c ffm n ic.
Proof.
  intros Ie MT O H. unfold reading_okb in H. repeat (apply andb_true_iff in H as [H ?]). intros S.
  assert (SG : segmentable c ffm = true) by (unfold segmented in S; unfold segmentable; destruct (is_vmem c); [|discriminate]; destruct (slice 29 3 ffm =? 0); easy).
  rewrite SG in H2. apply andb_true_iff in H2 as [L F]. split; [|now apply Nat.leb_le].
  rewrite forallb_forall in F. specialize (F _ Ie). destruct (row_bits 26 2 e); [|discriminate].
  destruct (row_bits 28 1 e) as [[|]|] eqn:R; try discriminate. exact (row_bits_ok _ _ _ _ _ O R MT).
Qed.
Lemma C50_shipped_lemma ic v : decode (A := A) (U := U) s ic = Ok v -> pair_shown ic v ->
  exists c ffm t n, i_x v = ext c ffm /\ info_dasm v = Ok t /\ S_Dasm.named c ffm (d_mnemonic (i_di v)) ic n /\
    Forall2 says (words t) (Lit n :: line c ffm ic (i_di v)).
Proof.
  intros E P. destruct (view _ _ E) as (r & e & c & ffm & Ir & Ie & MT & IR & X & IC & DI & O & RO).
  pose proof (reading_nameable _ _ _ _ _ _ _ Ie MT O RO) as NM.
  destruct (reading_parts _ _ _ _ _ RO) as [PL RP].
  assert (AR : as_reported c ffm (i_meta v) ic).
  { apply (as_reportedb_ok (d_mnemonic (i_di v))); [assumption|]. intros PR. destruct P as [P|P]; [|exact P].
    exfalso. rewrite P in *. rewrite (no_pair_rv64 _ _ _ _ _ Ir IR) in PR. discriminate. }
  destruct (C50_reads_lemma _ _ _ _ _ _ _ PL DI AR NM) as (t & n & E1 & E2 & E3).
  exists c, ffm, t, n. split; [exact X|]. split; [|auto]. unfold info_dasm. rewrite X, IC. exact E1.
Qed.
Lemma C50_unambiguous_lemma ic ic' v v' t : ic < 2 ^ 64 -> ic' < 2 ^ 64 ->
  decode (A := A) (U := U) s ic = Ok v -> decode (A := A) (U := U) s ic' = Ok v' ->
  pair_shown ic v -> pair_shown ic' v' -> info_dasm v = Ok t -> info_dasm v' = Ok t ->
  d_mnemonic (i_di v) = d_mnemonic (i_di v') /\
  oi_elems (d_src_oi (i_di v)) = oi_elems (d_src_oi (i_di v')) /\ oi_elems (d_dst_oi (i_di v)) = oi_elems (d_dst_oi (i_di v')) /\
  (~ In (d_mnemonic (i_di v)) ["vsetvli"; "vsetivli"]%string -> d_imm (i_di v) = d_imm (i_di v') /\ d_soff (i_di v) = d_soff (i_di v')).
Proof.
  intros B B' E E' P P' TX TX'.
  destruct (view _ _ E) as (r & e & c & ffm & Ir & Ie & MT & IR & X & IC & DI & O & RO).
  destruct (view _ _ E') as (r' & e' & c' & ffm' & Ir' & Ie' & MT' & IR' & X' & IC' & DI' & O' & RO').
  pose proof (reading_nameable _ _ _ _ _ _ _ Ie MT O RO) as NM. pose proof (reading_nameable _ _ _ _ _ _ _ Ie' MT' O' RO') as NM'.
  clear E E'.
  assert (AR : as_reported c ffm (i_meta v) ic).
  { destruct (reading_parts _ _ _ _ _ RO) as [_ RP].
    apply (as_reportedb_ok (d_mnemonic (i_di v))); [assumption|]. intros PR. destruct P as [P|P]; [|exact P].
    exfalso. rewrite P in *. rewrite (no_pair_rv64 _ _ _ _ _ Ir IR) in PR. discriminate. }
  assert (AR' : as_reported c' ffm' (i_meta v') ic').
  { destruct (reading_parts _ _ _ _ _ RO') as [_ RP].
    apply (as_reportedb_ok (d_mnemonic (i_di v'))); [assumption|]. intros PR. destruct P' as [P'|P']; [|exact P'].
    exfalso. rewrite P' in *. rewrite (no_pair_rv64 _ _ _ _ _ Ir' IR') in PR. discriminate. }
  clear P P'. unfold info_dasm in TX, TX'. rewrite X, IC in TX. rewrite X', IC' in TX'.
  assert (PL : S_Dasm.plain (d_mnemonic (i_di v))).
  { now apply reading_parts in RO. }
  assert (PL' : S_Dasm.plain (d_mnemonic (i_di v'))).
  { now apply reading_parts in RO'. }
  destruct (C50_reads_lemma _ _ _ _ _ _ _ PL DI AR NM) as (t1 & n1 & E1 & E2 & E3).
  destruct (C50_reads_lemma _ _ _ _ _ _ _ PL' DI' AR' NM') as (t2 & n2 & F1 & F2 & F3).
  assert (t1 = t) as -> by congruence. assert (t2 = t) as -> by congruence.
  assert (n1 = n2) as <-.
  { inversion E3 as [|w ? ws ? W1 W2 Q1]; subst. rewrite <- Q1 in F3. inversion F3 as [|? ? ? ? W3]; subst. cbn in W1, W3. congruence. }
  clear E1 F1 E3 F3. checks. unfold names_okb in H. cbv zeta in H. apply andb_true_iff in H as [ND SG].
  rewrite forallb_forall in SG.
  assert (seg_of : forall r e n c ffm m ic, In r T -> In e (rec_encs r) -> matches e ic -> enc_ok e -> In (n, c, ffm, m) (readings T r) ->
    reading_okb r (n, c, ffm, m) = true -> segmented c ffm ic = true -> In (n, mode_letters ic) (seg_names T)).
  { clear - T. intros r e n c ffm m ic Ir Ie MT O IR RO S.
    assert (SG : segmentable c ffm = true) by (unfold segmented in S; unfold segmentable; destruct (is_vmem c); [|discriminate]; destruct (slice 29 3 ffm =? 0); easy).
    unfold reading_okb in RO. repeat (apply andb_true_iff in RO as [RO ?]). rewrite SG in H1. apply andb_true_iff in H1 as [_ F].
    rewrite forallb_forall in F. specialize (F _ Ie). destruct (row_bits 26 2 e) as [k|] eqn:R; [|discriminate].
    apply in_flat_map. exists r. split; [exact Ir|]. apply in_flat_map. exists (n, c, ffm, m). split; [exact IR|]. rewrite SG.
    apply in_flat_map. exists e. split; [exact Ie|]. rewrite R. left. f_equal. symmetry. exact (mode_same _ _ _ O MT R). }
  assert (name_in : forall r q, In r T -> In q (readings T r) -> In (qname q) (map qname (flat_map (readings T) T))).
  { clear. intros r q Ir Iq. apply in_map, in_flat_map. eauto. }
  assert (MN : d_mnemonic (i_di v) = d_mnemonic (i_di v')).
  { destruct (segmented c ffm ic) eqn:S, (segmented c' ffm' ic') eqn:S'.
    - destruct (named_inv _ _ _ _ _ (proj2 (NM S)) S E2) as (d & Q & D). destruct (named_inv _ _ _ _ _ (proj2 (NM' S')) S' F2) as (d' & Q' & D').
      pose proof (seg_of _ _ _ _ _ _ _ Ir Ie MT O IR RO S) as J. pose proof (seg_of _ _ _ _ _ _ _ Ir' Ie' MT' O' IR' RO' S') as J'.
      pose proof (SG _ J) as K. pose proof (SG _ J') as K'. cbn [fst snd] in K, K'.
      apply andb_true_iff in K as [K K3], K' as [K' K3']. apply andb_true_iff in K as [K1 _], K' as [K1' _].
      rewrite forallb_forall in K3, K3'. specialize (K3 _ J'). specialize (K3' _ J). cbn [fst snd] in K3, K3'.
      rewrite (Nat.eqb_sym (mode_letters ic')) in K3'.
      destruct (Nat.eqb_spec (mode_letters ic) (mode_letters ic')) as [ML|ML].
      + rewrite <- ML in *. unfold head in Q, Q'. rewrite Q in Q'. rewrite !sapp_assoc in Q'.
        assert (L1 : (mode_letters ic <= 4)%nat) by (unfold mode_letters; destruct (slice 26 2 ic) as [|[]]; try lia; destruct p; lia).
        destruct (prefix_split (d_mnemonic (i_di v)) (mode_letters ic)) as [Y1 Y2]; [pose proof (proj2 (NM S)); lia|].
        destruct (prefix_split (d_mnemonic (i_di v')) (mode_letters ic)) as [Y1' Y2']; [pose proof (proj2 (NM' S')); lia|].
        apply sapp_split in Q' as [Z1 Z2]; [|congruence]. apply sapp_cancel in Z2.
        apply dec_split in Z2 as [_ Z2]; [|now apply numeral_decs in D|now apply numeral_decs in D'|assumption|assumption].
        rewrite Y1, Y1'. unfold tail in Z2. now rewrite Z1, Z2.
      + exfalso. pose proof (starts_app (head (mode_letters ic) (d_mnemonic (i_di v))) (String.append d (tail (mode_letters ic) (d_mnemonic (i_di v))))) as S1.
        pose proof (starts_app (head (mode_letters ic') (d_mnemonic (i_di v'))) (String.append d' (tail (mode_letters ic') (d_mnemonic (i_di v'))))) as S2.
        rewrite <- Q in S1. rewrite <- Q' in S2. destruct (starts_both _ _ _ S1 S2) as [W|W]; rewrite W in *; discriminate.
    - exfalso. destruct (named_inv _ _ _ _ _ (proj2 (NM S)) S E2) as (d & Q & D). unfold S_Dasm.named in F2. rewrite S' in F2. subst n1.
      pose proof (seg_of _ _ _ _ _ _ _ Ir Ie MT O IR RO S) as J. pose proof (SG _ J) as K. cbn [fst snd] in K.
      apply andb_true_iff in K as [K _]. apply andb_true_iff in K as [_ K]. rewrite forallb_forall in K.
      specialize (K _ (name_in _ _ Ir' IR')). cbn [qname fst] in K. rewrite Q, starts_app in K. discriminate.
    - exfalso. destruct (named_inv _ _ _ _ _ (proj2 (NM' S')) S' F2) as (d & Q & D). unfold S_Dasm.named in E2. rewrite S in E2. subst n1.
      pose proof (seg_of _ _ _ _ _ _ _ Ir' Ie' MT' O' IR' RO' S') as J. pose proof (SG _ J) as K. cbn [fst snd] in K.
      apply andb_true_iff in K as [K _]. apply andb_true_iff in K as [_ K]. rewrite forallb_forall in K.
      specialize (K _ (name_in _ _ Ir IR)). cbn [qname fst] in K. rewrite Q, starts_app in K. discriminate.
    - unfold S_Dasm.named in E2, F2. rewrite S in E2. rewrite S' in F2. congruence. }
  clear SG seg_of name_in E2 F2 n1.
  destruct (nodup_flat qname (readings T) T (nodupb_ok _ ND) _ _ _ _ Ir Ir' IR IR' MN) as [RR QQ].
  assert (c' = c) as -> by congruence. assert (ffm' = ffm) as -> by congruence. assert (MM : i_meta v' = i_meta v) by congruence.
  rewrite MM, <- MN in *. clear QQ MM.
  destruct (C50_same_text_lemma _ _ _ _ _ _ _ _ _ _ _ PL B B' DI DI' AR AR' NM NM' TX TX') as (Z1 & Z2 & _ & _).
  split; [reflexivity|].
  pose proof RO as R0. unfold reading_okb in R0. apply andb_true_iff in R0 as [R0 R1]. apply andb_true_iff in R0 as [_ R0].
  destruct (Z1 R0) as [Z3 Z4]. split; [exact Z3|]. split; [exact Z4|]. intros NV.
  destruct (shows_immediate c ffm) eqn:SI; [auto|]. clear Z1 Z2.
  pose proof (decoded_imm _ _ _ _ _ _ _ B DI) as I1. pose proof (decoded_imm _ _ _ _ _ _ _ B' DI') as I2.
  destruct c; try discriminate SI; cbn [shows_immediate] in *.
  - rewrite SI in R1. rewrite <- RR in Ie'. rewrite forallb_forall in R1. specialize (R1 _ Ie). rewrite forallb_forall in R1. specialize (R1 _ Ie').
    destruct (row_bits 20 6 e) as [k|] eqn:K; [|discriminate]. destruct (row_bits 20 6 e') as [k'|] eqn:K'; [|discriminate].
    apply N.eqb_eq in R1. pose proof (row_bits_ok _ _ _ _ _ O K MT) as Y. pose proof (row_bits_ok _ _ _ _ _ O' K' MT') as Y'.
    assert (NP : X_ISH <> X_PF_hint) by discriminate.
    pose proof (decoded_offset _ _ _ _ _ _ _ NP B DI) as J. pose proof (decoded_offset _ _ _ _ _ _ _ NP B' DI') as J'.
    cbn [imm_table imm_of offset_of imm_value fold_right seg_value] in I1, I2, J, J'. change (5 - 0 + 1) with 6 in *.
    rewrite Y in I1. rewrite Y' in I2. assert (Q : d_imm (i_di v) = d_imm (i_di v')) by congruence. split; [exact Q|]. rewrite J, J', Q. reflexivity.
  - exfalso. apply NV. destruct (String.eqb_spec (d_mnemonic (i_di v)) "vsetvli"); [left; congruence|]. apply String.eqb_eq in R1. right; left; congruence.
  - exfalso. apply NV. destruct (String.eqb_spec (d_mnemonic (i_di v)) "vsetvli"); [left; congruence|]. apply String.eqb_eq in R1. right; left; congruence.
Qed.
End Lines.

(** ** Concrete lines *)
(** The records of a table with these names. *)
Definition only (ns : list string) (T : list irec) : list irec :=
  filter (fun r => match r_mn r with Some n => mem n ns | None => false end) T.
Definition facts (recs : list irec) (ics : list N) : option (list (option (string * res string * N * list N * list N))) :=
  match make_decoder [] [] 1 [] [] recs with
  | Ok s => Some (map (fun ic => match decode (A := unit) (U := unit) s ic with
      Ok v => Some (d_mnemonic (i_di v), info_dasm v, d_imm (i_di v), map e_val (oi_elems (d_src_oi (i_di v))), map e_val (oi_elems (d_dst_oi (i_di v)))) | _ => None end) ics)
  | _ => None
  end.
Lemma facts_ok recs ics l : facts recs ics = Some l -> exists s, make_decoder [] [] 1 [] [] recs = Ok s /\
  map (fun ic => match decode (A := unit) (U := unit) s ic with
      Ok v => Some (d_mnemonic (i_di v), info_dasm v, d_imm (i_di v), map e_val (oi_elems (d_src_oi (i_di v))), map e_val (oi_elems (d_dst_oi (i_di v)))) | _ => None end) ics = l.
Proof. unfold facts. destruct (make_decoder _ _ _ _ _ _) as [s| | |] eqn:E; try discriminate. intros H. exists s. split; [reflexivity|congruence]. Qed.
Lemma fact_ok (r : res info) q : match r with
      Ok v => Some (d_mnemonic (i_di v), info_dasm v, d_imm (i_di v), map e_val (oi_elems (d_src_oi (i_di v))), map e_val (oi_elems (d_dst_oi (i_di v)))) | _ => None end = Some q ->
  exists v, r = Ok v /\ (d_mnemonic (i_di v), info_dasm v, d_imm (i_di v), map e_val (oi_elems (d_src_oi (i_di v))), map e_val (oi_elems (d_dst_oi (i_di v)))) = q.
Proof. destruct r; try discriminate. intros H. eexists. split; [reflexivity|congruence]. Qed.
Ltac one H := apply fact_ok in H as (? & ? & ?).
Definition tabbed (n a : string) : string := String.append n (String (ascii_of_nat 9) a).
Definition vset_facts := Eval vm_compute in facts (only ["vsetvli"%string] rv64) [0x00007057; 0x10007057].
Lemma C50_vset_lemma : exists recs s v v' t, subseq recs rv64 /\ make_decoder [] [] 1 [] [] recs = Ok s /\
  decode (A := unit) (U := unit) s 0x00007057 = Ok v /\ decode (A := unit) (U := unit) s 0x10007057 = Ok v' /\
  d_mnemonic (i_di v) = "vsetvli"%string /\ d_mnemonic (i_di v') = "vsetvli"%string /\
  info_dasm v = Ok t /\ info_dasm v' = Ok t /\ d_imm (i_di v) <> d_imm (i_di v').
Proof.
  assert (F : facts (only ["vsetvli"%string] rv64) [0x00007057; 0x10007057] = vset_facts) by (vm_compute; reflexivity). unfold vset_facts in F.
  apply facts_ok in F as (s & E & F). cbn [map] in F. injection F; intros F2 F1. one F1. one F2.
  exists (only ["vsetvli"%string] rv64), s, x, x0. eexists. split; [apply subseq_filter|]. split; [exact E|]. split; [assumption|]. split; [assumption|]. split; [congruence|]. split; [congruence|].
  repeat match goal with H : (_, _, _, _, _) = _ |- _ => injection H; clear H; intros end.
  split; [eassumption|]. split; [assumption|]. lia.
Qed.
Definition pair_facts := Eval vm_compute in facts (only ["ld"; "sd"]%string rv32p) [0x0002B003; 0x0002B023].
Lemma C50_pair_lemma : exists recs s v w, subseq recs rv32p /\ make_decoder [] [] 1 [] [] recs = Ok s /\
  decode (A := unit) (U := unit) s 0x0002B003 = Ok v /\ info_dasm v = Ok (tabbed "ld" "x0,x5, +0x0") /\ oi_elems (d_dst_oi (i_di v)) = [] /\
  decode (A := unit) (U := unit) s 0x0002B023 = Ok w /\ info_dasm w = Ok (tabbed "sd" "x0,x5, +0x0") /\ map e_val (oi_elems (d_src_oi (i_di w))) = [5].
Proof.
  assert (F : facts (only ["ld"; "sd"]%string rv32p) [0x0002B003; 0x0002B023] = pair_facts) by (vm_compute; reflexivity). unfold pair_facts in F.
  apply facts_ok in F as (s & E & F). cbn [map] in F. injection F; intros F2 F1. one F1. one F2.
  exists (only ["ld"; "sd"]%string rv32p), s, x, x0. repeat match goal with H : (_, _, _, _, _) = _ |- _ => injection H; clear H; intros end.
  split; [apply subseq_filter|]. split; [exact E|]. split; [assumption|]. split; [assumption|]. split; [destruct (oi_elems _); [reflexivity|discriminate]|].
  split; [assumption|]. split; assumption.
Qed.
Definition ex_facts := Eval vm_compute in facts (only ["addi"; "vsetvli"; "vluxei8.v"; "sd"]%string rv64) [0xFFF50513; 0x0d107057; 0x24000007; 0xFEA53C23].
Lemma C50_ex_lemma : exists recs s v1 v2 v3 v4, subseq recs rv64 /\ make_decoder [] [] 1 [] [] recs = Ok s /\
  decode (A := unit) (U := unit) s 0xFFF50513 = Ok v1 /\ info_dasm v1 = Ok (tabbed "addi" "x10,x10, +0xffffffffffffffff") /\
  decode (A := unit) (U := unit) s 0x0d107057 = Ok v2 /\ info_dasm v2 = Ok (tabbed "vsetvli" "x0,x0, e32,m2,ta,ma") /\
  decode (A := unit) (U := unit) s 0x24000007 = Ok v3 /\ info_dasm v3 = Ok (tabbed "vluxseg2ei8.v" "v0,x0,v0,v0.t") /\
  decode (A := unit) (U := unit) s 0xFEA53C23 = Ok v4 /\ info_dasm v4 = Ok (tabbed "sd" "x10,x10, +0xfffffffffffffff8").
Proof.
  assert (F : facts (only ["addi"; "vsetvli"; "vluxei8.v"; "sd"]%string rv64) [0xFFF50513; 0x0d107057; 0x24000007; 0xFEA53C23] = ex_facts) by (vm_compute; reflexivity). unfold ex_facts in F.
  apply facts_ok in F as (s & E & F). cbn [map] in F. injection F; intros F4 F3 F2 F1. one F1. one F2. one F3. one F4.
  exists (only ["addi"; "vsetvli"; "vluxei8.v"; "sd"]%string rv64), s, x, x0, x1, x2. repeat match goal with H : (_, _, _, _, _) = _ |- _ => injection H; clear H; intros end.
  split; [apply subseq_filter|]. split; [exact E|]. repeat (split; [assumption|]). assumption.
Qed.
