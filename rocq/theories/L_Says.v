(** Lemmas: a decoded instruction says what its record says (C68). *)
From Coq Require Import NArith List Bool String Lia.
From Verif Require Import M_Base M_Meta M_OperandInfo M_Extract M_Decoded M_Builder M_DTable.
From Verif Require Import S_Bits S_Pairs S_Slots S_Regs S_Meta S_Trie S_Table S_Widths S_Says L_Meta L_IsaClause L_NameTables L_Decode L_Claims L_Dasm L_Widths.
Import ListNotations.
Local Open Scope N_scope.

Lemma binds {S T} (r : res S) (f : S -> res T) v : rbind r f = Ok v -> exists a, r = Ok a /\ f a = Ok v.
Proof. destruct r; cbn; try discriminate. eauto. Qed.
Lemma covers_iff d k f : covers d k f <-> clause_lists (jm_oper (r_meta d) k) f.
Proof.
  unfold covers, clause_lists. destruct (jm_oper (r_meta d) k) as [[|l]|]; try reflexivity.
  split; intros (n & I & Q); exists n; (split; [exact I|]); apply field_names_lemma; exact Q.
Qed.
Lemma lists_dec c f : clause_lists c f \/ ~ clause_lists c f.
Proof.
  destruct c as [[|l]|]; cbn; auto. induction l as [|n l IH]; [right; intros (n & [] & _)|].
  destruct IH as [(n' & I & Q)|N]; [left; exists n'; split; [now right|exact Q]|].
  destruct (ofid_eqb (get_fid n) (Some f)) eqn:E.
  - left. exists n. split; [now left|]. destruct (get_fid n) as [g|]; [|discriminate]. cbn in E. f_equal. unfold fid_eqb in E. destruct g, f; try discriminate E; reflexivity.
  - right. intros (n' & [<-|I] & Q); [|apply N; eauto]. rewrite Q in E. cbn in E. unfold fid_eqb in E. destruct f; discriminate E.
Qed.
(** The last clause counts. *)
Lemma opers_last j m m' f : parse_opers j m = Ok m' -> mt_otype m f = None ->
  match mt_otype m' f with
  | Some k => clause_lists (j k) f /\ forall k', clause_lists (j k') f -> rank k' <= rank k
  | None => forall k, ~ clause_lists (j k) f
  end.
Proof.
  intros H Z. unfold parse_opers in H.
  apply binds in H as (m1 & E1 & H). apply binds in H as (m2 & E2 & H). apply binds in H as (m3 & E3 & H). apply binds in H as (m4 & E4 & H). apply binds in H as (m5 & E5 & H).
  pose proof (parse_oper_spec _ _ _ _ E1) as (_ & B1 & C1 & _). pose proof (parse_oper_spec _ _ _ _ E2) as (_ & B2 & C2 & _).
  pose proof (parse_oper_spec _ _ _ _ E3) as (_ & B3 & C3 & _). pose proof (parse_oper_spec _ _ _ _ E4) as (_ & B4 & C4 & _).
  pose proof (parse_oper_spec _ _ _ _ E5) as (_ & B5 & C5 & _). pose proof (parse_oper_spec _ _ _ _ H) as (_ & B6 & C6 & _).
  destruct (lists_dec (j KVector) f) as [X6|X6]; [destruct (B6 f X6) as [-> _]; split; [exact X6|intros [] ?; cbn; lia]|]. rewrite (C6 f X6).
  destruct (lists_dec (j KQuad) f) as [X5|X5]; [destruct (B5 f X5) as [-> _]; split; [exact X5|intros [] ?; cbn; (lia || contradiction)]|]. rewrite (C5 f X5).
  destruct (lists_dec (j KDouble) f) as [X4|X4]; [destruct (B4 f X4) as [-> _]; split; [exact X4|intros [] ?; cbn; (lia || contradiction)]|]. rewrite (C4 f X4).
  destruct (lists_dec (j KSingle) f) as [X3|X3]; [destruct (B3 f X3) as [-> _]; split; [exact X3|intros [] ?; cbn; (lia || contradiction)]|]. rewrite (C3 f X3).
  destruct (lists_dec (j KLong) f) as [X2|X2]; [destruct (B2 f X2) as [-> _]; split; [exact X2|intros [] ?; cbn; (lia || contradiction)]|]. rewrite (C2 f X2).
  destruct (lists_dec (j KWord) f) as [X1|X1]; [destruct (B1 f X1) as [-> _]; split; [exact X1|intros [] ?; cbn; (lia || contradiction)]|]. rewrite (C1 f X1).
  rewrite Z. intros []; assumption.
Qed.
Lemma type_otype c m m' : parse_type c m = Ok m' -> mt_otype m' = mt_otype m.
Proof. unfold parse_type. destruct c; [|congruence]. intros H. apply binds in H as (? & _ & H). injection H as <-. reflexivity. Qed.
Lemma data_otype c m m' : parse_data c m = Ok m' -> mt_otype m' = mt_otype m.
Proof. unfold parse_data. destruct c; [|congruence]. destruct (data_size_bad n); [discriminate|]. intros [= <-]. reflexivity. Qed.
Lemma isa_otype l : forall m m', parse_isa l m = Ok m' -> mt_otype m' = mt_otype m.
Proof.
  induction l as [|[w x] l IH]; intros m m'; cbn [parse_isa]; [congruence|]. destruct (find _ _) as [[? i]|]; [|discriminate].
  intros H. apply binds in H as (m2 & E & H). apply IH in H. rewrite H. clear H IH. destruct w as [n|]; [|injection E as <-; reflexivity].
  destruct (_ || _)%bool; [discriminate|]. unfold set_isa_width in E. apply binds in E as (? & _ & E). injection E as <-. reflexivity.
Qed.
Lemma make_otype j c t m f : make_meta j c t = Ok m ->
  match mt_otype m f with
  | Some k => clause_lists (j.(jm_oper) k) f /\ forall k', clause_lists (j.(jm_oper) k') f -> rank k' <= rank k
  | None => forall k, ~ clause_lists (j.(jm_oper) k) f
  end.
Proof.
  unfold make_meta. intros H. apply binds in H as (m1 & E1 & H). apply binds in H as (m2 & E2 & H). apply binds in H as (m3 & E3 & H).
  rewrite (isa_otype _ _ _ H). apply (opers_last _ _ _ f E3). rewrite (data_otype _ _ _ E2), (type_otype _ _ _ E1). reflexivity.
Qed.

(** ** The meta-data of a record *)
Definition like (d : irec) (m : meta) : Prop :=
  (forall i, has (mt_types m) i <-> of_type d i) /\ mt_data m = size_in d 0 /\
  (forall letter i, isa_number letter = Some i ->
    (is_isa m (2 ^ i) = true <-> exists w, In (w, letter) (jm_isa (r_meta d))) /\
    forall k, is_isa_width m i (2 ^ k) = true <-> In (Some (2 ^ k), letter) (jm_isa (r_meta d))) /\
  mt_tags m = r_tags d /\ forall f, typed_as d f (mt_otype m f).
Lemma own_like d m : own_meta d = Ok m -> like d m.
Proof.
  intros H. unfold own_meta in H. apply binds in H as (m0 & E & H).
  assert (S : mt_types m = mt_types m0 /\ mt_data m = mt_data m0 /\ mt_isa m = mt_isa m0 /\ mt_isaw m = mt_isaw m0 /\ mt_tags m = mt_tags m0 /\ mt_otype m = mt_otype m0).
  { destruct (r_fixed d); injection H as <-; repeat split. }
  clear H. destruct S as (S1 & S2 & S3 & S4 & S5 & S6). pose proof (record_reported_lemma _ _ _ _ E) as (R1 & R2 & _ & R4 & _).
  unfold like. rewrite S1, S2, S5, S6. split; [|split; [exact R2|split; [|split; [exact R4|]]]].
  - intros i. rewrite R1. unfold of_type. split; [intros (n & (ts & Q1 & Q2) & Q3); eauto 6|intros (ts & n & Q1 & Q2 & Q3); eauto 6].
  - intros letter i L. destruct (isa_clause_lemma _ _ _ _ _ _ E L) as (I1 & I2 & _).
    unfold is_isa_width, is_isa in *. rewrite S3, S4. split; [exact I1|exact I2].
  - intros f. pose proof (make_otype _ _ _ _ f E) as T. unfold typed_as. destruct (mt_otype m0 f) as [k|].
    + rewrite covers_iff. split; [apply T|]. intros k'. rewrite covers_iff. apply T.
    + intros k. rewrite covers_iff. apply T.
Qed.
Lemma built_own mn m : built_in mn m -> own_meta (built_rec mn) = Ok m.
Proof. intros [[-> ->]|[-> ->]]; reflexivity. Qed.
Lemma type_bit m i : is_inst_type m (2 ^ i) = true <-> has (mt_types m) i.
Proof.
  rewrite C30_is. unfold all_in, has. split.
  - intros H. apply H. apply N.pow2_bits_true.
  - intros H j Q. rewrite N.pow2_bits_eqb in Q. apply N.eqb_eq in Q. now subst j.
Qed.

(** ** Operands *)
Lemma own_slots c : ~ In c borrowing -> forall c', c' = c \/ c' = clone_cls c ->
  is_pair c' = false /\ forall s, In s (src_slots c' ++ dst_slots c') -> sl_ty s = TField (sl_fid s).
Proof.
  intros N c' H.
  assert (Q : forallb (fun c' => negb (is_pair c') && forallb (fun s => match sl_ty s with TField f => fid_eqb f (sl_fid s) | TKind _ => false end) (src_slots c' ++ dst_slots c')) [c; clone_cls c] = true).
  { destruct c; try reflexivity; exfalso; apply N; cbn; tauto. }
  cbn [forallb] in Q. rewrite !andb_true_iff, !forallb_forall in Q. destruct Q as (Q1 & Q2 & _).
  assert (K : negb (is_pair c') = true /\ forall s, In s (src_slots c' ++ dst_slots c') -> match sl_ty s with TField f => fid_eqb f (sl_fid s) | TKind _ => false end = true) by (destruct H as [-> | ->]; assumption).
  destruct K as [K1 K2]. split; [now destruct (is_pair c')|]. intros s I. specialize (K2 s I). destruct (sl_ty s) as [f|]; [|discriminate].
  f_equal. unfold fid_eqb in K2. destruct f, (sl_fid s); try discriminate K2; reflexivity.
Qed.
Lemma own_typed c ffm mt n u ic d p e : is_pair c = false -> (forall s, In s (src_slots c ++ dst_slots c) -> sl_ty s = TField (sl_fid s)) ->
  decode_info n u (ext c ffm) mt ic = Ok d -> In e (operands_at p d) -> exists f, e_fid e = Some f /\ e_type e = mt_otype mt f.
Proof.
  intros P S D I. assert (PK : pair_ok c ffm) by (intros Q; congruence). apply orb_false_iff in P as [P1 P2].
  assert (K : forall ss, incl ss (src_slots c ++ dst_slots c) -> In e (slot_elems mt ss ffm ic) -> exists f, e_fid e = Some f /\ e_type e = mt_otype mt f).
  { intros ss SS Q. unfold slot_elems, live in Q. apply in_map_iff in Q as (s & <- & Q). apply filter_In in Q as [Q _].
    exists (sl_fid s). split; [reflexivity|]. cbn [slot_elem e_type]. unfold slot_otype. now rewrite (S s (SS s Q)). }
  unfold operands_at in I. destruct p.
  - rewrite (dst_list _ _ _ _ _ _ _ PK D), P1 in I. apply (K _ (incl_appr _ (incl_refl _)) I).
  - rewrite (src_list _ _ _ _ _ _ _ PK D), P2 in I. apply (K _ (incl_appl _ (incl_refl _)) I).
Qed.
Lemma extractor_format r e x c : extractor_of r e x -> rec_class r = Ok c -> exists c' ffm, (c' = c \/ c' = clone_cls c) /\ x = ext c' ffm.
Proof. intros (c0 & R & Q) C. assert (c0 = c) as -> by congruence. destruct Q as [[_ ->]|(_ & mask & _ & ->)]; eauto. Qed.
Lemma dsize_ok n u x m ic d : decode_info n u x m ic = Ok d -> d_dsize d = mt_data m.
Proof.
  unfold decode_info. intros H. repeat (apply binds in H as (? & _ & H)). 
  match type of H with Ok ?v = Ok d => assert (d = v) as -> by congruence end. reflexivity.
Qed.

Lemma says_lemma uids annos nu incl0 excl0 recs s : 0 < nu < w32 -> make_decoder uids annos nu incl0 excl0 recs = Ok s -> well_formed (kept incl0 excl0 recs) ->
  forall A U ic v, decode (A := A) (U := U) s ic = Ok v ->
  exists r e d o, listed (kept incl0 excl0 recs) r e /\ selected (encodings (kept incl0 excl0 recs)) e ic /\ says d r o v /\
    match o with
    | None => d_mnemonic (i_di v) = en_mn e /\ described_by (kept incl0 excl0 recs) r d
    | Some ro => d = r /\ In ro (kept incl0 excl0 recs) /\ exists mask, overlays ro (d_mnemonic (i_di v)) (en_mn e) mask (N.land ic mask)
    end.
Proof.
  intros HN HD WF A U ic v Q. destruct (C42_lemma uids annos nu incl0 excl0 recs s HN HD WF (A := A) (U := U) ic v Q) as (r & e & y & L & S & RD & _ & M & MN & DI).
  set (K := kept incl0 excl0 recs) in *. exists r, e.
  destruct RD as [[(B1 & B2 & B3) _]|(ro & mask & I1 & (O1 & (m0 & O2 & O3) & (x0 & O4 & O5)) & _)].
  - assert (D : exists d m0, described_by K r d /\ own_meta d = Ok m0 /\ mt_data (rd_meta y) = mt_data m0 /\ mt_isa (rd_meta y) = mt_isa m0 /\ mt_isaw (rd_meta y) = mt_isaw m0 /\
      mt_tags (rd_meta y) = mt_tags m0 /\ mt_otype (rd_meta y) = mt_otype m0 /\
      forall i, has (mt_types (rd_meta y)) i <-> of_type d i \/ of_type r i).
    { destruct B2 as [[B2 B4]|(B2 & m0 & m1 & B4 & B5 & B6)].
      - exists r, (rd_meta y). split; [unfold described_by; now rewrite B2|]. split; [exact B4|]. repeat (split; [reflexivity|]).
        intros i. destruct (own_like _ _ B4) as [T _]. rewrite T. tauto.
      - assert (X : exists d, own_meta d = Ok m0 /\ ((In d K /\ is_inst d (r_expand r)) \/ (untouched K (r_expand r) /\ d = built_rec (r_expand r)))).
        { destruct B4 as [(d & X1 & X2 & X3)|[X1 X2]]; [exists d; auto|]. exists (built_rec (r_expand r)). split; [now apply built_own|auto]. }
        destruct X as (d & X1 & X2). exists d, m0. split; [unfold described_by; apply String.eqb_neq in B2; now rewrite B2|]. split; [exact X1|].
        rewrite B6. cbn [meta_merge mt_data mt_isa mt_isaw mt_tags mt_otype mt_types]. repeat (split; [reflexivity|]).
        intros i. destruct (own_like _ _ X1) as [T0 _]. destruct (own_like _ _ B5) as [T1 _]. unfold has in *. rewrite N.lor_spec, orb_true_iff, T0, T1. reflexivity. }
    destruct D as (d & m0 & DB & OM & E1 & E2 & E3 & E4 & E5 & E6). destruct (own_like _ _ OM) as (_ & L2 & L3 & L4 & L5).
    exists d, None. split; [exact L|]. split; [exact S|]. split; [|rewrite MN; auto]. split.
    + intros i. rewrite M, type_bit, E6. split; [intros [X|X]; auto|intros [X|[X|(ro & X & _)]]; auto; discriminate].
    + rewrite M, E1. exact L2.
    + rewrite M. eapply dsize_ok; eauto.
    + intros letter i LI. rewrite M. destruct (L3 letter i LI) as [J1 J2]. unfold is_isa_width, is_isa in *. rewrite E2, E3. auto.
    + intros t. rewrite M, E4, L4. split; [auto|intros [X|(ro & X & _)]; [exact X|discriminate]].
    + cbn [format_of]. intros c F NB p el I. destruct (extractor_format _ _ _ _ B3 F) as (c' & ffm & C & X). rewrite X in DI.
      destruct (own_slots c NB c' C) as [P SL]. destruct (own_typed _ _ _ _ _ _ _ _ _ P SL DI I) as (f & F1 & F2). exists f. split; [exact F1|]. rewrite F2, E5. apply L5.
  - pose proof (overrides_lemma _ _ _ _ O3) as (V1 & V2 & V3 & _ & V5 & V6 & _ & V8 & _). destruct (own_like _ _ O2) as (L1 & L2 & L3 & L4 & L5).
    exists r, (Some ro). split; [exact L|]. split; [exact S|]. split; [|rewrite MN; eauto]. split.
    + intros i. rewrite M, type_bit, V1, L1. split.
      * intros [X|(n & (ts & X1 & X2) & X3)]; [auto|]. right. right. exists ro. split; [reflexivity|]. exists ts, n. auto.
      * intros [X|[X|(ro' & X & (ts & n & X1 & X2 & X3))]]; auto. injection X as <-. right. exists n. split; [exists ts; auto|exact X3].
    + rewrite M, V2, L2. reflexivity.
    + rewrite M. eapply dsize_ok; eauto.
    + intros letter i LI. rewrite M. destruct (L3 letter i LI) as [J1 J2]. unfold is_isa_width, is_isa in *. rewrite V5, V6. auto.
    + intros t. rewrite M, V3, L4, in_app_iff. split; [intros [X|X]; [auto|right; exists ro; auto]|intros [X|(ro' & X & Y)]; [auto|right; congruence]].
    + intros c F NB p el I. assert (X : exists c' ffm, (c' = c \/ c' = clone_cls c) /\ rd_x y = ext c' ffm).
      { cbn [format_of] in F. unfold overlay_extractor in O5. destruct (r_xform ro) as [n|].
        - destruct O5 as (c0 & G & ->). assert (c0 = c) as -> by congruence. eauto.
        - rewrite O5. eapply extractor_format; eauto. }
      destruct X as (c' & ffm & C & X). rewrite X in DI. destruct (own_slots c NB c' C) as [P SL].
      destruct (own_typed _ _ _ _ _ _ _ _ _ P SL DI I) as (f & F1 & F2). exists f. split; [exact F1|]. rewrite F2, V8. apply L5.
Qed.
