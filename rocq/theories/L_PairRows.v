(** Claim C49: the register pairs of RV32. *)
From Coq Require Import NArith ZArith List Bool String Lia.
From Verif Require Import M_Base M_Field M_Forms M_Meta M_OperandInfo M_Extract M_Decoded M_Trie M_Builder M_DTable M_Raw.
From Verif Require Import S_Bits L_Bits S_Slots S_Imm S_Pairs S_Regs S_Agree S_Table S_Shipped S_Manual S_Manual32 S_PairRows.
From Verif Require Import L_Trie L_Check L_Decode L_Decoded L_Readable L_Pairs L_Dasm L_Claims L_Shipped L_Manual L_ManualClaims.
Import ListNotations.
Local Open Scope N_scope.

Definition first_place (c : xcls) : place :=
  match c with
  | X_I_load_pair | X_C2_sp_load_word_pair => At5 7
  | X_C0_load_word_pair | X_C0_store_word_pair => At3 2
  | X_S_pair => At5 20
  | X_C2_sp_store_word_pair => At5 2
  | _ => Reg 0
  end.
Lemma first_place_ok c ic : pair_first c ic = place_val (first_place c) ic.
Proof. destruct c; cbn; auto; lia. Qed.
Definition base_place (c : xcls) : place :=
  match c with X_S_pair => At5 15 | X_C0_store_word_pair => At3 7 | _ => Reg 2 end.
Lemma base_place_ok c ic : pair_base c ic = place_val (base_place c) ic.
Proof. destruct c; cbn; auto; lia. Qed.
Definition place_eqb (a b : place) : bool :=
  match a, b with At5 x, At5 y | At3 x, At3 y | Reg x, Reg y => x =? y | _, _ => false end.
Lemma place_eqb_eq a b : place_eqb a b = true -> a = b.
Proof. destruct a, b; cbn; try discriminate; intros H; apply N.eqb_eq in H; congruence. Qed.

Definition marks (c : xcls) : bool := match c with X_S_pair => false | _ => true end.
Definition pair_okb (p : pair_inst) (c : xcls) (ffm : N) (mt : meta) : bool :=
  pair_free c ffm && place_eqb (first_place c) (pi_first p) && imm_okb (0, 0) ffm (imm_table c) (pi_imm p) &&
  (if pi_load p then is_pair_load c && negb (is_pair_store c) && bank_eqb (option_map bank_of (mt_otype mt RD)) BX &&
     opers_okb (0, 0) mt (live ffm (src_slots c)) [reg BX (pi_base p)]
   else is_pair_store c && negb (is_pair_load c) && place_eqb (base_place c) (pi_base p) && Bool.eqb (marks c) (negb (String.eqb (pi_name p) "sd")) &&
     bank_eqb (option_map bank_of (mt_otype mt RS1)) BX && bank_eqb (option_map bank_of (mt_otype mt RS2)) BX &&
     match live ffm (dst_slots c) with [] => true | _ => false end).
Lemma agree_nonempty mask T : assert_agree_all [] mask T = Ok tt -> mask = 0.
Proof.
  unfold assert_agree_all, assert_agree. destruct mask as [|q]; [reflexivity|]. cbn. discriminate.
Qed.
Lemma decode_agrees n u x m ic d : decode_info n u x m ic = Ok d -> ic <> 0 ->
  assert_agree_all (oi_elems (d_src_oi d)) (d_sources d) (d_srcT d) = Ok tt.
Proof.
  unfold decode_info. intros H NZ. apply N.eqb_neq in NZ. rewrite NZ in H.
  repeat match type of H with
  | (let* _ := ?e in _) = Ok _ => let E := fresh "E" in destruct e eqn:E; cbn [rbind] in H; try discriminate H
  end.
  injection H as <-. cbn. destruct (assert_agree_all (oi_elems a) a1 a3) as [[]| | |]; [reflexivity|discriminate..].
Qed.
Lemma sdsp_nonzero c ffm m ic n u d : is_pair_store c = true -> c <> X_S_pair -> pair_free c ffm = true -> ic <> 0 ->
  decode_info n u (ext c ffm) m ic = Ok d -> pair_first c ic <> 0.
Proof.
  intros P Q F NZ D Z. pose proof (decode_agrees _ _ _ _ _ _ D NZ) as AG.
  assert (PK : pair_ok c ffm) by (intros _; exact F). rewrite (src_list _ _ _ _ _ _ _ PK D), P in AG.
  apply decode_inv in D as (_ & _ & _ & _ & S & _). rewrite (proj2 (proj2 (pair_data_addr c ffm ic P F))) in S. injection S as S.
  unfold pair_srcs in AG. rewrite Z in AG. destruct c; try discriminate P; try congruence.
  - cbn [pair_first] in Z. lia.
  - cbn [N.eqb] in AG. apply agree_nonempty in AG. rewrite <- S, Z in AG. cbn [pair_base] in AG. vm_compute in AG. discriminate AG.
Qed.
Lemma pair_row_ok p c ffm mt n u ic d : pair_okb p c ffm mt = true -> ic < 2 ^ 64 -> ic <> 0 -> decode_info n u (ext c ffm) mt ic = Ok d ->
  pair_reports (negb (String.eqb (pi_name p) "sd")) p ic d.
Proof.
  unfold pair_okb, pair_reports. cbv zeta. intros H B NZ D. apply andb_true_iff in H as [H H4]. apply andb_true_iff in H as [H H3]. apply andb_true_iff in H as [F H2].
  apply place_eqb_eq in H2. assert (PK : pair_ok c ffm) by (intros _; exact F).
  assert (PF : c <> X_PF_hint) by (intros ->; discriminate F).
  assert (E0 : N.land ic (fst (0, 0)) = snd (0, 0)) by apply N.land_0_r.
  pose proof (imm_ok _ _ _ _ _ _ _ H3 E0 (decoded_imm _ _ _ _ _ _ _ B D) (decoded_offset _ _ _ _ _ _ _ PF B D)) as IM.
  rewrite (src_list _ _ _ _ _ _ _ PK D), (dst_list _ _ _ _ _ _ _ PK D). rewrite <- H2, <- first_place_ok.
  destruct (pi_load p).
  - repeat (apply andb_true_iff in H4 as [H4 ?]). apply negb_true_iff in H1. rewrite H4, H1. split; [|split; [|exact IM]].
    + apply bank_eqb_ok in H0. unfold pair_dests, pair_shown. destruct (pair_first c ic =? 0); [reflexivity|]. cbn [map]; unfold shown; cbn [e_type e_val e_sdata e_implied]. now rewrite H0.
    + unfold slot_elems. rewrite (opers_ok _ _ _ _ _ H E0). reflexivity.
  - repeat (apply andb_true_iff in H4 as [H4 ?]). apply negb_true_iff in H7. rewrite H4, H7. apply place_eqb_eq in H6. rewrite <- H6, <- base_place_ok.
    apply bank_eqb_ok in H0, H1. apply eqb_prop in H5. rewrite <- H5. split; [|split; [|exact IM]].
    + unfold slot_elems. destruct (live ffm (dst_slots c)); [reflexivity|discriminate].
    + unfold pair_srcs, pair_data, pair_shown.
      destruct c; try discriminate H4; cbn [marks].
      * destruct (_ =? 0); cbn [map]; unfold shown; cbn [e_type e_val e_sdata e_implied]; now rewrite ?H0, ?H1.
      * destruct (_ =? 0); cbn [map]; unfold shown; cbn [e_type e_val e_sdata e_implied]; now rewrite ?H0, ?H1.
      * pose proof (sdsp_nonzero _ _ _ _ _ _ _ H4 ltac:(discriminate) F NZ D) as Q. apply N.eqb_neq in Q. rewrite Q.
        cbn [map]; unfold shown; cbn [e_type e_val e_sdata e_implied]; now rewrite ?H0, ?H1.
Qed.
(** Every reading of a table. *)
Definition pairs_okb (l : list pair_inst) (names : list string) (recs : list irec) : bool :=
  forallb (fun r => forallb (fun e => match fx_mask e with Some _ => true | None => false end) (rec_encs r) &&
    forallb (fun q => let '(n, c, ffm, mt) := q in
      if mem n names then forallb (fun p => if String.eqb (pi_name p) n then pair_okb p c ffm mt else true) l else true) (readings recs r)) recs.
Lemma decoded_reading recs recs' u ic v : forallb (fun r => forallb (fun e => match fx_mask e with Some _ => true | None => false end) (rec_encs r)) recs = true ->
  (forall r, In r recs' -> In r recs) -> decodes recs' u ic (Ok v) ->
  exists r c ffm mt u', In r recs /\ In (d_mnemonic (i_di v), c, ffm, mt) (readings recs r) /\ decode_info (d_mnemonic (i_di v)) u' (ext c ffm) mt ic = Ok (i_di v).
Proof.
  intros OK SI D. destruct (decodes_reads _ _ _ _ D) as (r & e & y & L & MT & S & R & EN & DI).
  rewrite forallb_forall in OK. pose proof (OK r (SI _ (proj1 L))) as H1. rewrite forallb_forall in H1. destruct L as [Hr He]. specialize (H1 e He).
  assert (fx_mask e <> None) as FX by (destruct (fx_mask e); discriminate).
  enough (exists c ffm, rd_x y = ext c ffm /\ In (rd_mn y, c, ffm, rd_meta y) (readings recs r)) as (c & ffm & C1 & C2).
  { exists r, c, ffm, (rd_meta y). rewrite EN, <- C1. eauto. }
  clear H1. destruct (listed_mn _ _ He) as (HI & _). apply instb_ok in HI. unfold readings. rewrite HI.
  destruct R as [((D1 & D2 & D3) & _)|(ro & mask & D1 & (D2 & (m0 & D3 & D3') & x & D4 & D5) & _)].
  - destruct (exts_in _ _ _ He FX D3) as (c & C1 & C2). exists (fst c), (snd c). split; [exact C2|]. apply in_or_app. left.
    apply in_flat_map. exists (rd_meta y). split; [eapply L_Shipped.metas_sub; eauto|]. apply in_map_iff. rewrite D1. eauto.
  - assert (exists c, In c (overlay_exts r ro) /\ rd_x y = ext (fst c) (snd c)) as (c & C1 & C2).
    { unfold overlay_extractor in D5. unfold overlay_exts. destruct (r_xform ro) as [n|].
      - destruct D5 as (c & D5 & D6). rewrite D5. exists (c, 0). split; [now left|exact D6].
      - rewrite D5. eapply exts_in; eauto. }
    exists (fst c), (snd c). split; [exact C2|]. apply in_or_app. right.
    apply in_flat_map. exists ro. split; [auto|]. rewrite (ovb_ok _ _ _ _ _ D2). destruct D2 as (D2 & _). rewrite D2, String.eqb_refl.
    apply in_flat_map. exists (rd_meta y). split; [|apply in_map_iff; eauto].
    unfold overlay_metas. rewrite D3, D3'. now left.
Qed.
Lemma pairs_sound l names recs recs' u ic v p : pairs_okb l names recs = true -> (forall r, In r recs' -> In r recs) -> ic < 2 ^ 64 -> ic <> 0 ->
  decodes recs' u ic (Ok v) -> In (d_mnemonic (i_di v)) names -> In p l -> pi_name p = d_mnemonic (i_di v) ->
  pair_reports (negb (String.eqb (pi_name p) "sd")) p ic (i_di v).
Proof.
  unfold pairs_okb. intros OK SI B NZ D IN IP EP.
  assert (OK' : forallb (fun r => forallb (fun e => match fx_mask e with Some _ => true | None => false end) (rec_encs r)) recs = true).
  { rewrite forallb_forall in OK |- *. intros r Hr. specialize (OK r Hr). now apply andb_true_iff in OK as [OK _]. }
  destruct (decoded_reading _ _ _ _ _ OK' SI D) as (r & c & ffm & mt & u' & IR & RD & DI).
  rewrite forallb_forall in OK. specialize (OK r IR). apply andb_true_iff in OK as [_ OK]. rewrite forallb_forall in OK. specialize (OK _ RD). cbv beta iota in OK.
  apply mem_in in IN. rewrite IN in OK. rewrite forallb_forall in OK. specialize (OK p IP). cbv beta in OK. rewrite EP, String.eqb_refl in OK.
  exact (pair_row_ok _ _ _ _ _ _ _ _ OK B NZ DI).
Qed.
Lemma pairs_book T B : book_of T B -> pairs_okb pair_manual (bk_pairs B) T = true.
Proof. intros []; vm_compute; reflexivity. Qed.
Definition nonzero_rows (T : list irec) (B : book) : bool :=
  forallb (fun m => if mem (mi_name m) (bk_pairs B) then negb (mem (mi_name m) (bk_patterns B)) && negb (N.land 0 (fst (pat_mv (mi_pat m))) =? snd (pat_mv (mi_pat m))) else true) (bk_rows B) &&
  forallb (fun n => negb (mem n (bk_patterns B))) (bk_pairs B) &&
  forallb (fun r => forallb (fun e => match fx_mask e with Some _ => true | None => false end) (rec_encs r)) T &&
  forallb (fun r => forallb (fun q => let '(n, _, _, _) := q in if mem n (bk_pairs B) then existsb (fun m => String.eqb (mi_name m) n) (bk_rows B) else true) (readings T r)) T.
Lemma nonzero_book T B : book_of T B -> nonzero_rows T B = true.
Proof. intros []; vm_compute; reflexivity. Qed.
Lemma C49_pairs_lemma T B recs uids annos nu incl excl s : book_of T B -> subseq recs T -> 0 < nu < w32 -> make_decoder uids annos nu incl excl recs = Ok s ->
  forall A U ic v, ic < 2 ^ 64 -> decode (A := A) (U := U) s ic = Ok v -> In (d_mnemonic (i_di v)) (bk_pairs B) ->
  exists p, In p pair_manual /\ pi_name p = d_mnemonic (i_di v) /\ pair_reports (negb (String.eqb (pi_name p) "sd")) p ic (i_di v).
Proof.
  intros BO SB HN HD A U ic v B64 E IN. pose proof (nonzero_book T B BO) as NB. apply andb_true_iff in NB as [NB N4]. apply andb_true_iff in NB as [NB N5]. apply andb_true_iff in NB as [N1 N2]. rewrite forallb_forall in N1, N2, N4.
  pose proof (N2 _ IN) as N3. apply negb_true_iff in N3.
  assert (NO : ~ In (d_mnemonic (i_di v)) (bk_patterns B)) by (intros Q; apply mem_in in Q; congruence).
  pose proof (C38_decodes_lemma T recs uids annos nu incl excl s (book_shipped T B BO) SB HN HD A U ic) as D. rewrite E in D.
  assert (NZ : ic <> 0).
  { destruct (C49_instruction_lemma T B BO recs uids annos nu incl excl s SB HN HD A U ic v E NO) as [(m & NM & (I & F & _))|[NI _]].
    - specialize (N1 m I). rewrite NM in N1. rewrite (proj2 (mem_in _ _) IN) in N1. apply andb_true_iff in N1 as [_ N1]. intros ->. apply pat_fits in F. rewrite F, N.eqb_refl in N1. discriminate N1.
    - exfalso. apply NI. destruct (decoded_reading _ _ _ _ _ N5 (subseq_in _ _ (kept_sub incl excl recs T SB)) D) as (r & c & ffm & mt & u' & IR & RD & _).
      specialize (N4 r IR). rewrite forallb_forall in N4. specialize (N4 _ RD). cbv beta iota in N4. rewrite (proj2 (mem_in _ _) IN) in N4. apply existsb_exists in N4 as (m & I & Q). apply String.eqb_eq in Q. exists m. auto. }
  assert (X : exists p, In p pair_manual /\ pi_name p = d_mnemonic (i_di v)).
  { assert (Y : forallb (fun n => existsb (fun p => String.eqb (pi_name p) n) pair_manual) (bk_pairs B) = true) by (clear - BO; destruct BO; vm_compute; reflexivity).
    rewrite forallb_forall in Y. specialize (Y _ IN). apply existsb_exists in Y as (p & I & Q). apply String.eqb_eq in Q. eauto. }
  destruct X as (p & IP & NP). exists p. split; [exact IP|]. split; [exact NP|].
  exact (pairs_sound _ _ T (kept incl excl recs) _ _ _ p (pairs_book T B BO) (subseq_in _ _ (kept_sub incl excl recs T SB)) B64 NZ D IN IP NP).
Qed.
