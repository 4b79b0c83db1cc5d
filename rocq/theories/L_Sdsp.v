(** Lemmas: the shipped tables never fail an assertion but for c.sdsp of x0 (C38, C49). *)
From Coq Require Import NArith List Bool String Lia.
From Verif Require Import M_Base M_Field M_Forms M_Meta M_OperandInfo M_Extract M_Decoded M_Trie M_Builder M_DTable M_Raw.
From Verif Require Import S_Bits L_Bits S_Trie S_Agree S_Table S_Shipped S_Sdsp L_Trie L_Check L_Decode L_Readable L_Total L_Claims L_Shipped L_Manual.
Import ListNotations.
Local Open Scope N_scope.

Definition sdsp_okb (T : list irec) : bool :=
  rows_okb T &&
  forallb (fun r => forallb (fun e => match fx_mask e with Some _ => true | None => false end) (rec_encs r) &&
    forallb (fun q => let '(n, c, ffm, mt) := q in if always c ffm mt then true else String.eqb n "c.sdsp") (readings T r)) T &&
  forallb (fun o => if String.eqb (o_n o) "c.sdsp" then coversb (o_mk o) 0 2 && (slice 0 2 (o_v o) =? 2) && coversb (o_mk o) 13 3 && (slice 13 3 (o_v o) =? 7) else true) (rows T).
Lemma low_seven ic : slice 2 5 ic = 0 -> slice 0 2 ic = 2 -> slice 0 7 ic = 2.
Proof.
  intros H1 H2. apply N.bits_inj. intros i.
  destruct (N.ltb_spec i 2) as [L|L].
  - apply (f_equal (fun x => N.testbit x i)) in H2. rewrite slice_testbit in H2 |- *. replace (i <? 2) with true in H2 by lia. replace (i <? 7) with true by lia. exact H2.
  - apply (f_equal (fun x => N.testbit x (i - 2))) in H1. rewrite slice_testbit in H1 |- *. rewrite N.bits_0 in H1.
    replace (2 + (i - 2)) with (0 + i) in H1 by lia.
    assert (N.testbit 2 i = false) as ->.
    { apply N.bits_above_log2. change (N.log2 2) with 1. lia. }
    destruct (N.ltb_spec i 7); [|now rewrite andb_false_l]. replace (i - 2 <? 5) with true in H1 by lia. exact H1.
Qed.
Lemma sdsp_readable T K ic : sdsp_okb T = true -> (forall r, In r K -> In r T) -> (slice 2 5 ic <> 0 -> readable K ic) -> ~ sdsp_x0 ic -> readable K ic.
Proof.
  unfold sdsp_okb. intros H SI NZ NS. destruct (N.eq_dec (slice 2 5 ic) 0) as [Z|Z]; [clear NZ|exact (NZ Z)].
  apply andb_true_iff in H as [H RW]. apply andb_true_iff in H as [OK H]. rewrite forallb_forall in H, RW.
  intros r e y L S R. specialize (H r (SI _ (proj1 L))). apply andb_true_iff in H as [H1 H2]. rewrite forallb_forall in H1, H2.
  assert (MT : matches e ic) by apply S.
  destruct (reads_row _ _ _ _ _ _ OK SI L MT R) as (o & I & RA). specialize (RW _ I). destruct RA as (RA & _ & RM & _).
  destruct L as [Hr He]. specialize (H1 e He). assert (fx_mask e <> None) as FX by (destruct (fx_mask e); discriminate).
  assert (exists c ffm, rd_x y = ext c ffm /\ In (rd_mn y, c, ffm, rd_meta y) (readings T r)) as (c & ffm & C1 & C2).
  { clear - R He Hr FX SI. destruct (listed_mn _ _ He) as (HI & _). apply instb_ok in HI. unfold readings. rewrite HI.
    destruct R as [((D1 & D2 & D3) & _)|(ro & mask & D1 & (D2 & (m0 & D3 & D3') & x & D4 & D5) & _)].
    - destruct (exts_in _ _ _ He FX D3) as (c & C1 & C2). exists (fst c), (snd c). split; [exact C2|]. apply in_or_app. left.
      apply in_flat_map. exists (rd_meta y). split; [eapply L_Shipped.metas_sub; eauto|]. apply in_map_iff. rewrite D1. eauto.
    - assert (exists c, In c (overlay_exts r ro) /\ rd_x y = ext (fst c) (snd c)) as (c & C1 & C2).
      { unfold overlay_extractor in D5. unfold overlay_exts. destruct (r_xform ro) as [n|].
        - destruct D5 as (c & D5 & D6). rewrite D5. exists (c, 0). split; [now left|exact D6].
        - rewrite D5. eapply exts_in; eauto. }
      exists (fst c), (snd c). split; [exact C2|]. apply in_or_app. right.
      apply in_flat_map. exists ro. split; [auto|]. rewrite (ovb_ok _ _ _ _ _ D2). destruct D2 as (D2 & _). rewrite D2, String.eqb_refl.
      apply in_flat_map. exists (rd_meta y). split; [|apply in_map_iff; eauto].
      unfold overlay_metas. rewrite D3, D3'. now left. }
  exists c, ffm. split; [exact C1|]. specialize (H2 _ C2). cbv beta iota in H2.
  destruct (always c ffm (rd_meta y)) eqn:AL; [now apply always_ok|]. exfalso. rewrite RA, H2 in RW.
  repeat (apply andb_true_iff in RW as [RW ?]). apply NS. split.
  - apply low_seven; [exact Z|]. rewrite (covers_ok _ _ _ _ _ RW RM). now apply N.eqb_eq.
  - rewrite (covers_ok (o_mk o) (o_v o) 13 3 ic); auto. now apply N.eqb_eq.
Qed.
Lemma rv32p_sdsp : sdsp_okb rv32p = true.
Proof. vm_compute. reflexivity. Qed.
Lemma total_lemma T recs uids annos nu incl excl s : shipped T -> subseq recs T -> 0 < nu < w32 ->
  make_decoder uids annos nu incl excl recs = Ok s ->
  forall A U ic, ic < 2 ^ 64 -> (T = rv32p -> ~ sdsp_x0 ic) ->
  match decode (A := A) (U := U) s ic with
  | Ok v => lists_agree (oi_elems (d_src_oi (i_di v))) (d_sources (i_di v)) (d_srcT (i_di v)) /\
            lists_agree (oi_elems (d_dst_oi (i_di v))) (d_dests (i_di v)) (d_dstT (i_di v))
  | Throw e => e = EUnknownOpcode \/ e = EIllegalOpcode
  | AssertFail | UB => False
  end.
Proof.
  intros H S HN HD A U ic LT HP. refine (total _ _ _ _ _ _ _ HN HD (shipped_kept_wf incl excl recs T H S) ic LT _).
  destruct H.
  - apply (shipped_readable rv64 recs incl excl ic sh_rv64 S). intros Q. apply (f_equal (@List.length _)) in Q. vm_compute in Q. discriminate Q.
  - apply (shipped_readable rv32f recs incl excl ic sh_rv32f S). intros Q. apply (f_equal (fun l => match rev l with r :: _ => r_mn r | _ => None end)) in Q. vm_compute in Q. discriminate Q.
  - apply (sdsp_readable rv32p _ ic rv32p_sdsp (subseq_in _ _ (kept_sub incl excl recs _ S))); [|exact (HP eq_refl)].
    intros Z. exact (shipped_readable rv32p recs incl excl ic sh_rv32p S (fun _ => Z)).
Qed.
