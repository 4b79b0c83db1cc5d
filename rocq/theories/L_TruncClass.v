(** An extractor reads no bit beyond the end of its instructions (C70). *)
From Coq Require Import NArith ZArith List Bool String Lia.
From Verif Require Import M_Base M_Field M_Forms M_Meta M_OperandInfo M_Extract M_Decoded S_Bits L_Bits S_Slots L_Slots S_Trunc.
Import ListNotations.
Local Open Scope N_scope.

Definition agree_to (n ic ic' : N) : Prop := forall i, i < n -> N.testbit ic i = N.testbit ic' i.

Lemma extract_agree n ic ic' f : agree_to n ic ic' -> (f_rpos f + f_len f <=? n) && (f_len f <=? 64) = true ->
  f_extract f ic = f_extract f ic'.
Proof.
  intros H Q. apply andb_true_iff in Q as [Q Q']. apply N.leb_le in Q. apply N.leb_le in Q'.
  unfold f_extract, f_mask. apply N.bits_inj. intros i. rewrite !N.land_spec, !N.shiftr_spec'.
  destruct (N.lt_ge_cases i (f_len f)) as [L|L]; [rewrite (H (i + f_rpos f)) by lia; reflexivity|].
  rewrite N.ones_spec_high by lia. now rewrite !andb_false_r.
Qed.
Lemma andnot_agree n ic ic' m : agree_to n ic ic' -> agree_to n (andnot64 ic m) (andnot64 ic' m).
Proof. intros H i L. unfold andnot64. now rewrite !N.land_spec, (H i L). Qed.

Definition width (c : xcls) : N := if compact c then 16 else 32.

Ltac xswap H := repeat match goal with
  | |- context [f_extract ?F ?a] =>
      match type of H with agree_to ?n a ?b => rewrite (extract_agree n a b F H eq_refl) end
  | |- context [f_extract ?F (andnot64 ?a ?m)] =>
      match type of H with agree_to ?n a ?b => rewrite (extract_agree n _ _ F (andnot_agree n a b m H) eq_refl) end
  end.
Ltac xopen1 := lazy [odd_field imm_C0_byte imm_C0_half imm_C0_32 imm_C0_word imm_C0_double imm_C2_6
  dst_has_x0 spec_of soff spec_base clear_x0 creg find fst snd].
Ltac xopen := xunf; xopen1; xunf; xopen1; xunf.
Ltac go c H := destruct c; cbn [width compact] in H; xopen; xswap H; reflexivity.

Section Pair.
Context (c : xcls) (ffm ic ic' : N) (H : agree_to (width c) ic ic').
Lemma t_illop : x_illop (ext c ffm) ic = x_illop (ext c ffm) ic'.
Proof. go c H. Qed.
Lemma t_hint : x_hint (ext c ffm) ic = x_hint (ext c ffm) ic'.
Proof. go c H. Qed.
Lemma t_src : x_src (ext c ffm) ic = x_src (ext c ffm) ic'.
Proof. go c H. Qed.
Lemma t_addr : x_addr (ext c ffm) ic = x_addr (ext c ffm) ic'.
Proof. go c H. Qed.
Lemma t_data : x_data (ext c ffm) ic = x_data (ext c ffm) ic'.
Proof. go c H. Qed.
Lemma t_dst : x_dst (ext c ffm) ic = x_dst (ext c ffm) ic'.
Proof. go c H. Qed.
Lemma t_imm : x_imm (ext c ffm) ic = x_imm (ext c ffm) ic'.
Proof. go c H. Qed.
Lemma t_soff : x_soff (ext c ffm) ic = x_soff (ext c ffm) ic'.
Proof. go c H. Qed.
Lemma t_spec f : x_spec (ext c ffm) f ic = x_spec (ext c ffm) f ic'.
Proof. destruct f; go c H. Qed.
Lemma t_srcT m k : x_srcT (ext c ffm) ic m k = x_srcT (ext c ffm) ic' m k.
Proof. go c H. Qed.
Lemma t_dstT m k : x_dstT (ext c ffm) ic m k = x_dstT (ext c ffm) ic' m k.
Proof. go c H. Qed.
Lemma t_srcI m b : x_srcI (ext c ffm) ic m b = x_srcI (ext c ffm) ic' m b.
Proof. go c H. Qed.
Lemma t_dstI m b : x_dstI (ext c ffm) ic m b = x_dstI (ext c ffm) ic' m b.
Proof. go c H. Qed.
End Pair.


Lemma t_dasm c ffm ic ic' (H : agree_to (width c) ic ic') mn m : x_dasm (ext c ffm) mn ic m = x_dasm (ext c ffm) mn ic' m.
Proof.
  pose proof (t_imm c ffm ic ic' H) as HI. pose proof (t_soff c ffm ic ic' H) as HS. pose proof (t_spec c ffm ic ic' H) as HF.
  pose proof (t_spec c ffm _ _ (andnot_agree _ _ _ ffm H)) as HG.
  change (dasm (tie (xcls_body c ffm)) c ffm mn ic m = dasm (tie (xcls_body c ffm)) c ffm mn ic' m).
  change (x_imm (tie (xcls_body c ffm)) ic = x_imm (tie (xcls_body c ffm)) ic') in HI.
  change (x_soff (tie (xcls_body c ffm)) ic = x_soff (tie (xcls_body c ffm)) ic') in HS.
  change (forall f, x_spec (tie (xcls_body c ffm)) f ic = x_spec (tie (xcls_body c ffm)) f ic') in HF.
  change (forall f, x_spec (tie (xcls_body c ffm)) f (andnot64 ic ffm) = x_spec (tie (xcls_body c ffm)) f (andnot64 ic' ffm)) in HG.
  generalize dependent (tie (xcls_body c ffm)). intros x HI HS HF HG.
  destruct c; cbn [width compact] in H; unfold dasm; rewrite ?HI, ?HS, ?HF, ?HG; lazy [reg_list vmem_name vm_text creg];
    xswap H; reflexivity.
Qed.
