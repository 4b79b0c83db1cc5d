(** isIllop of every extractor class. *)
From Coq Require Import NArith ZArith List Bool Lia.
From Verif Require Import M_Base M_Field M_Forms M_Meta M_OperandInfo M_Extract.
From Verif Require Import S_Bits L_Bits S_Slots S_Imm S_Pairs S_Reserved L_Slots L_Imm L_Pairs.
Import ListNotations.
Local Open Scope N_scope.

Lemma slice_odd lo len w : 0 < len -> N.odd (slice lo len w) = N.testbit w lo.
Proof. intros H. rewrite <- N.bit0_odd, slice_testbit. replace (0 <? len) with true by lia. now rewrite N.add_0_r. Qed.
Lemma has_x0 v : (N.land (2 ^ v) (shl64 1 REGISTER_X0) =? 0) = negb (v =? 0).
Proof.
  change (shl64 1 REGISTER_X0) with (2 ^ 0). destruct (N.eqb_spec v 0) as [->|H]; [reflexivity|].
  replace (N.land (2 ^ v) (2 ^ 0)) with 0; [reflexivity|]. symmetry. apply land_zero_testbit. intros i. rewrite !N.pow2_bits_eqb.
  destruct (v =? i) eqn:E1, (0 =? i) eqn:E2; auto. lia.
Qed.
Ltac x0case := cbn [reserved_when]; unfold is_x0; xunf; lazy [dst_has_x0]; xunf; fslice;
  destruct (slice 7 5 _ =? 0); cbn [negb]; [rewrite ?N.lor_0_l, ?N.lor_0_r, has_x0; now destruct (slice 7 5 _ =? 0)|reflexivity].
Lemma illop_lemma c ffm ic : ic < 2 ^ 64 -> x_illop (ext c ffm) ic = Ok (reserved_when c ffm ic).
Proof.
  intros B. destruct (is_pair_load c || is_pair_store c) eqn:P.
  - rewrite pair_illop by exact P. f_equal. destruct c; try discriminate P; cbn [pair_first reserved_when];
      rewrite ?N.odd_add; change (N.odd 8) with false; rewrite ?xorb_false_r; apply slice_odd; lia.
  - destruct c; try discriminate P; clear P; try (xunf; reflexivity); try solve [x0case].
    + cbn [reserved_when]. unfold no_ci_imm. xunf. fslice. reflexivity.
    + cbn [reserved_when]. rewrite <- andnot64_ldiff by exact B. xunf. fslice. reflexivity.
    + cbn [reserved_when]. transitivity (let* i := x_imm (ext X_CI_rD_shifted ffm) ic in Ok (i =? 0)); [reflexivity|].
      rewrite imm_lemma by exact B. cbn [rbind imm_of imm_table]. f_equal.
      unfold no_ci_imm, imm_value, seg_value. cbn [fold_right]. change (17 - 17 + 1) with 1. change (16 - 12 + 1) with 5.
      rewrite N.lor_0_r. apply eq_true_iff_eq. rewrite andb_true_iff, !N.eqb_eq, N.lor_eq_0_iff, !N.eq_mul_0.
      assert (2 ^ 17 <> 0 /\ 2 ^ 12 <> 0) by (split; discriminate). tauto.
Qed.
