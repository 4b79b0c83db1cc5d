(** Bit lemmas. *)
From Coq Require Import NArith ZArith List Bool Lia ZifyBool ZifyN String.
From Verif Require Import M_Base M_Field S_Bits.
Import ListNotations.
Local Open Scope N_scope.

Lemma w64_eq : w64 = 2 ^ 64. Proof. reflexivity. Qed.
Lemma w32_eq : w32 = 2 ^ 32. Proof. reflexivity. Qed.

Lemma u64_land x : u64 x = N.land x (N.ones 64).
Proof. unfold u64. rewrite w64_eq, N.land_ones. reflexivity. Qed.
Lemma u64_id x : x < 2 ^ 64 -> u64 x = x.
Proof. intros. unfold u64. rewrite w64_eq. apply N.mod_small; auto. Qed.
Lemma u32_id x : x < 2 ^ 32 -> u32 x = x.
Proof. intros. unfold u32. rewrite w32_eq. apply N.mod_small; auto. Qed.
Lemma u64_lt x : u64 x < 2 ^ 64.
Proof. unfold u64. rewrite w64_eq. apply N.mod_lt. discriminate. Qed.

Lemma ones_testbit n i : N.testbit (N.ones n) i = (i <? n).
Proof.
  destruct (N.ltb_spec i n).
  - apply N.ones_spec_low; auto.
  - apply N.ones_spec_high; auto.
Qed.
Lemma u64_testbit x i : N.testbit (u64 x) i = (i <? 64) && N.testbit x i.
Proof. rewrite u64_land, N.land_spec, ones_testbit. apply andb_comm. Qed.

Lemma shl_testbit x n i : N.testbit (N.shiftl x n) i = (n <=? i) && N.testbit x (i - n).
Proof.
  destruct (N.leb_spec n i).
  - rewrite N.shiftl_spec_high'; auto.
  - rewrite N.shiftl_spec_low; auto.
Qed.
Lemma shl64_testbit x n i :
  N.testbit (shl64 x n) i = (i <? 64) && (n <=? i) && N.testbit x (i - n).
Proof. unfold shl64. rewrite u64_testbit, shl_testbit. now rewrite andb_assoc. Qed.
Lemma not64_testbit x i : N.testbit (not64 x) i = xorb (N.testbit x i) (i <? 64).
Proof. unfold not64. now rewrite N.lxor_spec, ones_testbit. Qed.
Lemma high_testbit x n i : x < 2 ^ n -> n <= i -> N.testbit x i = false.
Proof.
  intros. destruct (N.eq_dec x 0) as [->|]. { apply N.bits_0. }
  apply N.bits_above_log2. apply N.log2_lt_pow2 in H; lia.
Qed.
Lemma lt_pow2_bits x n : (forall i, n <= i -> N.testbit x i = false) -> x < 2 ^ n.
Proof.
  intros. destruct (N.eq_dec x 0) as [->|]. { apply N.neq_0_lt_0, N.pow_nonzero; discriminate. }
  apply N.log2_lt_pow2; [lia|].
  destruct (N.lt_ge_cases (N.log2 x) n); auto.
  apply H in H0. rewrite N.bit_log2 in H0; [discriminate|auto].
Qed.
Lemma andnot64_testbit x m i : x < 2 ^ 64 ->
  N.testbit (andnot64 x m) i = N.testbit x i && negb (N.testbit m i).
Proof.
  intros. unfold andnot64. rewrite N.land_spec, not64_testbit.
  destruct (N.ltb_spec i 64).
  - now rewrite xorb_true_r.
  - rewrite (high_testbit x 64); auto.
Qed.
Lemma andnot64_testbit' x m i :
  N.testbit (andnot64 x m) i = N.testbit x i && (if i <? 64 then negb (N.testbit m i) else N.testbit m i).
Proof.
  unfold andnot64. rewrite N.land_spec, not64_testbit.
  destruct (i <? 64); [now rewrite xorb_true_r|now rewrite xorb_false_r].
Qed.

Lemma bit1_testbit n i : n < 64 -> N.testbit (shl64 1 n) i = (i =? n).
Proof.
  intros. rewrite shl64_testbit.
  destruct (N.eqb_spec i n) as [->|].
  - rewrite N.sub_diag. replace (n <? 64) with true by lia. now rewrite N.leb_refl.
  - destruct (n <=? i) eqn:E; [|now rewrite andb_false_r].
    rewrite (N.bits_above_log2 1); [now rewrite andb_false_r|]. cbn. lia.
Qed.
Lemma bit1_pow n : n < 64 -> shl64 1 n = 2 ^ n.
Proof. intros. unfold shl64. rewrite N.shiftl_1_l. apply u64_id. now apply N.pow_lt_mono_r. Qed.

Lemma mask_len n : 0 < n <= 64 -> N.shiftr (N.ones 64) (64 - n) = N.ones n.
Proof.
  intros. apply N.bits_inj. intros i. rewrite N.shiftr_spec', !ones_testbit. lia.
Qed.

(** Fields. *)
Definition fok (f : field) : Prop := 0 < f_len f < 32 /\ f_rpos f < 64.
Lemma field_ctor_ok n r l f : field_ctor n r l = Ok f <-> (f = mkF n r l /\ fok f).
Proof.
  unfold field_ctor, fok. split.
  - destruct (_ || _ || _) eqn:E; [discriminate|]. intros [= <-]. cbn. split; [auto|lia].
  - intros [-> H]. cbn in H. destruct (_ || _ || _) eqn:E; [lia|auto].
Qed.
Lemma f_mask_ones f : fok f -> f_mask f = N.ones (f_len f).
Proof. unfold f_mask, fok. intros. apply mask_len. lia. Qed.
Lemma f_extract_testbit f ic i : fok f ->
  N.testbit (f_extract f ic) i = (i <? f_len f) && N.testbit ic (f_rpos f + i).
Proof.
  intros. unfold f_extract. rewrite f_mask_ones by auto.
  rewrite N.land_spec, N.shiftr_spec', ones_testbit, (N.add_comm i). apply andb_comm.
Qed.
Lemma f_extract_slice f ic : fok f -> f_extract f ic = slice (f_rpos f) (f_len f) ic.
Proof.
  intros. unfold f_extract, slice. rewrite f_mask_ones by auto.
  now rewrite N.land_ones, N.shiftr_div_pow2.
Qed.
Lemma f_extract_lt f ic : fok f -> f_extract f ic < 2 ^ f_len f.
Proof. intros. rewrite f_extract_slice by auto. apply N.mod_lt, N.pow_nonzero. discriminate. Qed.
Lemma f_smask_testbit f i : fok f ->
  N.testbit (f_smask f) i = (i <? 64) && (f_rpos f <=? i) && (i <? f_rpos f + f_len f).
Proof.
  intros. unfold f_smask. rewrite shl64_testbit, f_mask_ones, ones_testbit by auto. lia.
Qed.

Lemma slice_testbit lo len w i :
  N.testbit (slice lo len w) i = (i <? len) && N.testbit w (lo + i).
Proof.
  unfold slice. rewrite <- N.land_ones, <- N.shiftr_div_pow2, N.land_spec, N.shiftr_spec', ones_testbit.
  rewrite (N.add_comm i). apply andb_comm.
Qed.
Lemma put_testbit lo len v w i :
  N.testbit (put lo len v w) i =
    if (lo <=? i) && (i <? lo + len) then N.testbit v (i - lo) else N.testbit w i.
Proof.
  unfold put.
  assert (P : forall n, 2 ^ n <> 0) by (intros; apply N.pow_nonzero; discriminate).
  assert (E1 : w mod 2 ^ lo + 2 ^ lo * (v mod 2 ^ len) =
               N.lor (w mod 2 ^ lo) (N.shiftl (v mod 2 ^ len) lo)).
  { rewrite N.shiftl_mul_pow2, (N.mul_comm (2^lo)).
    rewrite N.add_nocarry_lxor, N.lxor_lor; auto.
    all: apply N.bits_inj; intros j; rewrite N.land_spec, N.bits_0;
      rewrite <- N.shiftl_mul_pow2, <- !N.land_ones, shl_testbit, N.land_spec, ones_testbit;
      destruct (j <? lo) eqn:E; cbn; rewrite ?andb_false_r; auto;
      replace (lo <=? j) with false by lia; now rewrite andb_false_r. }
  assert (B : w mod 2 ^ lo + 2 ^ lo * (v mod 2 ^ len) < 2 ^ (lo + len)).
  { rewrite E1. apply lt_pow2_bits. intros j Hj.
    rewrite N.lor_spec, shl_testbit, <- !N.land_ones, !N.land_spec, !ones_testbit.
    replace (j <? lo) with false by lia. replace (j - lo <? len) with false by lia.
    now rewrite !andb_false_r. }
  assert (E2 : forall a b, a < 2 ^ (lo + len) ->
     a + 2 ^ (lo + len) * b = N.lor a (N.shiftl b (lo + len))).
  { intros a b Ha. rewrite N.shiftl_mul_pow2, (N.mul_comm (2^(lo+len))).
    rewrite N.add_nocarry_lxor, N.lxor_lor; auto.
    all: apply N.bits_inj; intros j; rewrite N.land_spec, N.bits_0;
      rewrite <- N.shiftl_mul_pow2, shl_testbit;
      destruct (lo + len <=? j) eqn:E; cbn; rewrite ?andb_false_r; auto;
      rewrite (high_testbit a (lo + len)) by (auto; lia); auto. }
  rewrite E2, E1 by auto.
  rewrite !N.lor_spec, !shl_testbit, <- !N.land_ones, !N.land_spec, !ones_testbit.
  rewrite <- N.shiftr_div_pow2, N.shiftr_spec'.
  destruct (lo <=? i) eqn:A; cbn [andb].
  - replace (i <? lo) with false by lia. rewrite andb_false_r. cbn [orb].
    destruct (i <? lo + len) eqn:C.
    + replace (i - lo <? len) with true by lia. replace (lo + len <=? i) with false by lia.
      now rewrite andb_true_r, orb_false_r.
    + replace (i - lo <? len) with false by lia. replace (lo + len <=? i) with true by lia.
      rewrite andb_false_r. cbn. f_equal. lia.
  - replace (i <? lo) with true by lia. replace (lo + len <=? i) with false by lia.
    now rewrite andb_true_r, !orb_false_r.
Qed.

Lemma land_zero_testbit a b : N.land a b = 0 <-> forall i, N.testbit a i && N.testbit b i = false.
Proof.
  split.
  - intros H i. rewrite <- N.land_spec, H. apply N.bits_0.
  - intros H. apply N.bits_inj. intros i. now rewrite N.land_spec, H, N.bits_0.
Qed.
Lemma land_bit1_zero n w : n < 64 -> (N.land (shl64 1 n) w =? 0) = negb (N.testbit w n).
Proof.
  intros. destruct (N.testbit w n) eqn:E; cbn.
  - apply N.eqb_neq. rewrite land_zero_testbit. intros C. specialize (C n).
    rewrite bit1_testbit, N.eqb_refl, E in C by auto. discriminate.
  - apply N.eqb_eq. rewrite land_zero_testbit. intros i. rewrite bit1_testbit by auto.
    destruct (N.eqb_spec i n); [subst; now rewrite E|auto].
Qed.
Lemma land_zero_comm a b : (N.land a b =? 0) = (N.land b a =? 0).
Proof. now rewrite N.land_comm. Qed.

(** Sign extension. *)
Lemma sign_extend_ok v pos : pos < 63 -> v < 2 ^ (pos + 1) ->
  sign_extend v pos = Ok (if v <? 2 ^ pos then Z.of_N v else (Z.of_N v - 2 ^ (Z.of_N pos + 1))%Z).
Proof.
  intros Hp Hv. unfold sign_extend.
  replace (pos <? 64) with true by lia. cbn [negb].
  set (s := 64 - pos - 1).
  assert (Hs : pos + 1 + s = 64) by (unfold s; lia).
  assert (Pp : 2 ^ (pos + 1) * 2 ^ s = 2 ^ 64) by (rewrite <- N.pow_add_r, Hs; reflexivity).
  assert (Pq : 2 ^ pos * 2 ^ s = 2 ^ 63).
  { rewrite <- N.pow_add_r. f_equal. lia. }
  assert (S0 : 2 ^ s <> 0) by (apply N.pow_nonzero; discriminate).
  assert (Hsh : N.shiftl v s = v * 2 ^ s) by apply N.shiftl_mul_pow2.
  assert (A1 : v * 2 ^ s < 2 ^ 64) by (rewrite <- Pp; nia).
  assert (A2 : v < 2 ^ 63).
  { eapply N.lt_le_trans; [exact Hv|]. apply N.pow_le_mono_r; lia. }
  replace (9223372036854775808 <=? v) with false by (change (2^63) with 9223372036854775808 in A2; lia).
  rewrite Hsh, w64_eq. replace (2 ^ 64 <=? v * 2 ^ s) with false by lia. cbn [orb].
  f_equal. rewrite Z.shiftr_div_pow2 by lia. unfold to_i64.
  change 9223372036854775808 with (2 ^ 63).
  assert (Z2 : Z.of_N (2 ^ s) = (2 ^ Z.of_N s)%Z) by (now rewrite N2Z.inj_pow).
  assert (ZS : (2 ^ Z.of_N s <> 0)%Z) by lia.
  destruct (N.ltb_spec v (2 ^ pos)).
  - replace (v * 2 ^ s <? 2 ^ 63) with true by (rewrite <- Pq; nia).
    rewrite N2Z.inj_mul, Z2. apply Z.div_mul; auto.
  - replace (v * 2 ^ s <? 2 ^ 63) with false by (rewrite <- Pq; nia).
    rewrite N2Z.inj_mul, Z2.
    change 18446744073709551616%Z with (2 ^ 64)%Z.
    replace (2 ^ 64)%Z with (2 ^ (Z.of_N pos + 1) * 2 ^ Z.of_N s)%Z.
    + rewrite <- Z.mul_sub_distr_r. apply Z.div_mul; auto.
    + rewrite <- Z.pow_add_r by lia. f_equal. lia.
Qed.
Lemma sign_extend_twos v pos : pos < 63 -> v < 2 ^ (pos + 1) ->
  exists z, sign_extend v pos = Ok z /\ twos_complement (pos + 1) v z.
Proof.
  intros Hp Hv. eexists. split; [apply sign_extend_ok; auto|].
  unfold twos_complement.
  replace (Z.of_N (pos + 1) - 1)%Z with (Z.of_N pos) by lia.
  assert (Z2 : Z.of_N (2 ^ pos) = (2 ^ Z.of_N pos)%Z) by (now rewrite N2Z.inj_pow).
  assert (Z3 : (2 ^ (Z.of_N pos + 1) = 2 * 2 ^ Z.of_N pos)%Z) by (rewrite Z.pow_add_r, Z.pow_1_r by lia; lia).
  assert (Z4 : Z.of_N (2 ^ (pos + 1)) = (2 ^ (Z.of_N pos + 1))%Z) by (rewrite N2Z.inj_pow; f_equal; lia).
  replace (Z.of_N (pos + 1)) with (Z.of_N pos + 1)%Z by lia.
  destruct (N.ltb_spec v (2 ^ pos)); split; try lia.
  replace (Z.of_N v - 2 ^ (Z.of_N pos + 1))%Z with (Z.of_N v + (-1) * 2 ^ (Z.of_N pos + 1))%Z by lia.
  apply Z.mod_add. lia.
Qed.
Lemma twos_unique b v z1 z2 : 0 < b -> twos_complement b v z1 -> twos_complement b v z2 -> z1 = z2.
Proof.
  unfold twos_complement. intros Hb [R1 M1] [R2 M2].
  assert (P : (2 ^ Z.of_N b = 2 * 2 ^ (Z.of_N b - 1))%Z).
  { rewrite <- Z.pow_succ_r by lia. f_equal. lia. }
  assert (P0 : (0 < 2 ^ (Z.of_N b - 1))%Z) by (apply Z.pow_pos_nonneg; lia).
  rewrite <- M2 in M1.
  assert (H : ((z1 - z2) mod 2 ^ Z.of_N b = 0)%Z).
  { rewrite Zminus_mod, M1, Z.sub_diag. apply Z.mod_0_l. lia. }
  apply Z.mod_divide in H; [|lia]. destruct H as [k Hk]. rewrite P in *. set (p := (2 ^ (Z.of_N b - 1))%Z) in *. clearbody p. assert (k = 0)%Z by nia. nia.
Qed.
Lemma C23_lemma v pos : pos < 63 -> v < 2 ^ (pos + 1) ->
  exists z, sign_extend v pos = Ok z /\ twos_complement (pos + 1) v z /\
            (forall z', twos_complement (pos + 1) v z' -> z' = z).
Proof.
  intros Hp Hv. destruct (sign_extend_twos v pos Hp Hv) as (z & E & T).
  exists z. split; [auto|]. split; [auto|]. intros z' T'. eapply twos_unique; eauto. lia.
Qed.
Lemma C23_outside v pos : pos < 63 -> 2 ^ (pos + 1) <= v -> sign_extend v pos = UB.
Proof.
  intros Hp Hv. unfold sign_extend. replace (pos <? 64) with true by lia. cbn [negb].
  set (s := 64 - pos - 1).
  assert (Pp : 2 ^ (pos + 1) * 2 ^ s = 2 ^ 64).
  { rewrite <- N.pow_add_r. f_equal. unfold s; lia. }
  assert (2 ^ s <> 0) by (apply N.pow_nonzero; discriminate).
  rewrite N.shiftl_mul_pow2, w64_eq.
  replace (2 ^ 64 <=? v * 2 ^ s) with true by (rewrite <- Pp; nia). now rewrite orb_true_r.
Qed.
