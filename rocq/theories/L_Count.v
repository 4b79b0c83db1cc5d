(** Population count and bit-index lists. *)
From Coq Require Import NArith ZArith List Bool Lia ZifyBool ZifyN Sorted.
From Verif Require Import M_Base M_Field M_Meta M_OperandInfo M_Extract M_Decoded S_Bits L_Bits.
Import ListNotations.
Local Open Scope N_scope.
Ltac Zify.zify_post_hook ::= Z.div_mod_to_equations.

Lemma ones_from_ext n from w w' :
  (forall i, from <= i < from + N.of_nat n -> N.testbit w i = N.testbit w' i) ->
  ones_from n from w = ones_from n from w'.
Proof.
  revert from. induction n as [|n IH]; intros from H; cbn [ones_from]; auto.
  rewrite (H from) by lia. f_equal. apply IH. intros. apply H. lia.
Qed.
Lemma ones_from_shift n from k w :
  length (ones_from n (from + k) w) = length (ones_from n from (N.shiftr w k)).
Proof.
  revert from. induction n as [|n IH]; intros from; cbn [ones_from]; auto.
  rewrite !app_length. rewrite N.shiftr_spec'.
  replace (from + k + 1) with (from + 1 + k) by lia. rewrite IH.
  destruct (N.testbit w (from + k)); auto.
Qed.
Lemma ones_from_app a b from w :
  ones_from (a + b) from w = ones_from a from w ++ ones_from b (from + N.of_nat a) w.
Proof.
  revert from. induction a as [|a IH]; intros from.
  - cbn [ones_from plus app N.of_nat]. now rewrite N.add_0_r.
  - cbn [ones_from plus]. rewrite IH, app_assoc. do 2 f_equal. lia.
Qed.
Definition cnt (k : nat) (w : N) : N := N.of_nat (length (ones_from k 0 w)).
Lemma lane_testbit x y i : x < 256 ->
  N.testbit (x + 256 * y) i = if i <? 8 then N.testbit x i else N.testbit y (i - 8).
Proof.
  intros. pose proof (put_testbit 0 8 x (256 * y) i) as P. unfold put in P.
  change (2 ^ 0) with 1 in P. change (2 ^ (0 + 8)) with 256 in P. change (2 ^ 8) with 256 in P.
  rewrite N.mod_1_r, (N.mod_small x) in P by auto.
  replace (256 * y / 256) with y in P by lia.
  replace (0 + 1 * x + 256 * y) with (x + 256 * y) in P by lia. rewrite P.
  replace ((0 <=? i) && (i <? 0 + 8)) with (i <? 8) by lia.
  rewrite N.sub_0_r. destruct (i <? 8) eqn:E; auto.
  rewrite (N.mul_comm 256). change 256 with (2 ^ 8).
  rewrite <- N.shiftl_mul_pow2, shl_testbit. replace (8 <=? i) with true by lia. reflexivity.
Qed.
Lemma cnt_lane k x y : x < 256 -> cnt (8 + k) (x + 256 * y) = cnt 8 x + cnt k y.
Proof.
  intros H. unfold cnt. rewrite ones_from_app, app_length, Nat2N.inj_add. f_equal.
  - do 2 f_equal. apply ones_from_ext. intros i Hi. rewrite lane_testbit by auto.
    replace (i <? 8) with true by lia. auto.
  - f_equal. rewrite ones_from_shift. f_equal. apply ones_from_ext. intros i Hi.
    rewrite N.shiftr_spec', lane_testbit by auto. change (N.of_nat 8) with 8.
    replace (i + 8 <? 8) with false by lia. f_equal. lia.
Qed.

Lemma land_lane x y a b : x < 256 -> a < 256 ->
  N.land (x + 256 * y) (a + 256 * b) = N.land x a + 256 * N.land y b.
Proof.
  intros Hx Ha. assert (N.land x a < 256).
  { change 256 with (2^8). apply lt_pow2_bits. intros i Hi. rewrite N.land_spec.
    now rewrite (high_testbit x 8). }
  apply N.bits_inj. intros i. rewrite N.land_spec, !lane_testbit by auto.
  destruct (i <? 8); now rewrite N.land_spec.
Qed.
Lemma land_le a b : N.land a b <= a.
Proof.
  pose proof (N.lor_ldiff_and a b). rewrite N.lor_comm in H.
  assert (N.land a b + N.ldiff a b = a).
  { rewrite N.add_nocarry_lxor.
    - rewrite N.lxor_lor.
      + auto.
      + apply N.bits_inj; intros i. rewrite !N.land_spec, N.ldiff_spec, N.bits_0.
        destruct (N.testbit a i), (N.testbit b i); auto.
    - apply N.bits_inj; intros i. rewrite !N.land_spec, N.ldiff_spec, N.bits_0.
        destruct (N.testbit a i), (N.testbit b i); auto. }
  lia.
Qed.
Lemma land_le_r a b : N.land a b <= b.
Proof. rewrite N.land_comm. apply land_le. Qed.

Definition s1 (x M : N) : N := x - N.land (N.shiftr x 1) M.
Definition s2 (x M : N) : N := N.land x M + N.land (N.shiftr x 2) M.
Definition s3 (x M : N) : N := N.land (x + N.shiftr x 4) M.

Fixpoint below (n : nat) : list N :=
  match n with O => [] | S n' => N.of_nat n' :: below n' end.
Lemma below_spec n x : x < N.of_nat n -> In x (below n).
Proof.
  induction n as [|n IH]; intros H; [lia|]. cbn [below].
  destruct (N.eq_dec x (N.of_nat n)); [left; auto|right; apply IH; lia].
Qed.
Lemma forall_below n (P : N -> bool) : forallb P (below n) = true -> forall x, x < N.of_nat n -> P x = true.
Proof. intros H x Hx. rewrite forallb_forall in H. apply H, below_spec, Hx. Qed.

Lemma c1 : forall x, x < 256 -> forall t, t < 2 ->
  N.land (N.shiftr x 1 + 128 * t) 0x55 = N.land (N.shiftr x 1) 0x55.
Proof.
  assert (H : forallb (fun x => forallb (fun t =>
    N.land (N.shiftr x 1 + 128 * t) 0x55 =? N.land (N.shiftr x 1) 0x55) (below 2)) (below 256) = true)
    by (vm_compute; reflexivity).
  intros x Hx t Ht. apply (forall_below 256) with (x := x) in H; [|exact Hx].
  apply (forall_below 2) with (x := t) in H; [|exact Ht]. now apply N.eqb_eq in H.
Qed.
Lemma c2 : forall x, x < 256 -> forall t, t < 4 ->
  N.land (N.shiftr x 2 + 64 * t) 0x33 = N.land (N.shiftr x 2) 0x33.
Proof.
  assert (H : forallb (fun x => forallb (fun t =>
    N.land (N.shiftr x 2 + 64 * t) 0x33 =? N.land (N.shiftr x 2) 0x33) (below 4)) (below 256) = true)
    by (vm_compute; reflexivity).
  intros x Hx t Ht. apply (forall_below 256) with (x := x) in H; [|exact Hx].
  apply (forall_below 4) with (x := t) in H; [|exact Ht]. now apply N.eqb_eq in H.
Qed.
Lemma c3 : forall b, b < 256 -> forall t, t < 7 ->
  let x := s2 (s1 b 0x55) 0x33 in
  x < 256 /\ x + N.shiftr x 4 + 16 * t < 256 /\ N.land (x + N.shiftr x 4 + 16 * t) 0x0F = cnt 8 b.
Proof.
  assert (H : forallb (fun b => forallb (fun t =>
    let x := s2 (s1 b 0x55) 0x33 in
    (x <? 256) && (x + N.shiftr x 4 + 16 * t <? 256) &&
    (N.land (x + N.shiftr x 4 + 16 * t) 0x0F =? cnt 8 b)) (below 7)) (below 256) = true)
    by (vm_compute; reflexivity).
  intros x Hx t Ht. apply (forall_below 256) with (x := x) in H; [|exact Hx].
  apply (forall_below 7) with (x := t) in H; [|exact Ht]. cbv zeta in *.
  apply andb_true_iff in H as [H H3]. apply andb_true_iff in H as [H1 H2].
  apply N.eqb_eq in H3. apply N.ltb_lt in H1, H2. auto.
Qed.
Lemma s1_lane x y M : x < 256 -> s1 (x + 256 * y) (0x55 + 256 * M) = s1 x 0x55 + 256 * s1 y M.
Proof.
  intros H. unfold s1.
  replace (N.shiftr (x + 256 * y) 1) with ((N.shiftr x 1 + 128 * (y mod 2)) + 256 * N.shiftr y 1)
    by (rewrite !N.shiftr_div_pow2; change (2^1) with 2; lia).
  assert (N.shiftr x 1 < 128) by (rewrite N.shiftr_div_pow2; change (2^1) with 2; lia).
  rewrite land_lane by lia. rewrite c1 by lia.
  assert (N.land (N.shiftr x 1) 0x55 <= x).
  { eapply N.le_trans; [apply land_le|]. rewrite N.shiftr_div_pow2; change (2^1) with 2; lia. }
  assert (N.land (N.shiftr y 1) M <= y).
  { eapply N.le_trans; [apply land_le|]. rewrite N.shiftr_div_pow2; change (2^1) with 2; lia. }
  lia.
Qed.
Lemma s2_lane x y M : x < 256 -> s2 (x + 256 * y) (0x33 + 256 * M) = s2 x 0x33 + 256 * s2 y M.
Proof.
  intros H. unfold s2.
  replace (N.shiftr (x + 256 * y) 2) with ((N.shiftr x 2 + 64 * (y mod 4)) + 256 * N.shiftr y 2)
    by (rewrite !N.shiftr_div_pow2; change (2^2) with 4; lia).
  assert (N.shiftr x 2 < 64) by (rewrite N.shiftr_div_pow2; change (2^2) with 4; lia).
  rewrite !land_lane by lia. rewrite c2 by lia. lia.
Qed.
(** Masks of [k] lanes. *)
Fixpoint lanes (k : nat) (c : N) : N := match k with O => 0 | S k' => c + 256 * lanes k' c end.
Lemma lanes_s2_low k y : s2 y (lanes k 0x33) mod 16 <= 6.
Proof.
  unfold s2. destruct k; cbn [lanes]. { rewrite !N.land_0_r. cbn. lia. }
  assert (G : forall z, N.land z (0x33 + 256 * lanes k 0x33) mod 16 <= 3).
  { intros z. replace z with (z mod 256 + 256 * (z / 256)) by lia.
    rewrite land_lane by lia.
    assert (Q : forall w, w < 256 -> N.land w 0x33 mod 16 <= 3).
    { assert (F : forallb (fun w => N.land w 0x33 mod 16 <=? 3) (below 256) = true) by (vm_compute; reflexivity).
      intros w Hw. apply N.leb_le. now apply (forall_below 256 (fun w => N.land w 0x33 mod 16 <=? 3) F). }
    specialize (Q (z mod 256) ltac:(lia)). lia. }
  pose proof (G y). pose proof (G (N.shiftr y 2)). lia.
Qed.
Definition s123 (k : nat) (x : N) : N :=
  s3 (s2 (s1 x (lanes k 0x55)) (lanes k 0x33)) (lanes k 0x0F).
Lemma s123_lane k b y : b < 256 -> s123 (S k) (b + 256 * y) = cnt 8 b + 256 * s123 k y.
Proof.
  intros H. unfold s123. cbn [lanes]. rewrite s1_lane by auto.
  assert (s1 b 0x55 < 256) by (unfold s1; lia).
  rewrite s2_lane by auto.
  set (x2 := s2 (s1 b 85) 51). set (y2 := s2 (s1 y (lanes k 85)) (lanes k 51)).
  pose proof (lanes_s2_low k (s1 y (lanes k 85))) as L. fold y2 in L.
  destruct (c3 b H (y2 mod 16) ltac:(lia)) as (X1 & X2 & X3). fold x2 in X1, X2, X3.
  unfold s3.
  replace (x2 + 256 * y2 + N.shiftr (x2 + 256 * y2) 4) with
    ((x2 + N.shiftr x2 4 + 16 * (y2 mod 16)) + 256 * (y2 + N.shiftr y2 4))
    by (rewrite !N.shiftr_div_pow2; change (2^4) with 16; lia).
  rewrite land_lane by lia. rewrite X3. reflexivity.
Qed.
Lemma s123_0 x : s123 0 x = 0.
Proof. unfold s123, s3. cbn [lanes]. apply N.land_0_r. Qed.

Lemma cnt_le8 b : b < 256 -> cnt 8 b <= 8.
Proof.
  intros H. apply N.leb_le. apply (forall_below 256 (fun b => cnt 8 b <=? 8)); auto.
Qed.

Lemma split_byte n : exists b r, b < 256 /\ n = b + 256 * r /\ r = n / 256.
Proof. exists (n mod 256), (n / 256). lia. Qed.

Lemma count1bits_cnt n : n < 2 ^ 64 -> count1bits n = cnt 64 n.
Proof.
  intros Hn. unfold count1bits.
  change 0x5555555555555555 with (lanes 8 0x55).
  change 0x3333333333333333 with (lanes 8 0x33).
  change 0x0F0F0F0F0F0F0F0F with (lanes 8 0x0F).
  change (n - N.land (N.shiftr n 1) (lanes 8 85)) with (s1 n (lanes 8 85)).
  set (x1 := s1 n (lanes 8 85)).
  change (N.land x1 (lanes 8 51) + N.land (N.shiftr x1 2) (lanes 8 51)) with (s2 x1 (lanes 8 51)).
  set (x2 := s2 x1 (lanes 8 51)).
  assert (B2 : x2 <= 2 * lanes 8 51).
  { unfold x2, s2. pose proof (land_le_r x1 (lanes 8 51)).
    pose proof (land_le_r (N.shiftr x1 2) (lanes 8 51)). lia. }
  assert (L51 : lanes 8 51 = 3689348814741910323) by reflexivity.
  change (2 ^ 64) with 18446744073709551616 in Hn.
  rewrite (u64_id x2) by (change (2 ^ 64) with 18446744073709551616; lia).
  assert (B3 : x2 + N.shiftr x2 4 < 18446744073709551616).
  { rewrite N.shiftr_div_pow2. change (2^4) with 16. lia. }
  rewrite (u64_id (x2 + N.shiftr x2 4)) by auto.
  change (N.land (x2 + N.shiftr x2 4) (lanes 8 15)) with (s3 x2 (lanes 8 15)).
  change (s3 x2 (lanes 8 15)) with (s123 8 n). clear B2 B3 x1 x2 L51.
  destruct (split_byte n) as (b0 & r0 & H0 & -> & E0).
  destruct (split_byte r0) as (b1 & r1 & H1 & -> & E1).
  destruct (split_byte r1) as (b2 & r2 & H2 & -> & E2).
  destruct (split_byte r2) as (b3 & r3 & H3 & -> & E3).
  destruct (split_byte r3) as (b4 & r4 & H4 & -> & E4).
  destruct (split_byte r4) as (b5 & r5 & H5 & -> & E5).
  destruct (split_byte r5) as (b6 & r6 & H6 & -> & E6).
  destruct (split_byte r6) as (b7 & r7 & H7 & -> & E7).
  assert (r7 = 0) by (clear - Hn; lia). subst r7. clear E0 E1 E2 E3 E4 E5 E6 E7 Hn.
  rewrite !s123_lane by auto. rewrite s123_0.
  change 64%nat with (8 + (8 + (8 + (8 + (8 + (8 + (8 + (8 + 0))))))))%nat.
  rewrite !cnt_lane by auto. change (cnt 0 0) with 0.
  pose proof (cnt_le8 _ H0). pose proof (cnt_le8 _ H1). pose proof (cnt_le8 _ H2).
  pose proof (cnt_le8 _ H3). pose proof (cnt_le8 _ H4). pose proof (cnt_le8 _ H5).
  pose proof (cnt_le8 _ H6). pose proof (cnt_le8 _ H7).
  generalize dependent (cnt 8 b0). generalize dependent (cnt 8 b1).
  generalize dependent (cnt 8 b2). generalize dependent (cnt 8 b3).
  generalize dependent (cnt 8 b4). generalize dependent (cnt 8 b5).
  generalize dependent (cnt 8 b6). generalize dependent (cnt 8 b7).
  clear. intros c7 ? c6 ? c5 ? c4 ? c3 ? c2 ? c1 ? c0 ?.
  set (x := c0 + 256 * (c1 + 256 * (c2 + 256 * (c3 + 256 * (c4 + 256 * (c5 + 256 * (c6 + 256 * (c7 + 256 * 0)))))))).
  assert (S8 : N.shiftr x 8 = c1 + 256 * (c2 + 256 * (c3 + 256 * (c4 + 256 * (c5 + 256 * (c6 + 256 * c7)))))).
  { rewrite N.shiftr_div_pow2. change (2^8) with 256. unfold x. lia. }
  rewrite S8.
  rewrite (u64_id (x + _)) by (change (2 ^ 64) with 18446744073709551616; unfold x; lia).
  set (y := x + _).
  assert (Ey : y = (c0 + c1) + 256 * (c1 + c2) + 65536 * ((c2 + c3) + 256 * (c3 + c4) + 65536 * ((c4 + c5) + 256 * (c5 + c6) + 65536 * ((c6 + c7) + 256 * c7)))).
  { unfold y, x. lia. }
  assert (S16 : N.shiftr y 16 = (c2 + c3) + 256 * (c3 + c4) + 65536 * ((c4 + c5) + 256 * (c5 + c6) + 65536 * ((c6 + c7) + 256 * c7))).
  { rewrite N.shiftr_div_pow2. change (2^16) with 65536. clearbody y. lia. }
  rewrite S16. clearbody y. clear S16 S8 x.
  rewrite (u64_id (y + _)) by (change (2 ^ 64) with 18446744073709551616; lia).
  set (z := y + _).
  assert (Ez : exists q, z = (c0 + c1 + c2 + c3) + 256 * q + 4294967296 * ((c4 + c5 + c6 + c7) + 256 * (c5 + c6 + c7) + 65536 * ((c6 + c7) + 256 * c7)) /\ q < 16777216).
  { exists ((c1 + c2 + c3 + c4) + 256 * ((c2+c3+c4+c5) + 256 * (c3+c4+c5+c6))). unfold z. lia. }
  clearbody z. clear Ey y. destruct Ez as (q & Ez & Hq).
  assert (S32 : N.shiftr z 32 = (c4 + c5 + c6 + c7) + 256 * (c5 + c6 + c7) + 65536 * ((c6 + c7) + 256 * c7)).
  { rewrite N.shiftr_div_pow2. change (2^32) with 4294967296. lia. }
  rewrite S32.
  rewrite (u64_id (z + _)) by (change (2 ^ 64) with 18446744073709551616; lia).
  change 127 with (N.ones 7). rewrite N.land_ones. change (2^7) with 128.
  lia.
Qed.

Lemma count1bits_popcount n : n < 2 ^ 64 -> count1bits n = popcount n.
Proof. apply count1bits_cnt. Qed.

(** The bit-index loop. *)
Lemma bit_indices_loop_ok fuel bits found i :
  i + N.of_nat fuel = 64 ->
  bit_indices_loop fuel bits (found + N.of_nat (length (ones_from fuel i bits))) found i
    = Ok (ones_from fuel i bits).
Proof.
  revert found i. induction fuel as [|fuel IH]; intros found i Hi.
  - cbn. now rewrite N.add_0_r, N.eqb_refl.
  - cbn [bit_indices_loop ones_from].
    rewrite land_zero_comm, land_bit1_zero, negb_involutive by lia.
    rewrite app_length.
    destruct (N.testbit bits i) eqn:E; cbn [length app plus].
    + replace (found =? _) with false by lia.
      replace (found + N.of_nat (S (length (ones_from fuel (i + 1) bits))))
        with (found + 1 + N.of_nat (length (ones_from fuel (i + 1) bits))) by lia.
      rewrite IH by lia. reflexivity.
    + destruct (found =? _) eqn:F.
      * apply N.eqb_eq in F. assert (L : length (ones_from fuel (i + 1) bits) = 0%nat) by lia.
        apply length_zero_iff_nil in L. now rewrite L.
      * apply IH. lia.
Qed.
Lemma bit_indices_ok bits : bits < 2 ^ 64 -> bit_indices bits = Ok (ones_of bits).
Proof.
  intros H. unfold bit_indices. rewrite count1bits_popcount by auto. unfold popcount.
  destruct (0 <? _) eqn:E.
  - apply (bit_indices_loop_ok 64 bits 0 0). reflexivity.
  - assert (L : length (ones_of bits) = 0%nat) by lia.
    apply length_zero_iff_nil in L. now rewrite L.
Qed.

Lemma ones_from_in n from w i :
  In i (ones_from n from w) <-> (from <= i < from + N.of_nat n /\ N.testbit w i = true).
Proof.
  revert from. induction n as [|n IH]; intros from; cbn [ones_from].
  - split; [intros []|lia].
  - rewrite in_app_iff, IH. destruct (N.testbit w from) eqn:E; cbn [In].
    + split.
      * intros [[<-|[]]|H]; [split; [lia|auto]|split; [lia|apply H]].
      * intros [H1 H2]. destruct (N.eq_dec from i); [left; left; auto|right; split; [lia|auto]].
    + split.
      * intros [[]|H]. split; [lia|apply H].
      * intros [H1 H2]. right. split; [|auto]. destruct (N.eq_dec from i); [congruence|lia].
Qed.
Lemma mask_of_testbit l i : N.testbit (mask_of l) i = existsb (N.eqb i) l.
Proof.
  induction l as [|a l IH]; cbn [mask_of fold_right existsb].
  - apply N.bits_0.
  - rewrite N.lor_spec. fold (mask_of l). rewrite IH, N.pow2_bits_eqb. f_equal. apply N.eqb_sym.
Qed.
Lemma mask_of_ones w : w < 2 ^ 64 -> mask_of (ones_of w) = w.
Proof.
  intros H. apply N.bits_inj. intros i. rewrite mask_of_testbit.
  destruct (N.testbit w i) eqn:E.
  - apply existsb_exists. exists i. split; [|apply N.eqb_refl].
    apply ones_from_in. split; [|auto]. split; [lia|]. change (0 + N.of_nat 64) with 64.
    destruct (N.lt_ge_cases i 64); auto. rewrite (high_testbit w 64) in E; auto. discriminate.
  - destruct (existsb _ _) eqn:X; auto. apply existsb_exists in X as (j & Hj & Hij).
    apply N.eqb_eq in Hij. subst j. apply ones_from_in in Hj as [_ Hj]. congruence.
Qed.
Lemma ones_from_sorted n from w :
  StronglySorted N.lt (ones_from n from w).
Proof.
  revert from. induction n as [|n IH]; intros from; cbn [ones_from]; [constructor|].
  destruct (N.testbit w from); cbn [app]; auto. constructor; auto.
  apply Forall_forall. intros x Hx. apply ones_from_in in Hx. lia.
Qed.
Lemma C31_list w : w < 2 ^ 64 ->
  exists l, bit_indices w = Ok l /\
    (forall i, In i l <-> N.testbit w i = true) /\ StronglySorted N.lt l /\
    mask_of l = w /\ N.of_nat (length l) = popcount w.
Proof.
  intros H. exists (ones_of w). split; [now apply bit_indices_ok|]. split; [|split; [|split]].
  - intros i. unfold ones_of. rewrite ones_from_in. split; [tauto|]. intros E. split; auto.
    split; [lia|]. change (0 + N.of_nat 64) with 64.
    destruct (N.lt_ge_cases i 64); auto. rewrite (high_testbit w 64) in E; auto. discriminate.
  - apply ones_from_sorted.
  - now apply mask_of_ones.
  - reflexivity.
Qed.
