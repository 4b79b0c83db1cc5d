(** Lemmas: opcodes whose bits are constants or bits of another opcode (C69). *)
From Coq Require Import Ascii NArith ZArith Arith List Bool String Lia.
From Verif Require Import M_OperandInfo M_Decoded S_Bits L_Bits S_Imm S_Manual S_Expand L_Manual.
Import ListNotations.
Local Open Scope N_scope.

(** ** Bits *)
Inductive bsrc := C (b : bool) | B (i : nat).
Definition ev (ic : N) (s : bsrc) : bool := match s with C b => b | B i => N.testbit ic (N.of_nat i) end.
Definition psyms (p : piece) : list bsrc :=
  match p with
  | Bits hi lo => map B (rev (seq lo (hi - lo + 1)))
  | Copies n i => repeat (B i) n
  | K s => map (fun c => C (Ascii.eqb c "1")) (list_ascii_of_string s)
  end.
Definition syms (ps : list piece) : list bsrc := rev (flat_map psyms ps).
Lemma psyms_ok ic p : map (ev ic) (psyms p) = piece_bits ic p.
Proof.
  destruct p as [hi lo|n i|s]; cbn [psyms piece_bits]; rewrite ?map_map; [reflexivity| |reflexivity].
  induction n; cbn; [reflexivity|]. now rewrite IHn.
Qed.
Lemma syms_ok ic ps : map (ev ic) (syms ps) = rev (flat_map (piece_bits ic) ps).
Proof.
  unfold syms. rewrite map_rev. f_equal. induction ps as [|p ps IH]; [reflexivity|]. cbn [flat_map]. now rewrite map_app, psyms_ok, IH.
Qed.
Lemma number_bit l j : N.testbit (number l) (N.of_nat j) = nth j l false.
Proof.
  revert j. induction l as [|b l IH]; intros j; cbn [number]; [destruct j; apply N.bits_0|].
  replace ((if b then 1 else 0) + 2 * number l) with (2 * number l + N.b2n b) by (destruct b; cbn [N.b2n]; lia).
  destruct j as [|j]; [apply N.testbit_0_r|]. rewrite Nat2N.inj_succ, N.testbit_succ_r. apply IH.
Qed.
Lemma number_lt l : number l < 2 ^ N.of_nat (List.length l).
Proof.
  induction l as [|b l IH]; cbn [number List.length]; [reflexivity|]. rewrite Nat2N.inj_succ, N.pow_succ_r'. destruct b; lia.
Qed.
Definition nsym (ps : list piece) (j : nat) : bsrc := nth j (syms ps) (C false).
Lemma expanded_bit ps ic j : N.testbit (expanded ps ic) (N.of_nat j) = ev ic (nsym ps j).
Proof. unfold expanded, nsym. rewrite number_bit, <- syms_ok. change false with (ev ic (C false)). apply map_nth. Qed.
Lemma expanded_lt ps ic : expanded ps ic < 2 ^ N.of_nat (List.length (syms ps)).
Proof. unfold expanded. rewrite <- syms_ok. eapply N.lt_le_trans; [apply number_lt|]. now rewrite map_length. Qed.
(** A bit of the second opcode as a bit of the first. *)
Definition subst (L : nat -> bsrc) (s : bsrc) : bsrc := match s with C b => C b | B j => L j end.
Lemma subst_ok ps ic s : ev (expanded ps ic) s = ev ic (subst (nsym ps) s).
Proof. destruct s; [reflexivity|]. cbn [ev subst]. apply expanded_bit. Qed.

(** ** What is known of some bits *)
Definition known (ic : N) (k : list (nat * bool)) : Prop := forall i b, In (i, b) k -> N.testbit ic (N.of_nat i) = b.
Definition look (k : list (nat * bool)) (i : nat) : option bool := option_map snd (find (fun p => Nat.eqb (fst p) i) k).
Lemma look_in k i b : look k i = Some b -> In (i, b) k.
Proof.
  unfold look. destruct (find _ k) as [[i' b']|] eqn:F; [|discriminate]. intros [= <-]. apply find_some in F as [F E]. apply Nat.eqb_eq in E. cbn [fst] in E. now subst.
Qed.
Definition norm (k : list (nat * bool)) (s : bsrc) : bsrc := match s with B i => match look k i with Some b => C b | None => s end | C _ => s end.
Lemma norm_ok ic k s : known ic k -> ev ic (norm k s) = ev ic s.
Proof.
  intros H. destruct s as [b|i]; cbn [norm]; [reflexivity|]. destruct (look k i) as [b|] eqn:E; [|reflexivity]. cbn [ev]. symmetry. apply H, look_in, E.
Qed.
Fixpoint learn (pb : list (option bool)) (j : nat) (L : nat -> bsrc) : option (list (nat * bool)) :=
  match pb with
  | [] => Some []
  | None :: r => learn r (S j) L
  | Some b :: r =>
      match L j with
      | C b' => if Bool.eqb b b' then learn r (S j) L else None
      | B i => option_map (cons (i, b)) (learn r (S j) L)
      end
  end.
Lemma learn_ok ic pb : forall j L, (forall i b, nth_error pb i = Some (Some b) -> ev ic (L (j + i)%nat) = b) ->
  exists k, learn pb j L = Some k /\ known ic k.
Proof.
  induction pb as [|x pb IH]; intros j L H; [exists []; split; [reflexivity|intros ? ? []]|].
  assert (R : forall i b, nth_error pb i = Some (Some b) -> ev ic (L (S j + i)%nat) = b).
  { intros i b Q. replace (S j + i)%nat with (j + S i)%nat by lia. apply H. exact Q. }
  destruct (IH (S j) L R) as (k & K1 & K2). destruct x as [b|]; cbn [learn]; [|exists k; auto].
  specialize (H O b eq_refl). rewrite Nat.add_0_r in H. destruct (L j) as [b'|i]; cbn [ev] in H.
  - subst b'. rewrite eqb_reflx. exists k. auto.
  - rewrite K1. exists ((i, b) :: k). split; [reflexivity|]. intros i' b' [Q|Q]; [injection Q as <- <-; exact H|exact (K2 _ _ Q)].
Qed.
Definition consistent (k : list (nat * bool)) : bool := forallb (fun p => match look k (fst p) with Some b => Bool.eqb b (snd p) | None => false end) k.
Lemma consistent_ok ic k : known ic k -> consistent k = true.
Proof.
  intros H. unfold consistent. apply forallb_forall. intros [i b] I. cbn [fst snd]. destruct (look k i) as [b'|] eqn:E.
  - apply look_in in E. rewrite <- (H _ _ I), <- (H _ _ E). apply eqb_reflx.
  - exfalso. unfold look in E. destruct (find _ k) eqn:F; [discriminate|]. apply (find_none _ _ F) in I. cbn [fst] in I. now rewrite Nat.eqb_refl in I.
Qed.
Fixpoint surely (pb : list (option bool)) (j : nat) (L : nat -> bsrc) (k : list (nat * bool)) : bool :=
  match pb with
  | [] => true
  | None :: r => surely r (S j) L k
  | Some b :: r => match norm k (L j) with C b' => if Bool.eqb b b' then surely r (S j) L k else false | B _ => false end
  end.
Lemma surely_ok ic k L pb : known ic k -> forall j, surely pb j L k = true -> forall i b, nth_error pb i = Some (Some b) -> ev ic (L (j + i)%nat) = b.
Proof.
  intros HK. induction pb as [|x pb IH]; intros j H i b Q; [destruct i; discriminate|].
  destruct i as [|i].
  - cbn [nth_error] in Q. injection Q as ->. cbn [surely] in H. rewrite Nat.add_0_r, <- (norm_ok _ k _ HK). destruct (norm k (L j)) as [b'|]; [|discriminate].
    destruct (Bool.eqb b b') eqn:E; [|discriminate]. apply eqb_prop in E. now subst.
  - replace (j + S i)%nat with (S j + i)%nat by lia. apply IH; [|exact Q]. destruct x as [b'|]; cbn [surely] in H; [|exact H].
    destruct (norm k (L j)) as [b''|]; [|discriminate]. destruct (Bool.eqb b' b''); [exact H|discriminate].
Qed.
(** Patterns. *)
Definition pbits (p : string) : list (option bool) := rev (pattern_bits p).
Lemma fits_learn p ic : fits p ic -> exists k, learn (pbits p) 0 B = Some k /\ known ic k.
Proof. intros F. apply learn_ok. intros i b Q. exact (F i b Q). Qed.
Lemma fits_learn_x p ps k0 ic : known ic k0 -> fits p (expanded ps ic) -> exists k, learn (pbits p) 0 (fun j => norm k0 (nsym ps j)) = Some k /\ known ic k.
Proof. intros HK F. apply learn_ok. intros i b Q. cbn. rewrite (norm_ok _ _ _ HK), <- expanded_bit. exact (F i b Q). Qed.
Lemma surely_fits p k ic : known ic k -> surely (pbits p) 0 B k = true -> fits p ic.
Proof. intros HK S i b Q. exact (surely_ok ic k B _ HK 0 S i b Q). Qed.
Lemma surely_fits_x p ps k ic : known ic k -> surely (pbits p) 0 (nsym ps) k = true -> fits p (expanded ps ic).
Proof. intros HK S i b Q. rewrite expanded_bit. exact (surely_ok ic k (nsym ps) _ HK 0 S i b Q). Qed.
Definition mv_bits (q : N * N) : list (option bool) := map (fun j => if N.testbit (fst q) (N.of_nat j) then Some (N.testbit (snd q) (N.of_nat j)) else None) (seq 0 32).
Lemma mv_bits_nth q i b ic : nth_error (mv_bits q) i = Some (Some b) -> N.land ic (fst q) = snd q -> N.testbit ic (N.of_nat i) = b.
Proof.
  unfold mv_bits. intros Q F. rewrite nth_error_map in Q. destruct (nth_error (seq 0 32) i) as [j|] eqn:E; [|discriminate]. cbn [option_map] in Q.
  assert (j = i) as ->.
  { pose proof (nth_error_nth _ _ 0%nat E) as E'. assert (i < 32)%nat by (rewrite <- (seq_length 32 0); apply nth_error_Some; congruence). rewrite seq_nth in E' by auto. lia. }
  destruct (N.testbit (fst q) (N.of_nat i)) eqn:T; [|discriminate]. injection Q as <-. rewrite <- F, N.land_spec, T. now rewrite andb_true_r.
Qed.
Lemma mv_learn q ic : N.land ic (fst q) = snd q -> exists k, learn (mv_bits q) 0 B = Some k /\ known ic k.
Proof. intros F. apply learn_ok. intros i b Q. exact (mv_bits_nth q i b ic Q F). Qed.
Lemma mv_learn_x q ps k0 ic : known ic k0 -> N.land (expanded ps ic) (fst q) = snd q -> exists k, learn (mv_bits q) 0 (fun j => norm k0 (nsym ps j)) = Some k /\ known ic k.
Proof.
  intros HK F. apply learn_ok. intros i b Q. cbn. rewrite (norm_ok _ _ _ HK), <- expanded_bit. exact (mv_bits_nth q i b _ Q F).
Qed.

(** ** Registers *)
Definition place_syms (p : place) : list bsrc :=
  match p with
  | At5 lo => map (fun i => B (N.to_nat lo + i)) (seq 0 5)
  | At3 lo => (map (fun i => B (N.to_nat lo + i)) (seq 0 3) ++ [C true; C false])%list
  | Reg n => map (fun i => C (N.testbit n (N.of_nat i))) (seq 0 5)
  end.
Definition place_small (p : place) : bool := match p with Reg n => n <? 32 | _ => true end.
Lemma bits_number x n : x < 2 ^ N.of_nat n -> x = number (map (fun i => N.testbit x (N.of_nat i)) (seq 0 n)).
Proof.
  intros L. apply N.bits_inj. intros i. rewrite <- (N2Nat.id i). rewrite number_bit. set (j := N.to_nat i).
  destruct (Nat.ltb_spec j n) as [H|H].
  - symmetry. erewrite nth_error_nth; [reflexivity|]. rewrite nth_error_map. rewrite (nth_error_nth' _ 0%nat) by (rewrite seq_length; exact H). rewrite seq_nth by exact H. reflexivity.
  - rewrite nth_overflow by (rewrite map_length, seq_length; exact H). apply (high_testbit _ (N.of_nat n)); lia.
Qed.
Lemma slice_lt lo len ic : slice lo len ic < 2 ^ len.
Proof. unfold slice. apply N.mod_lt. apply N.pow_nonzero. lia. Qed.
Lemma slice_number lo n ic : slice lo (N.of_nat n) ic = number (map (fun i => ev ic (B (N.to_nat lo + i))) (seq 0 n)).
Proof.
  rewrite (bits_number (slice lo (N.of_nat n) ic) n (slice_lt _ _ _)) at 1. f_equal. apply map_ext_in. intros i I. apply in_seq in I.
  rewrite slice_testbit. cbn [ev]. rewrite (proj2 (N.ltb_lt _ _)) by lia. cbn [andb]. f_equal. lia.
Qed.
Lemma place_ok p ic : place_small p = true -> place_val p ic = number (map (ev ic) (place_syms p)).
Proof.
  destruct p as [lo|lo|n]; cbn [place_val place_syms place_small]; intros H.
  - rewrite map_map. exact (slice_number lo 5 ic).
  - rewrite map_app, map_map. pose proof (slice_number lo 3 ic) as Q. change (N.of_nat 3) with 3 in Q. rewrite Q. cbn [seq map app number ev]. lia.
  - apply N.ltb_lt in H. rewrite map_map. cbn [ev]. apply bits_number. exact H.
Qed.

(** ** Immediates *)
Definition covers_bit (j : nat) (s : segment) : bool := let '(hi, lo, _) := s in (N.to_nat lo <=? j)%nat && (j <=? N.to_nat hi)%nat.
Definition seg_src (l : list segment) (j : nat) : bsrc :=
  match find (covers_bit j) l with Some (_, lo, at_) => B (N.to_nat at_ + (j - N.to_nat lo)) | None => C false end.
Lemma seg_bit s ic j : (let '(hi, lo, _) := s in lo <= hi) -> N.testbit (seg_value s ic) (N.of_nat j) =
  if covers_bit j s then let '(_, lo, at_) := s in N.testbit ic (N.of_nat (N.to_nat at_ + (j - N.to_nat lo))) else false.
Proof.
  destruct s as [[hi lo] at_]. intros L. unfold seg_value, covers_bit. rewrite <- N.shiftl_mul_pow2, shl_testbit, slice_testbit.
  destruct (N.leb_spec lo (N.of_nat j)) as [H|H]; cbn [andb].
  - rewrite (proj2 (Nat.leb_le _ _)) by lia. cbn [andb]. destruct (N.ltb_spec (N.of_nat j - lo) (hi - lo + 1)) as [Q|Q].
    + rewrite (proj2 (Nat.leb_le j _)) by lia. cbn [andb]. f_equal. lia.
    + rewrite (proj2 (Nat.leb_gt j _)) by lia. reflexivity.
  - rewrite (proj2 (Nat.leb_gt _ j)) by lia. reflexivity.
Qed.
Lemma seg_src_ok l ic j : segs_disjoint l = true -> N.testbit (imm_value l ic) (N.of_nat j) = ev ic (seg_src l j).
Proof.
  unfold seg_src. induction l as [|[[hi lo] at_] l IH]; intros D; [apply N.bits_0|].
  cbn [segs_disjoint] in D. apply andb_true_iff in D as [D D3]. apply andb_true_iff in D as [D1 D2]. apply N.leb_le in D1. specialize (IH D3).
  cbn [imm_value fold_right find]. fold (imm_value l ic). rewrite N.lor_spec, IH, (seg_bit (hi, lo, at_)) by exact D1.
  destruct (covers_bit j (hi, lo, at_)) eqn:CV; [|now rewrite orb_false_l]. cbn [ev].
  assert (find (covers_bit j) l = None) as ->; [|now rewrite orb_false_r].
  destruct (find (covers_bit j) l) as [[[h o] a]|] eqn:F; [exfalso|reflexivity]. apply find_some in F as [F1 F2]. rewrite forallb_forall in D2. specialize (D2 _ F1).
  cbn in D2, F2, CV. apply andb_true_iff in F2 as [F2 F3], CV as [C1 C2]. apply Nat.leb_le in F2, F3, C1, C2. apply orb_true_iff in D2 as [Q|Q]; apply N.ltb_lt in Q; lia.
Qed.
Definition zsrc (d : imm_desc) (j : nat) : bsrc :=
  match d with
  | NoImm => C false
  | ConstImm _ z => C (Z.testbit z (Z.of_nat j))
  | ImmSegs l _ Unsigned => seg_src l j
  | ImmSegs l _ (SignBit p) => seg_src l (Nat.min j (N.to_nat p))
  end.
Definition small_imm (d : imm_desc) : bool :=
  match d with
  | NoImm => true
  | ConstImm _ z => (- 2 ^ 42 <=? z)%Z && (z <? 2 ^ 42)%Z
  | ImmSegs l _ s => segs_disjoint l && forallb (fun q => fst (fst q) <? 42) l && match s with Unsigned => true | SignBit p => p <? 42 end
  end.
Lemma signed_high z p j : (0 <= p)%Z -> (- 2 ^ p <= z < 2 ^ p)%Z -> (p <= j)%Z -> Z.testbit z j = Z.testbit z p.
Proof.
  intros P H J. assert (0 < 2 ^ p)%Z by (apply Z.pow_pos_nonneg; lia).
  assert (E : forall i, (p <= i)%Z -> Z.testbit z i = (z <? 0)%Z).
  { intros i I. replace i with ((i - p) + p)%Z by lia. rewrite <- Z.div_pow2_bits by lia. destruct (Z.ltb_spec z 0) as [N|N].
    - replace (z / 2 ^ p)%Z with (-1)%Z; [apply Z.bits_m1; lia|]. apply (Z.div_unique_pos _ _ _ (z + 2 ^ p)); lia.
    - replace (z / 2 ^ p)%Z with 0%Z; [apply Z.bits_0|]. symmetry. apply Z.div_small. lia. }
  rewrite !E by lia. reflexivity.
Qed.
Lemma zsrc_ok d ic z j : small_imm d = true -> offset_of d (imm_of d 0 ic) z -> Z.testbit z (Z.of_nat j) = ev ic (zsrc d j).
Proof.
  destruct d as [|v z'|l cl [|p]]; cbn [offset_of imm_of zsrc small_imm]; intros S O.
  - subst z. apply Z.bits_0.
  - subst z. reflexivity.
  - apply andb_true_iff in S as [S _]. apply andb_true_iff in S as [S _]. subst z. replace (if cl then N.ldiff ic 0 else ic) with ic by (destruct cl; [now rewrite N.ldiff_0_r|reflexivity]).
    rewrite <- (seg_src_ok _ _ _ S), <- nat_N_Z. apply N2Z.inj_testbit || apply Z.testbit_of_N.
  - apply andb_true_iff in S as [S _]. apply andb_true_iff in S as [S _]. replace (if cl then N.ldiff ic 0 else ic) with ic in O by (destruct cl; [now rewrite N.ldiff_0_r|reflexivity]).
    destruct O as [R E]. rewrite N2Z.inj_add in R, E. change (Z.of_N 1) with 1%Z in R, E. replace (Z.of_N p + 1 - 1)%Z with (Z.of_N p) in R by lia.
    rewrite <- (seg_src_ok _ _ _ S).
    assert (L : forall i : nat, (i <= N.to_nat p)%nat -> Z.testbit z (Z.of_nat i) = N.testbit (imm_value l ic) (N.of_nat i)).
    { intros i I. rewrite <- (Z.mod_pow2_bits_low z (Z.of_N p + 1)) by lia. rewrite E, Z.mod_pow2_bits_low by lia. rewrite <- nat_N_Z. apply Z.testbit_of_N. }
    destruct (Nat.le_gt_cases j (N.to_nat p)) as [Q|Q].
    + rewrite Nat.min_l by exact Q. exact (L j Q).
    + rewrite Nat.min_r by lia. rewrite <- L by lia. rewrite N_nat_Z. apply signed_high; lia.
Qed.
Lemma zsrc_high d j : small_imm d = true -> (42 <= j)%nat -> zsrc d j = zsrc d 42.
Proof.
  intros S J. assert (HS : forall l i, forallb (fun q => fst (fst q) <? 42) l = true -> (42 <= i)%nat -> seg_src l i = C false).
  { intros l i F I. unfold seg_src. rewrite forallb_forall in F. destruct (find (covers_bit i) l) as [[[h o] a]|] eqn:Q; [exfalso|reflexivity].
    apply find_some in Q as [Q1 Q2]. specialize (F _ Q1). cbn in F, Q2. apply andb_true_iff in Q2 as [_ Q2]. apply Nat.leb_le in Q2. apply N.ltb_lt in F. lia. }
  destruct d as [|v z'|l cl [|p]]; cbn [zsrc small_imm] in *; [reflexivity| | |].
  - apply andb_true_iff in S as [S1 S2]. apply Z.leb_le in S1. apply Z.ltb_lt in S2. f_equal. apply signed_high; lia.
  - apply andb_true_iff in S as [S _]. apply andb_true_iff in S as [_ S]. rewrite !HS by (auto; lia). reflexivity.
  - apply andb_true_iff in S as [_ S]. apply N.ltb_lt in S. rewrite !Nat.min_r by lia. reflexivity.
Qed.

(** ** Comparing two rows *)
Definition bsrc_eqb (a b : bsrc) : bool := match a, b with C x, C y => Bool.eqb x y | B i, B j => Nat.eqb i j | _, _ => false end.
Lemma bsrc_eqb_eq a b : bsrc_eqb a b = true -> a = b.
Proof. destruct a, b; cbn; try discriminate; intros H; f_equal; [now apply eqb_prop|now apply Nat.eqb_eq]. Qed.
Definition same (ps : list piece) (k : list (nat * bool)) (a b : bsrc) : bool := bsrc_eqb (norm k a) (norm k (subst (nsym ps) b)).
Lemma same_ok ps k ic a b : known ic k -> same ps k a b = true -> ev ic a = ev (expanded ps ic) b.
Proof. intros HK H. apply bsrc_eqb_eq in H. rewrite subst_ok, <- (norm_ok _ _ a HK), <- (norm_ok _ _ (subst _ b) HK). now rewrite H. Qed.
Fixpoint all2 {X Y} (f : X -> Y -> bool) (l : list X) (m : list Y) : bool :=
  match l, m with [], [] => true | x :: l', y :: m' => if f x y then all2 f l' m' else false | _, _ => false end.
Lemma all2_map {X Y Z} (f : X -> Y -> bool) (g : X -> Z) (h : Y -> Z) (H : forall x y, f x y = true -> g x = h y) : forall l m, all2 f l m = true -> map g l = map h m.
Proof.
  induction l as [|x l IH]; intros [|y m] Q; try discriminate; [reflexivity|]. cbn in Q |- *. destruct (f x y) eqn:E; [|discriminate]. now rewrite (H _ _ E), (IH m Q).
Qed.
Definition bank_eqb (a b : bank) : bool := match a, b with BX, BX | BF, BF | BV, BV => true | _, _ => false end.
Definition same_op (ps : list piece) (k : list (nat * bool)) (a b : oper) : bool :=
  if bank_eqb (op_bank a) (op_bank b) then if Bool.eqb (op_data a) (op_data b) then if Bool.eqb (op_acc a) (op_acc b) then
    if place_small (op_place a) then if place_small (op_place b) then all2 (same ps k) (place_syms (op_place a)) (place_syms (op_place b)) else false else false
  else false else false else false.
Lemma same_op_ok ps k ic a b : known ic k -> same_op ps k a b = true -> meant ic a = meant (expanded ps ic) b.
Proof.
  intros HK. unfold same_op. destruct (bank_eqb _ _) eqn:E1; [|discriminate]. destruct (Bool.eqb (op_data _) _) eqn:E2; [|discriminate]. destruct (Bool.eqb (op_acc _) _) eqn:E3; [|discriminate].
  destruct (place_small (op_place a)) eqn:E4; [|discriminate]. destruct (place_small (op_place b)) eqn:E5; [|discriminate]. intros H.
  unfold meant. apply eqb_prop in E2, E3. rewrite E2, E3. replace (op_bank b) with (op_bank a) by (destruct (op_bank a), (op_bank b); try discriminate; reflexivity).
  rewrite (place_ok _ ic E4), (place_ok _ _ E5). do 3 f_equal. f_equal. exact (all2_map _ _ _ (fun x y => same_ok ps k ic x y HK) _ _ H).
Qed.
Definition same_imm (ps : list piece) (k : list (nat * bool)) (a b : imm_desc) : bool :=
  if small_imm a then if small_imm b then forallb (fun j => same ps k (zsrc a j) (zsrc b j)) (seq 0 43) else false else false.
Lemma same_imm_ok ps k ic a b z z' : known ic k -> same_imm ps k a b = true ->
  offset_of a (imm_of a 0 ic) z -> offset_of b (imm_of b 0 (expanded ps ic)) z' -> z = z'.
Proof.
  intros HK. unfold same_imm. destruct (small_imm a) eqn:SA; [|discriminate]. destruct (small_imm b) eqn:SB; [|discriminate]. intros H O1 O2. rewrite forallb_forall in H.
  apply Z.bits_inj'. intros n Hn. rewrite <- (Z2Nat.id n Hn). set (j := Z.to_nat n). rewrite (zsrc_ok _ _ _ _ SA O1), (zsrc_ok _ _ _ _ SB O2).
  destruct (Nat.le_gt_cases 42 j) as [Q|Q].
  - rewrite (zsrc_high _ _ SA Q), (zsrc_high _ _ SB Q). apply (same_ok _ _ _ _ _ HK). apply H. apply in_seq. lia.
  - apply (same_ok _ _ _ _ _ HK). apply H. apply in_seq. lia.
Qed.
Definition same_row (ps : list piece) (k : list (nat * bool)) (m m' : minst) : bool :=
  if all2 (same_op ps k) (mi_dests m) (mi_dests m') then if all2 (same_op ps k) (mi_srcs m) (mi_srcs m') then same_imm ps k (mi_imm m) (mi_imm m') else false else false.
Lemma same_row_ok ps k ic m m' d d' : known ic k -> same_row ps k m m' = true -> reports m ic d -> reports m' (expanded ps ic) d' ->
  map shown (oi_elems (d_dst_oi d')) = map shown (oi_elems (d_dst_oi d)) /\ map shown (oi_elems (d_src_oi d')) = map shown (oi_elems (d_src_oi d)) /\ d_soff d' = d_soff d.
Proof.
  intros HK. unfold same_row. destruct (all2 _ (mi_dests m) _) eqn:E1; [|discriminate]. destruct (all2 _ (mi_srcs m) _) eqn:E2; [|discriminate]. intros E3 (R1 & R2 & R3 & R4) (Q1 & Q2 & Q3 & Q4).
  rewrite R1, R2, Q1, Q2. rewrite R3 in R4. rewrite Q3 in Q4.
  split; [symmetry; exact (all2_map _ _ _ (fun x y => same_op_ok ps k ic x y HK) _ _ E1)|]. split; [symmetry; exact (all2_map _ _ _ (fun x y => same_op_ok ps k ic x y HK) _ _ E2)|].
  symmetry. exact (same_imm_ok _ _ _ _ _ _ _ HK E3 R4 Q4).
Qed.
