(** Lemmas: numerals. *)
From Coq Require Import Ascii NArith List Bool String Lia ZifyBool ZifyN.
From Verif Require Import M_Base M_Override M_Raw M_Text S_Override S_Text L_Override G_Texts.
Import ListNotations.
Local Open Scope N_scope.

(** ** Digits *)
Lemma digit_ok c d : In (c, d) digits -> digit_val c = Some d /\ isspace c = false /\ c <> "-"%char /\ c <> "+"%char /\ c <> "x"%char /\ c <> "X"%char.
Proof.
  intros H. repeat (destruct H as [H|H]; [injection H as <- <-; repeat split; try reflexivity; discriminate|]). destruct H.
Qed.
Lemma digit_in_ok b c d : In (c, d) digits -> d < b -> digit_in b c = Some d.
Proof. intros H L. unfold digit_in. rewrite (proj1 (digit_ok c d H)). now replace (d <? b) with true by lia. Qed.
Definition all_digits (b : N) (s : string) : Prop := forall c, In c (letters s) -> exists d, In (c, d) digits /\ d < b.
Lemma writes_all b s n : writes b s n -> all_digits b s /\ s <> ""%string.
Proof.
  induction 1 as [c d I1 L|s n c d W [IH _] I1 L].
  - split; [|discriminate]. intros x [<-|[]]. eauto.
  - split; [|destruct s; discriminate]. intros x. rewrite letters_app, in_app_iff. intros [X|[<-|[]]]; eauto.
Qed.
Lemma digits_app b s t acc : all_digits b s -> digits_from b (s ++ t) acc = digits_from b t (digits_from b s acc).
Proof.
  revert acc. induction s as [|c s IH]; intros acc H; cbn [append digits_from]; [reflexivity|].
  destruct (H c) as (d & I1 & L); [now left|]. rewrite (digit_in_ok b c d I1 L). apply IH. intros x X. apply H. now right.
Qed.
Lemma writes_value b s n : writes b s n -> digits_from b s 0 = n.
Proof.
  induction 1 as [c d I1 L|s n c d W IH I1 L].
  - cbn [digits_from]. rewrite (digit_in_ok b c d I1 L). lia.
  - rewrite digits_app by (eapply writes_all; eauto). cbn [digits_from]. now rewrite (digit_in_ok b c d I1 L), IH.
Qed.
Lemma writes_magnitude b s n : writes b s n -> magnitude b s = Some n.
Proof.
  intros W. unfold magnitude, starts_digit. destruct (writes_all b s n W) as [A NE]. destruct s as [|c s]; [congruence|].
  destruct (A c) as (d & I1 & L); [now left|]. rewrite (digit_in_ok b c d I1 L). f_equal. now apply writes_value.
Qed.
Lemma writes_first b s n : writes b s n -> exists c r d, s = String c r /\ In (c, d) digits /\ d < b.
Proof.
  intros W. destruct (writes_all b s n W) as [A NE]. destruct s as [|c s]; [congruence|]. destruct (A c) as (d & I1 & L); [now left|]. eauto 6.
Qed.
Lemma writes_starts b s n : writes b s n -> starts_digit b s = true.
Proof. intros W. apply writes_first in W as (c & r & d & -> & I1 & L). cbn. now rewrite (digit_in_ok b c d I1 L). Qed.
Lemma plain_start c r : (exists d, In (c, d) digits) -> ltrim (String c r) = String c r /\ signed (String c r) = (false, String c r).
Proof.
  intros [d I1]. destruct (digit_ok c d I1) as (_ & S & A & B & _). split.
  - cbn [ltrim]. now rewrite S.
  - cbn [signed]. apply Ascii.eqb_neq in A, B. now rewrite A, B.
Qed.
Lemma writes_no_prefix b s n : writes b s n -> hex_prefix s = None.
Proof.
  intros W. destruct (writes_all b s n W) as [A _]. destruct s as [|z [|x r]]; try reflexivity. cbn [hex_prefix].
  destruct (A x) as (d & I1 & _); [right; now left|]. destruct (digit_ok x d I1) as (_ & _ & _ & _ & X1 & X2). apply Ascii.eqb_neq in X1, X2. rewrite X1, X2.
  now rewrite andb_false_r.
Qed.
Lemma marked p s n : In p hex_marks -> writes 16 s n ->
  ltrim (p ++ s) = (p ++ s)%string /\ signed (p ++ s) = (false, p ++ s)%string /\ match hex_prefix (p ++ s) with Some r => r | None => (p ++ s)%string end = s.
Proof.
  intros H W. pose proof (writes_first _ _ _ W) as (c & r & d & E & I1 & L).
  assert (Z : exists d, In ("0"%char, d) digits) by (exists 0; now left).
  destruct H as [<-|[<-|[<-|[]]]]; cbn [append].
  - rewrite (writes_no_prefix _ _ _ W), E. destruct (plain_start c r) as [Q1 Q2]; eauto.
  - destruct (plain_start "0" (String "x" s) Z) as [Q1 Q2]. split; [exact Q1|]. split; [exact Q2|]. cbn [hex_prefix]. rewrite (writes_starts _ _ _ W). reflexivity.
  - destruct (plain_start "0" (String "X" s) Z) as [Q1 Q2]. split; [exact Q1|]. split; [exact Q2|]. cbn [hex_prefix]. rewrite (writes_starts _ _ _ W). reflexivity.
Qed.
Lemma stencil_lemma w p s n : blank w -> In p hex_marks -> writes 16 s n ->
  read_stencil (w ++ p ++ s) = if n <? 2 ^ 63 then Num n else Range.
Proof.
  intros B H W. destruct (marked p s n H W) as (Q1 & Q2 & Q3). unfold read_stencil. rewrite ltrim_blank by exact B. rewrite Q1, Q2, Q3, (writes_magnitude _ _ _ W). reflexivity.
Qed.
Lemma match_hex_lemma w s n : blank w -> writes 16 s n -> n < 2 ^ 64 -> read_number (w ++ "0x" ++ s) = n.
Proof.
  intros B W L. destruct (marked "0x" s n (or_intror (or_introl eq_refl)) W) as (Q1 & Q2 & Q3). unfold read_number. rewrite ltrim_blank by exact B. rewrite Q1, Q2. cbv zeta beta iota.
  cbn [append hex_prefix]. rewrite (writes_starts _ _ _ W). cbn [Ascii.eqb Bool.eqb andb orb]. rewrite (writes_magnitude _ _ _ W).
  now replace (2 ^ 64 <=? n) with false by lia.
Qed.
Lemma match_dec_lemma w s n : blank w -> writes 10 s n -> ~ leading_zero s -> n < 2 ^ 64 -> read_number (w ++ s) = n.
Proof.
  intros B W NZ L. unfold read_number. rewrite ltrim_blank by exact B. pose proof (writes_first _ _ _ W) as (c & r & d & -> & I1 & LT).
  destruct (plain_start c r) as [Q1 Q2]; [eauto|]. rewrite Q1, Q2. cbv zeta beta iota. rewrite (writes_no_prefix _ _ _ W).
  destruct (Ascii.eqb c "0") eqn:Z; [apply Ascii.eqb_eq in Z; subst c; exfalso; apply NZ; now exists r|].
  rewrite (writes_magnitude _ _ _ W). now replace (2 ^ 64 <=? n) with false by lia.
Qed.

(** ** ISA entries *)
Lemma capital_iff c : capital c = true <-> In c capitals.
Proof.
  split.
  - destruct c as [[|] [|] [|] [|] [|] [|] [|] [|]]; vm_compute; try discriminate; intros _; repeat (first [left; reflexivity|right]).
  - intros H. repeat (destruct H as [<-|H]; [reflexivity|]). destruct H.
Qed.
Lemma digit_decimal c d : In (c, d) digits -> d < 10 -> decimal c = true /\ capital c = false.
Proof. intros H. repeat (destruct H as [H|H]; [injection H as <- <-; first [intros _; split; reflexivity|lia]|]). destruct H. Qed.
Lemma capital_not_decimal c : capital c = true -> decimal c = false.
Proof. unfold capital, decimal. cbv zeta. lia. Qed.
Lemma digits_capital_ok s c y : all_digits 10 s -> In c capitals -> digits_capital (s ++ String c y) = Some (s, c).
Proof.
  intros A H. apply capital_iff in H. induction s as [|x s IH]; cbn [append digits_capital]; [now rewrite H|].
  destruct (A x) as (d & I1 & L); [now left|]. destruct (digit_decimal x d I1 L) as [-> ->]. rewrite IH; [reflexivity|]. intros z Z. apply A. now right.
Qed.
Lemma isa_lemma s n c : writes 10 s n -> ~ leading_zero s -> n < 2 ^ 32 -> In c capitals ->
  read_isa (s ++ String c "") = Some (Some n, String c "").
Proof.
  intros W NZ L H. unfold read_isa. pose proof (writes_first _ _ _ W) as (x & r & d & E & I1 & LT). destruct (writes_all _ _ _ W) as [A _].
  assert (Q : isa_at (s ++ String c "") = Some (s, c)).
  { subst s. cbn [append isa_at]. destruct (digit_decimal x d I1 LT) as [-> _]. destruct (Ascii.eqb x "0") eqn:Z; [apply Ascii.eqb_eq in Z; subst x; exfalso; apply NZ; now exists r|].
    cbn [andb negb]. rewrite digits_capital_ok; [reflexivity| |exact H]. intros z Z'. apply A. now right. }
  replace (isa_search (s ++ String c "")) with (Some (s, c)).
  - replace (match s with ""%string => None | _ => Some (u32 (read_number s)) end) with (Some n); [reflexivity|]. rewrite E at 1. f_equal.
    change s with ("" ++ s)%string. rewrite (match_dec_lemma "" s n); auto using blank_nil; [|lia]. unfold u32, w32. symmetry. apply N.mod_small. exact L.
  - subst s. cbn [append isa_search] in *. now rewrite Q.
Qed.
Lemma isa_bare_lemma c : In c capitals -> read_isa (String c "") = Some (None, String c ""%string).
Proof.
  intros H. apply capital_iff in H. unfold read_isa. cbn [isa_search isa_at]. rewrite (capital_not_decimal c H), H. reflexivity.
Qed.
Definition no_capital (s : string) : Prop := forall c, In c (letters s) -> ~ In c capitals.
Lemma digits_capital_first s d l : digits_capital s = Some (d, l) -> exists y, s = (d ++ String l y)%string /\ no_capital d /\ In l capitals.
Proof.
  revert d. induction s as [|c s IH]; intros d; cbn [digits_capital]; [discriminate|]. destruct (capital c) eqn:C.
  - intros [= <- <-]. exists s. split; [reflexivity|]. split; [intros x []|now apply capital_iff].
  - destruct (decimal c); [|discriminate]. destruct (digits_capital s) as [[d' l']|]; [|discriminate]. intros [= <- <-].
    destruct (IH d' eq_refl) as (y & -> & N1 & N2). exists y. split; [reflexivity|]. split; [|exact N2]. intros x [<-|X]; [|now apply N1].
    rewrite <- capital_iff. congruence.
Qed.
Lemma isa_at_first s d l : isa_at s = Some (d, l) -> exists y, s = (d ++ String l y)%string /\ no_capital d /\ In l capitals.
Proof.
  destruct s as [|c s]; cbn [isa_at]; [discriminate|]. destruct (decimal c && _)%bool eqn:D.
  - destruct (digits_capital s) as [[d' l']|] eqn:E; [|discriminate]. intros [= <- <-]. apply digits_capital_first in E as (y & -> & N1 & N2).
    exists y. split; [reflexivity|]. split; [|exact N2]. intros x [<-|X]; [|now apply N1]. rewrite <- capital_iff. intros C. apply capital_not_decimal in C. rewrite C in D. discriminate.
  - destruct (capital c) eqn:C; [|discriminate]. intros [= <- <-]. exists s. split; [reflexivity|]. split; [intros x []|now apply capital_iff].
Qed.
Lemma first_capital x c y x' c' y' : (x ++ String c y = x' ++ String c' y')%string -> no_capital x -> no_capital x' -> In c capitals -> In c' capitals -> c = c'.
Proof.
  revert x'. induction x as [|a x IH]; intros [|b x'] E N1 N2 C1 C2; cbn in E; injection E as E1 E2.
  - exact E1.
  - exfalso. apply (N2 b); [now left|]. now subst b.
  - exfalso. apply (N1 a); [now left|]. now subst a.
  - apply (IH x'); auto; intros z Z; [apply N1|apply N2]; now right.
Qed.
Lemma search_spec s : match isa_search s with
  | None => no_capital s
  | Some (_, l) => exists x y, s = (x ++ String l y)%string /\ no_capital x /\ In l capitals
  end.
Proof.
  induction s as [|c s IH]; [intros x []|]. cbn [isa_search]. destruct (isa_at (String c s)) as [[d l]|] eqn:E.
  - apply isa_at_first in E as (y & Q & N1 & N2). exists d, y. auto.
  - assert (NC : ~ In c capitals).
    { intros H. apply capital_iff in H. cbn [isa_at] in E. rewrite (capital_not_decimal c H), H in E. discriminate. }
    destruct (isa_search s) as [[d l]|].
    + destruct IH as (x & y & -> & N1 & N2). exists (String c x), y. split; [reflexivity|]. split; [|exact N2]. intros z [<-|Z]; [exact NC|now apply N1].
    + intros z [<-|Z]; [exact NC|now apply IH].
Qed.
Lemma letter_lemma x c y : no_capital x -> In c capitals -> exists w, read_isa (x ++ String c y) = Some (w, String c ""%string).
Proof.
  intros NX H. unfold read_isa. pose proof (search_spec (x ++ String c y)) as S. destruct (isa_search _) as [[w l]|].
  - destruct S as (x' & y' & E & N1 & N2). rewrite (first_capital _ _ _ _ _ _ E NX N1 H N2). eauto.
  - exfalso. apply (S c); [|exact H]. rewrite letters_app, in_app_iff. right. now left.
Qed.
Lemma malformed_isa_lemma s : read_isa s = None <-> no_capital s.
Proof.
  unfold read_isa. pose proof (search_spec s) as S. destruct (isa_search s) as [[w l]|].
  - destruct S as (x & y & -> & _ & N2). split; [discriminate|]. intros H. exfalso. apply (H l); [|exact N2]. rewrite letters_app, in_app_iff. right. now left.
  - split; auto.
Qed.

(** ** What is not a numeral *)
Lemma ends_digit b x s n : writes b s n -> exists d, In (last (letters (x ++ s)) "0"%char, d) digits.
Proof.
  intros W. assert (Q : exists s' c d, s = (s' ++ String c "")%string /\ In (c, d) digits).
  { destruct W as [c d I1 L|s n c d W I1 L]; [exists ""%string, c, d|exists s, c, d]; (split; [reflexivity|exact I1]). }
  destruct Q as (s' & c & d & -> & I1). exists d. rewrite !letters_app, app_assoc. cbn [letters]. now rewrite last_last.
Qed.
Lemma garbage_lemma : exists t, (forall w p s n, blank w -> In p hex_marks -> writes 16 s n -> t <> (w ++ p ++ s)%string) /\ read_stencil t = Num 0x33.
Proof.
  exists "0x33;"%string. split; [|reflexivity]. intros w p s n _ _ W E. destruct (ends_digit 16 (w ++ p) s n W) as [d H].
  rewrite app_a, <- E in H. cbn in H. repeat (destruct H as [H|H]; [discriminate|]). destruct H.
Qed.
Lemma empty_lemma : exists t, (forall c d, In c (letters t) -> ~ In (c, d) digits) /\ read_number t = 0.
Proof.
  exists "zz"%string. split; [|reflexivity]. intros c d [<-|[<-|[]]] H; repeat (destruct H as [H|H]; [discriminate|]); destruct H.
Qed.
Lemma octal_lemma : exists t n, writes 16 t n /\ read_stencil t = Num n /\ read_number t <> n.
Proof.
  exists "010"%string, 16. split; [|split; [reflexivity|vm_compute; discriminate]].
  apply (W_more 16 "01" 1 "0" 0); [apply (W_more 16 "0" 0 "1" 1); [constructor; [now left|reflexivity]|right; now left|reflexivity]|now left|reflexivity].
Qed.
Lemma isa_dropped_lemma : read_isa "32 I" = Some (None, "I"%string) /\ read_isa "IM" = Some (None, "I"%string) /\ read_isa "4294967297I" = Some (Some 1, "I"%string).
Proof. repeat split; vm_compute; reflexivity. Qed.

(** ** The shipped files *)
Definition view_r (r : raw) := (option_map Num (w_stencil r), map Num (w_alias r), match w_overlay r with Some (_, m) => m | None => None end, map Some (w_isa r)).
Definition view_t (t : texts) := (option_map read_stencil (t_stencil t), map read_stencil (t_alias t), option_map (map read_number) (t_match t), map read_isa (t_isa t)).
Lemma views : map (fun p => map view_t (snd p)) shipped_texts = map (fun p => map view_r (fst p)) shipped_texts.
Proof. vm_compute. reflexivity. Qed.
Lemma shipped_text_lemma tab txt : In (tab, txt) shipped_texts -> Forall2 (fun r t =>
  option_map read_stencil (t_stencil t) = option_map Num (w_stencil r) /\ map read_stencil (t_alias t) = map Num (w_alias r) /\
  option_map (map read_number) (t_match t) = match w_overlay r with Some (_, m) => m | None => None end /\ map read_isa (t_isa t) = map Some (w_isa r)) tab txt.
Proof.
  pose proof views as V. revert V. generalize shipped_texts. intros l V H.
  assert (E : map view_t txt = map view_r tab).
  { induction l as [|p l IH]; [destruct H|]. injection V as V1 V2. destruct H as [->|H]; [exact V1|auto]. }
  clear - E. revert txt E. induction tab as [|r tab IH]; intros [|t txt] E; try discriminate; constructor.
  - injection E as E1 E2 E3 E4 _. auto.
  - apply IH. now injection E.
Qed.
Lemma stencil_case : writes 16 "fE" 254 /\ read_stencil " 0xfE" = Num 254.
Proof.
  split; [|reflexivity]. apply (W_more 16 "f" 15 "E" 14); [constructor; [|reflexivity]| |reflexivity]; repeat (first [left; reflexivity|right]).
Qed.
Lemma match_case : writes 10 "254" 254 /\ ~ leading_zero "254" /\ read_number "254" = 254 /\ read_number " 0xfE" = 254.
Proof.
  split; [|split; [intros [r H]; discriminate|split; reflexivity]].
  apply (W_more 10 "25" 25 "4" 4); [apply (W_more 10 "2" 2 "5" 5); [constructor; [|reflexivity]| |reflexivity]| |reflexivity]; repeat (first [left; reflexivity|right]).
Qed.
Lemma isa_case : read_isa "64I" = Some (Some 64, "I"%string) /\ read_isa "B" = Some (None, "B"%string).
Proof. split; vm_compute; reflexivity. Qed.
Lemma letter_case : read_isa "rv64IM" = Some (Some 64, "I"%string) /\ read_isa "64i" = None.
Proof. split; vm_compute; reflexivity. Qed.
