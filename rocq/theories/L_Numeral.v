(** Lemmas: texts as numbers (C55). *)
From Coq Require Import Ascii NArith List Bool String Lia ZifyBool ZifyN.
From Verif Require Import M_Base M_Override M_Text S_Override S_Text S_Numeral L_Override L_Text.
Import ListNotations.
Local Open Scope N_scope.

Lemma digit_back b c d : digit_in b c = Some d -> In (c, d) digits /\ d < b.
Proof.
  unfold digit_in. destruct (digit_val c) as [k|] eqn:E; [|discriminate]. destruct (k <? b) eqn:L; [|discriminate]. intros [= ->]. split; [|lia].
  destruct c as [[] [] [] [] [] [] [] []]; vm_compute in E; try discriminate; injection E as <-; cbn; tauto.
Qed.
Lemma digit_fun c d d' : In (c, d) digits -> In (c, d') digits -> d = d'.
Proof. intros A B. apply digit_ok in A as [A _]. apply digit_ok in B as [B _]. congruence. Qed.

(** The digits in front of a text. *)
Lemma digits_stop b r acc : (forall c r' d, r = String c r' -> In (c, d) digits -> b <= d) -> digits_from b r acc = acc.
Proof.
  intros H. destruct r as [|c r]; [reflexivity|]. cbn [digits_from]. destruct (digit_in b c) as [d|] eqn:E; [|reflexivity].
  apply digit_back in E as [E1 E2]. specialize (H c r d eq_refl E1). lia.
Qed.
Lemma leads_value b t n : leads b t n -> magnitude b t = Some n.
Proof.
  intros (s & r & -> & W & H). unfold magnitude. pose proof (writes_starts b s n W) as S. pose proof (writes_all b s n W) as [A NE].
  assert (starts_digit b (s ++ r) = true) as -> by (destruct s as [|c s]; [congruence|exact S]).
  rewrite digits_app by exact A. rewrite (writes_value b s n W). f_equal. now apply digits_stop.
Qed.
Lemma leads_exists_acc b t : forall s n, writes b s n -> exists s' r, t = (s' ++ r)%string /\ (s' = ""%string \/ True) /\
  writes b (s ++ s') (digits_from b t n) /\ forall c r' d, r = String c r' -> In (c, d) digits -> b <= d.
Proof.
  induction t as [|c t IH]; intros s n W; cbn [digits_from].
  - exists ""%string, ""%string. split; [reflexivity|]. split; [now left|]. rewrite app_e. split; [exact W|]. discriminate.
  - destruct (digit_in b c) as [d|] eqn:E.
    + apply digit_back in E as [E1 E2]. destruct (IH (s ++ String c "")%string (n * b + d) (W_more b s n c d W E1 E2)) as (s' & r & -> & _ & W' & H).
      exists (String c s'), r. split; [reflexivity|]. split; [now right|]. split; [|exact H].
      replace (s ++ String c s')%string with ((s ++ String c "") ++ s')%string; [exact W'|].
      clear. induction s as [|x s IH]; cbn; [reflexivity|]. now rewrite IH.
    + exists ""%string, (String c t). split; [reflexivity|]. split; [now left|]. rewrite app_e. split; [exact W|].
      intros c' r' d [= <- <-] D. destruct (N.le_gt_cases b d) as [L|L]; [exact L|]. rewrite (digit_in_ok b c d D L) in E. discriminate.
Qed.
Lemma leads_exists b t n : magnitude b t = Some n -> leads b t n.
Proof.
  unfold magnitude. destruct t as [|c t]; cbn [starts_digit]; [discriminate|]. destruct (digit_in b c) as [d|] eqn:E; [|discriminate].
  intros [= <-]. cbn [digits_from]. rewrite E. pose proof E as E'. apply digit_back in E as [E1 E2].
  destruct (leads_exists_acc b t (String c "") d (W_one b c d E1 E2)) as (s & r & -> & _ & W & H).
  exists (String c s), r. split; [reflexivity|]. split; [|exact H]. cbn [append] in W. now replace (0 * b + d) with d by lia.
Qed.
Lemma leads_iff b t n : leads b t n <-> magnitude b t = Some n.
Proof. split; [apply leads_value|apply leads_exists]. Qed.
Lemma starts_iff b t : starts_digit b t = true <-> exists n, magnitude b t = Some n.
Proof. unfold magnitude. destruct (starts_digit b t); split; eauto; [discriminate|]. intros [? [=]]. Qed.
Lemma hex_prefix_iff t n : leads_0x t n <-> exists r, hex_prefix t = Some r /\ magnitude 16 r = Some n.
Proof.
  split.
  - intros (p & u & P & -> & L). apply leads_value in L. exists u. split; [|exact L].
    assert (starts_digit 16 u = true) as S by (apply starts_iff; eauto).
    destruct P as [<-|[<-|[]]]; cbn [append hex_prefix]; rewrite S; reflexivity.
  - intros (r & P & M). apply leads_exists in M. destruct t as [|z [|x t]]; cbn [hex_prefix] in P; try discriminate.
    destruct (Ascii.eqb_spec z "0") as [->|]; [|discriminate]. cbn [andb] in P.
    destruct (Ascii.eqb_spec x "x") as [->|].
    + destruct (starts_digit 16 t); [|discriminate]. injection P as ->. exists "0x"%string, r. split; [now left|]. split; [reflexivity|exact M].
    + destruct (Ascii.eqb_spec x "X") as [->|]; [|discriminate]. destruct (starts_digit 16 t); [|discriminate]. injection P as ->.
      exists "0X"%string, r. split; [right; now left|]. split; [reflexivity|exact M].
Qed.
Lemma hex_prefix_starts t r : hex_prefix t = Some r -> exists n, magnitude 16 r = Some n.
Proof.
  destruct t as [|z [|x t]]; cbn [hex_prefix]; try discriminate. destruct (_ && _) eqn:E; [|discriminate]. intros [= <-].
  apply andb_true_iff in E as [_ E]. now apply starts_iff.
Qed.
Lemma no_0x t : hex_prefix t = None <-> forall m, ~ leads_0x t m.
Proof.
  split.
  - intros H m L. apply hex_prefix_iff in L as (r & E & _). congruence.
  - intros H. destruct (hex_prefix t) as [r|] eqn:E; [|reflexivity]. destruct (hex_prefix_starts t r E) as [n M]. exfalso. apply (H n), hex_prefix_iff. eauto.
Qed.
Definition mag_hex (u : string) : option N := magnitude 16 (match hex_prefix u with Some r => r | None => u end).
Definition mag_any (u : string) : option N :=
  match hex_prefix u with
  | Some r => magnitude 16 r
  | None => match u with String c _ => if Ascii.eqb c "0" then magnitude 8 u else magnitude 10 u | EmptyString => None end
  end.
Lemma mag_hex_iff u n : hexadecimal u n <-> mag_hex u = Some n.
Proof.
  unfold hexadecimal, mag_hex. rewrite hex_prefix_iff, <- no_0x, leads_iff. destruct (hex_prefix u) as [r|] eqn:E.
  - split; [intros [(r' & [= <-] & M)|[[=] _]]; exact M|]. intros M. left. eauto.
  - split; [intros [(r' & [=] & M)|[_ M]]; exact M|]. intros M. right. auto.
Qed.
Lemma mag_any_iff u n : any_base u n <-> mag_any u = Some n.
Proof.
  unfold any_base, mag_any. rewrite hex_prefix_iff, <- no_0x, !leads_iff. destruct (hex_prefix u) as [r|] eqn:E.
  - split; [intros [(r' & [= <-] & M)|[[=] _]]; exact M|]. intros M. left. eauto.
  - destruct u as [|c u].
    + split; [|discriminate]. intros [(r' & [=] & M)|[_ [[[? [=]] _]|[_ M]]]]. exact M.
    + assert (Z : leading_zero (String c u) <-> c = "0"%char) by (split; [intros [r [= ->]]; reflexivity|intros ->; now exists u]).
      rewrite Z. destruct (Ascii.eqb_spec c "0") as [->|NE].
      * split; [intros [(r' & [=] & M)|[_ [[_ M]|[Q _]]]]; [exact M|congruence]|]. intros M. right. auto.
      * split; [intros [(r' & [=] & M)|[_ [[Q M]|[_ M]]]]; [congruence|exact M]|]. intros M. right. auto.
Qed.
(** Signs and blanks. *)
Lemma sign_first c r : ~ space c -> ltrim (String c r) = String c r.
Proof. intros S. apply ltrim_same. intros d q [= <- <-]. exact S. Qed.
Lemma parts_read t minus u : parts t minus u -> signed (ltrim t) = (minus, u).
Proof.
  intros (w & B & [[-> ->]|[[-> ->]|[-> [-> H]]]]); rewrite ltrim_blank by exact B.
  - reflexivity.
  - reflexivity.
  - destruct u as [|c u]; [reflexivity|]. destruct (H c u eq_refl) as (S & M & P). rewrite (sign_first c u S). cbn [signed].
    apply Ascii.eqb_neq in M, P. now rewrite M, P.
Qed.
Lemma parts_exist t : exists minus u, parts t minus u.
Proof.
  destruct (ltrim_spec t) as (F & w & B & E). destruct (ltrim t) as [|c r] eqn:L.
  - exists false, ""%string. exists w. split; [exact B|]. right. right. split; [exact E|]. split; [reflexivity|]. discriminate.
  - destruct (Ascii.eqb_spec c "-") as [->|M]; [exists true, r, w; split; [exact B|]; left; auto|].
    destruct (Ascii.eqb_spec c "+") as [->|P]; [exists false, r, w; split; [exact B|]; right; left; auto|].
    exists false, (String c r), w. split; [exact B|]. right. right. split; [exact E|]. split; [reflexivity|]. intros c' r' [= <- <-]. split; [exact (F c r eq_refl)|]. auto.
Qed.

Lemma number_lemma t minus u : parts t minus u ->
  (forall n, any_base u n -> read_number t = if 2 ^ 64 <=? n then 2 ^ 64 - 1 else if minus then (2 ^ 64 - n) mod 2 ^ 64 else n) /\
  ((forall n, ~ any_base u n) -> read_number t = 0).
Proof.
  intros P. unfold read_number. rewrite (parts_read _ _ _ P). fold (mag_any u). split.
  - intros n H. apply mag_any_iff in H. now rewrite H.
  - intros H. destruct (mag_any u) as [n|] eqn:E; [|reflexivity]. exfalso. now apply (H n), mag_any_iff.
Qed.
Lemma hexnum_lemma t minus u : parts t minus u ->
  (forall n, hexadecimal u n -> read_stencil t =
     if minus then if n <=? 2 ^ 63 then Num ((2 ^ 64 - n) mod 2 ^ 64) else Range else if n <? 2 ^ 63 then Num n else Range) /\
  ((forall n, ~ hexadecimal u n) -> read_stencil t = Invalid).
Proof.
  intros P. unfold read_stencil. rewrite (parts_read _ _ _ P). fold (mag_hex u). split.
  - intros n H. apply mag_hex_iff in H. now rewrite H.
  - intros H. destruct (mag_hex u) as [n|] eqn:E; [|reflexivity]. exfalso. now apply (H n), mag_hex_iff.
Qed.
Lemma number_case : parts " -017 " true "017 " /\ any_base "017 " 15 /\ read_number " -017 " = 2 ^ 64 - 15 /\
  parts "+19z" false "19z" /\ any_base "19z" 19 /\ read_number "+19z" = 19 /\ any_base "0xg" 0 /\ (forall n, ~ any_base "z" n) /\ read_number "z" = 0 /\
  read_number "18446744073709551616" = 2 ^ 64 - 1 /\ read_number "08" = 0.
Proof.
  assert (SP : blank " ") by (intros c [<-|[]]; apply isspace_iff; reflexivity).
  split; [exists " "%string; split; [exact SP|left; auto]|]. split; [apply mag_any_iff; reflexivity|]. split; [reflexivity|].
  split; [exists ""%string; split; [intros c []|right; left; auto]|]. split; [apply mag_any_iff; reflexivity|]. split; [reflexivity|].
  split; [apply mag_any_iff; reflexivity|]. split; [intros n H; apply mag_any_iff in H; discriminate H|]. repeat split; reflexivity.
Qed.
Lemma hexnum_case : parts "-33" true "33" /\ hexadecimal "33" 0x33 /\ read_stencil "-33" = Num (2 ^ 64 - 0x33) /\
  hexadecimal "0x7fz" 0x7f /\ read_stencil "0x7fz" = Num 0x7f /\ hexadecimal "0xz" 0 /\ (forall n, ~ hexadecimal "x7" n) /\ read_stencil "x7" = Invalid.
Proof.
  split; [exists ""%string; split; [intros c []|left; auto]|]. split; [apply mag_hex_iff; reflexivity|]. split; [reflexivity|].
  split; [apply mag_hex_iff; reflexivity|]. split; [reflexivity|]. split; [apply mag_hex_iff; reflexivity|].
  split; [intros n H; apply mag_hex_iff in H; discriminate H|reflexivity].
Qed.
