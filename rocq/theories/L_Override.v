(** Lemmas: the text of annotation overrides. *)
From Coq Require Import Ascii List Bool String.
From Verif Require Import M_Base M_Registry M_Builder M_Override.
From Verif Require Import S_Table S_Anno S_Override L_Anno.
Import ListNotations.
Local Open Scope string_scope.

(** ** Strings *)
Lemma app_e s : s ++ "" = s.
Proof. induction s as [|c s IH]; cbn; [reflexivity|]. now rewrite IH. Qed.
Lemma app_a x y z : (x ++ y) ++ z = x ++ (y ++ z).
Proof. induction x as [|c x IH]; cbn; [reflexivity|]. now rewrite IH. Qed.
Lemma letters_app x y : letters (x ++ y) = (letters x ++ letters y)%list.
Proof. induction x as [|c x IH]; cbn; [reflexivity|]. now rewrite IH. Qed.
Lemma isspace_iff c : isspace c = true <-> space c.
Proof.
  unfold isspace, space. rewrite existsb_exists. split.
  - intros (d & I1 & E). apply Ascii.eqb_eq in E. now subst.
  - intros H. exists c. split; [exact H|apply Ascii.eqb_refl].
Qed.
Lemma isspace_not c : isspace c = false <-> ~ space c.
Proof. rewrite <- isspace_iff. destruct (isspace c); intuition congruence. Qed.
Lemma blank_cons c s : blank (String c s) <-> space c /\ blank s.
Proof. unfold blank. cbn. split; [intros H; split; [apply H; now left|intros d D; apply H; now right]|intros [H1 H2] d [<-|D]; auto]. Qed.
Lemma blank_app x y : blank x -> blank y -> blank (x ++ y).
Proof. intros H1 H2 c. rewrite letters_app, in_app_iff. intros [H|H]; auto. Qed.
Lemma blank_nil : blank "".
Proof. intros c []. Qed.
Definition first_ok (s : string) : Prop := forall c r, s = String c r -> ~ space c.
Definition last_ok (s : string) : Prop := forall c r, s = r ++ String c "" -> ~ space c.

(** ** Trimming *)
Lemma ltrim_spec s : first_ok (ltrim s) /\ exists x, blank x /\ s = x ++ ltrim s.
Proof.
  induction s as [|c s [IH (x & B & E)]]; cbn [ltrim].
  - split; [intros c r; discriminate|]. exists "". split; [exact blank_nil|reflexivity].
  - destruct (isspace c) eqn:S.
    + split; [exact IH|]. exists (String c x). split; [apply blank_cons; split; [now apply isspace_iff|exact B]|]. cbn. now rewrite <- E.
    + split; [|exists ""; split; [exact blank_nil|reflexivity]]. intros d r [= <- <-]. now apply isspace_not.
Qed.
Lemma rtrim_spec s : last_ok (rtrim s) /\ (first_ok s -> first_ok (rtrim s)) /\ exists y, blank y /\ s = rtrim s ++ y.
Proof.
  induction s as [|c s (IH & _ & y & B & E)]; cbn [rtrim].
  - split; [intros c r; destruct r; discriminate|]. split; [auto|]. exists "". split; [exact blank_nil|reflexivity].
  - destruct (rtrim s) as [|d t] eqn:R.
    + destruct (isspace c) eqn:S.
      * split; [intros d r; destruct r; discriminate|]. split; [intros _ d r; discriminate|]. exists (String c s). split; [|reflexivity].
        apply blank_cons. split; [now apply isspace_iff|]. cbn in E. now rewrite E.
      * split; [|split; [|exists y; split; [exact B|]; cbn; now rewrite E]].
        -- intros d r H. destruct r as [|e r]; cbn in H; [|destruct r; discriminate]. injection H as <-. now apply isspace_not.
        -- intros _ d r [= <- <-]. now apply isspace_not.
    + split; [|split; [|exists y; split; [exact B|]; cbn in *; now rewrite E]].
      * intros e r H. destruct r as [|e' r]; cbn in H; [discriminate|]. injection H as _ H. exact (IH e r H).
      * intros F e r [= <- <-]. exact (F c s eq_refl).
Qed.
Lemma word_trim t : word t (ws_trim t).
Proof.
  unfold ws_trim. destruct (ltrim_spec t) as (F & x & BX & EX). destruct (rtrim_spec (ltrim t)) as (L & F' & y & BY & EY).
  split; [split; [exact (F' F)|exact L]|]. exists x, y. split; [exact BX|]. split; [exact BY|]. now rewrite <- EY.
Qed.
Lemma ltrim_blank x s : blank x -> ltrim (x ++ s) = ltrim s.
Proof.
  induction x as [|c x IH]; cbn [append ltrim]; [reflexivity|]. intros H. apply blank_cons in H as [H1 H2]. apply isspace_iff in H1. rewrite H1. now apply IH.
Qed.
Lemma rtrim_blank s y : blank y -> rtrim (s ++ y) = rtrim s.
Proof.
  intros H. induction s as [|c s IH].
  - cbn. induction y as [|c y IH]; [reflexivity|]. apply blank_cons in H as [H1 H2]. cbn [rtrim]. rewrite IH by exact H2. apply isspace_iff in H1. now rewrite H1.
  - cbn. now rewrite IH.
Qed.
Lemma rtrim_same s : last_ok s -> rtrim s = s.
Proof.
  induction s as [|c s IH]; [reflexivity|]. intros L. cbn [rtrim]. rewrite IH.
  - destruct s; [|reflexivity]. specialize (L c "" eq_refl). apply isspace_not in L. now rewrite L.
  - intros d r ->. exact (L d (String c r) eq_refl).
Qed.
Lemma ltrim_same s : first_ok s -> ltrim s = s.
Proof. destruct s as [|c s]; [reflexivity|]. intros F. specialize (F c s eq_refl). apply isspace_not in F. cbn [ltrim]. now rewrite F. Qed.
Lemma word_unique t w : word t w -> w = ws_trim t.
Proof.
  intros [[F L] (x & y & BX & BY & ->)]. unfold ws_trim. rewrite ltrim_blank by exact BX. destruct w as [|c w].
  - cbn. rewrite <- (app_e y), ltrim_blank by exact BY. reflexivity.
  - rewrite ltrim_same.
    + rewrite rtrim_blank by exact BY. symmetry. now apply rtrim_same.
    + intros d r [= <- _]. exact (F c w eq_refl).
Qed.
Lemma word_grow x t y w : blank x -> blank y -> word t w -> word (x ++ t ++ y) w.
Proof.
  intros BX BY [T (u & v & BU & BV & ->)]. split; [exact T|]. exists (x ++ u), (v ++ y). split; [now apply blank_app|]. split; [now apply blank_app|].
  now rewrite !app_a.
Qed.

(** ** Splitting *)
Lemma split_some s a b : split_colon s = Some (a, b) <-> s = a ++ ":" ++ b /\ ~ In ":"%char (letters a).
Proof.
  revert a b. induction s as [|c s IH]; intros a b; cbn [split_colon].
  - split; [discriminate|]. intros [H _]. destruct a; discriminate.
  - destruct (Ascii.eqb c ":") eqn:C.
    + apply Ascii.eqb_eq in C. subst c. split.
      * intros [= <- <-]. split; [reflexivity|]. intros [].
      * intros [H N]. destruct a as [|d a]; cbn in H; [injection H as <-; reflexivity|]. injection H as <- _. exfalso. apply N. now left.
    + apply Ascii.eqb_neq in C. destruct (split_colon s) as [[a' b']|].
      * split.
        -- intros [= <- <-]. destruct (proj1 (IH a' b') eq_refl) as [-> N]. split; [reflexivity|]. cbn. intros [H|H]; [congruence|tauto].
        -- intros [H N]. destruct a as [|d a]; cbn in H; injection H as -> H; [congruence|].
           enough (Q : Some (a', b') = Some (a, b)) by (injection Q as -> ->; reflexivity). apply (proj2 (IH a b)). split; [exact H|]. intros H'. apply N. now right.
      * split; [discriminate|]. intros [H N]. destruct a as [|d a]; cbn in H; injection H as -> H; [congruence|].
        enough (Q : None = Some (a, b)) by discriminate Q. apply (proj2 (IH a b)). split; [exact H|]. intros H'. apply N. now right.
Qed.
Lemma split_none s : split_colon s = None -> ~ In ":"%char (letters s).
Proof.
  induction s as [|c s IH]; cbn; [tauto|]. destruct (Ascii.eqb c ":") eqn:C; [discriminate|]. apply Ascii.eqb_neq in C.
  destruct (split_colon s) as [[]|]; [discriminate|]. intros _ [H|H]; [congruence|]. now apply IH.
Qed.
Lemma colon_not_blank s : blank s -> ~ In ":"%char (letters s).
Proof. intros B H. apply B in H. cbn in H. intuition discriminate. Qed.
Lemma binding_iff t a v : binding t a v <->
  exists n w, split_colon (ws_trim t) = Some (n, w) /\ a = ws_trim n /\ v = ws_trim w /\ a <> "" /\ v <> "".
Proof.
  destruct (word_trim t) as [T (x & y & BX & BY & E)]. split.
  - intros (l & r & Et & NC & WL & WR & NA & NV). destruct (split_colon (ws_trim t)) as [[n w]|] eqn:S.
    + apply split_some in S as [S NC']. exists n, w. split; [reflexivity|].
      assert (X : split_colon t = Some (l, r)) by (apply split_some; auto).
      assert (Y : split_colon t = Some (x ++ n, w ++ y)).
      { apply split_some. split; [rewrite E at 1; rewrite S, !app_a; cbn; reflexivity|]. rewrite letters_app, in_app_iff. intros [H|H]; [now apply colon_not_blank in H|tauto]. }
      rewrite X in Y. injection Y as -> ->. split; [|split; [|auto]].
      * apply word_unique in WL. rewrite WL. symmetry. apply word_unique. rewrite <- (app_e n) at 1. apply word_grow; [exact BX|exact blank_nil|]. apply word_trim.
      * apply word_unique in WR. rewrite WR. symmetry. apply word_unique. change (w ++ y) with ("" ++ w ++ y). apply word_grow; [exact blank_nil|exact BY|]. apply word_trim.
    + exfalso. apply split_none in S. assert (H : In ":"%char (letters t)) by (rewrite Et, letters_app; cbn; apply in_app_iff; right; now left).
      rewrite E, !letters_app, !in_app_iff in H. destruct H as [H|[H|H]]; [now apply colon_not_blank in H|tauto|now apply colon_not_blank in H].
  - intros (n & w & S & -> & -> & NA & NV). apply split_some in S as [S NC]. exists (x ++ n), (w ++ y).
    split; [rewrite E at 1; rewrite S, !app_a; cbn; reflexivity|].
    split; [rewrite letters_app, in_app_iff; intros [H|H]; [now apply colon_not_blank in H|tauto]|].
    split; [rewrite <- (app_e n) at 1; apply word_grow; [exact BX|exact blank_nil|apply word_trim]|].
    split; [change (w ++ y) with ("" ++ w ++ y); apply word_grow; [exact blank_nil|exact BY|apply word_trim]|]. auto.
Qed.
Lemma says_unique p mn a v mn' a' v' : says p mn a v -> says p mn' a' v' -> mn = mn' /\ a = a' /\ v = v'.
Proof.
  intros [W B] [W' B']. apply word_unique in W, W'. split; [congruence|]. apply binding_iff in B as (n & w & S & -> & -> & _), B' as (n' & w' & S' & -> & -> & _).
  rewrite S in S'. injection S' as -> ->. auto.
Qed.

(** ** Reading *)
Section Reading.
Context (json : string -> option string).
Lemma read_spec p :
  match read_override json p with
  | Made t => means json p t
  | ParseError => exists mn a v, says p mn a v /\ json v = None
  | Stopped => forall mn a v, ~ says p mn a v
  | _ => False
  end.
Proof.
  unfold read_override. cbv zeta. pose proof (word_trim (fst p)) as W. pose proof (binding_iff (snd p)) as B.
  destruct (split_colon (ws_trim (snd p))) as [[n w]|] eqn:S.
  - destruct (String.eqb (ws_trim n) "" || String.eqb (ws_trim w) "") eqn:E.
    + intros mn a v [_ H]. apply B in H as (n' & w' & Q & -> & -> & NA & NV). injection Q as <- <-.
      apply orb_true_iff in E as [E|E]; apply String.eqb_eq in E; congruence.
    + apply orb_false_iff in E as [E1 E2]. apply String.eqb_neq in E1, E2.
      assert (H : says p (ws_trim (fst p)) (ws_trim n) (ws_trim w)) by (split; [exact W|]; apply B; exists n, w; auto 6).
      destruct (json (ws_trim w)) as [j|] eqn:J; [exists (ws_trim w); auto|eauto 6].
  - intros mn a v [_ H]. apply B in H as (n' & w' & Q & _). discriminate.
Qed.
Lemma read_all l :
  match read_overrides json l with
  | Made ts => Forall2 (means json) l ts
  | ParseError | Stopped => ~ Forall (usable json) l
  | _ => False
  end.
Proof.
  induction l as [|p l IH]; cbn [read_overrides]; [constructor|]. pose proof (read_spec p) as R.
  assert (U : forall mn a v, says p mn a v -> json v = None -> ~ usable json p).
  { intros mn a v H J (mn' & a' & v' & H' & J'). destruct (says_unique _ _ _ _ _ _ _ H H') as (_ & _ & ->). congruence. }
  destruct (read_override json p) as [t| | | |]; cbn [mbind]; try contradiction.
  - destruct (read_overrides json l) as [ts| | | |]; cbn [mbind]; try contradiction; [now constructor|inversion 1; auto..].
  - destruct R as (mn & a & v & H & J). inversion 1. eapply U; eauto.
  - inversion 1 as [|? ? (mn & a & v & H' & _)]. eapply R; eauto.
Qed.
Lemma means_usable p t : means json p t -> usable json p.
Proof. intros (v & H & J). exists (fst (fst t)), (snd (fst t)), v. split; [exact H|congruence]. Qed.
Lemma read_usable l : Forall (usable json) l -> exists ts, read_overrides json l = Made ts /\ Forall2 (means json) l ts.
Proof. intros H. pose proof (read_all l) as R. destruct (read_overrides json l) as [ts| | | |]; try contradiction. eauto. Qed.

(** ** Files *)
Lemma load_same ovs ts fs files reg : read_overrides json ovs = Made ts -> contents fs = Some files ->
  load_files json ovs fs reg = match anno_files ts files reg with Ok r => Made r | Throw e => Raised e | AssertFail | UB => Stopped end.
Proof.
  intros R. revert files reg. induction fs as [|[n d] fs IH]; intros files reg C; cbn [contents load_files] in *.
  - injection C as <-. reflexivity.
  - unfold load_file. cbn [fst snd]. destruct (String.eqb n ""); cbn [mbind]; [now apply IH|].
    destruct d as [| |recs]; [discriminate..|]. destruct (contents fs) as [l|]; [|discriminate]. injection C as <-. rewrite R. cbn [mbind].
    cbn [anno_files]. destruct (anno_file ts [] recs reg) as [reg'| | |]; cbn [mbind rbind]; [now apply IH|reflexivity..].
Qed.
Lemma load_fails ovs fs files reg : contents fs = Some files -> files <> [] ->
  match read_overrides json ovs with Made _ => True | ParseError => load_files json ovs fs reg = ParseError | Stopped => load_files json ovs fs reg = Stopped | _ => True end.
Proof.
  revert files. induction fs as [|[n d] fs IH]; intros files C NE; cbn [contents load_files] in *.
  - injection C as <-. congruence.
  - unfold load_file. cbn [fst snd]. destruct (String.eqb n ""); cbn [mbind]; [now apply (IH files)|].
    destruct d as [| |recs]; [discriminate..|]. destruct (read_overrides json ovs); cbn [mbind]; auto.
Qed.
End Reading.

(** ** Claims *)
Lemma accepted_lemma json ovs fs files : contents fs = Some files -> files <> [] ->
  ((exists reg, load_files json ovs fs [] = Made reg) <-> Forall (usable json) ovs /\ ~ repeats files).
Proof.
  intros C NE. pose proof (load_fails json ovs fs files [] C NE) as F. pose proof (read_all json ovs) as R. split.
  - intros [reg H]. destruct (read_overrides json ovs) as [ts| | | |] eqn:E; try contradiction; try congruence. split.
    + revert R. clear. induction 1; constructor; eauto using means_usable.
    + intros RP. rewrite (load_same json ovs ts fs files [] E C) in H. rewrite (proj1 (repeats_lemma ts files) RP) in H. discriminate.
  - intros [H NR]. destruct (read_usable json ovs H) as (ts & E & _). destruct (proj2 (repeats_lemma ts files) NR) as [reg Q].
    exists reg. rewrite (load_same json ovs ts fs files [] E C), Q. reflexivity.
Qed.
Lemma override_text_lemma json ovs fs files reg : contents fs = Some files -> files <> [] -> load_files json ovs fs [] = Made reg ->
  exists ts, Forall2 (means json) ovs ts /\ forall mn,
  match mfind reg mn with
  | None => ~ in_files files mn
  | Some x => in_files files mn /\ forall a, anno_attr a x = match override ts mn a with Some v => Some v | None => filed files mn a end
  end.
Proof.
  intros C NE H. pose proof (load_fails json ovs fs files [] C NE) as F. pose proof (read_all json ovs) as R.
  destruct (read_overrides json ovs) as [ts| | | |] eqn:E; try contradiction; try congruence. exists ts. split; [exact R|].
  rewrite (load_same json ovs ts fs files [] E C) in H. intros mn. destruct (anno_files ts files []) as [r| | |] eqn:A; try discriminate.
  injection H as <-. exact (attributes_lemma ts files r A mn).
Qed.
Lemma malformed_lemma json pre p rest fs files : contents fs = Some files -> files <> [] ->
  Forall (usable json) pre -> (forall mn a v, ~ says p mn a v) -> load_files json (pre ++ p :: rest)%list fs [] = Stopped.
Proof.
  intros C NE HU NS. pose proof (load_fails json (pre ++ p :: rest)%list fs files [] C NE) as F. 
  enough (E : read_overrides json (pre ++ p :: rest)%list = Stopped) by now rewrite E in F. clear C NE F.
  induction HU as [|q pre Q HU IH]; cbn [List.app read_overrides].
  - pose proof (read_spec json p) as R. destruct (read_override json p) as [t| | | |]; cbn [mbind]; try contradiction; [|now destruct R as (mn & a & v & H & _); exfalso; eapply NS; eauto|reflexivity].
    destruct R as (v & H & _). exfalso. eapply NS; eauto.
  - rewrite IH. pose proof (read_spec json q) as R. destruct (read_override json q) as [t| | | |]; cbn [mbind]; try contradiction; [reflexivity| |].
    + exfalso. destruct R as (mn & a & v & H & J), Q as (mn' & a' & v' & H' & J'). destruct (says_unique _ _ _ _ _ _ _ H H') as (_ & _ & ->). congruence.
    + exfalso. destruct Q as (mn' & a' & v' & H' & J'). eapply R; eauto.
Qed.
Lemma unread_lemma json ovs fs reg reg' : contents fs = None -> load_files json ovs fs reg <> Made reg'.
Proof.
  revert reg. induction fs as [|[n d] fs IH]; intros reg C; cbn [contents load_files] in *; [discriminate|].
  unfold load_file. cbn [fst snd]. destruct (String.eqb n ""); cbn [mbind]; [now apply IH|].
  destruct d as [| |recs]; cbn [mbind]; [discriminate..|]. destruct (contents fs); [discriminate|].
  destruct (read_overrides json ovs); cbn [mbind]; try discriminate. destruct (anno_file _ _ _ _); cbn [mbind]; try discriminate. now apply IH.
Qed.

(** ** Cases *)
Lemma says_case : says ("andn ", "pipelined : {""a"":1}") "andn" "pipelined" "{""a"":1}".
Proof. split; [exact (word_trim "andn ")|]. apply binding_iff. do 2 eexists. repeat split; [discriminate..]. Qed.
Definition some_texts : list (string * string) := [("andn", "unit:[0]"); ("andn", "pipelined: false"); (" andn", "unit:[1:2] "); ("srai", "x:1")].
Definition some_files : list (string * disk) := [("", NoFile); ("a.json", Holds [("andn", [("pipelined", "true")])])].
Lemma loads_case : exists reg x, contents some_files = Some [[("andn", [("pipelined", "true")])]] /\
  load_files Some some_texts some_files [] = Made reg /\
  mfind reg "andn" = Some x /\ anno_attr "pipelined" x = Some "false" /\ anno_attr "unit" x = Some "[1:2]".
Proof. do 2 eexists. repeat split; vm_compute; reflexivity. Qed.
Lemma malformed_case mn a v : ~ says ("andn", "pipelined=false") mn a v.
Proof. intros [_ H]. apply binding_iff in H as (n & w & S & _). discriminate. Qed.
Lemma no_file_lemma : exists p, (forall mn a v, ~ says p mn a v) /\
  forall json, load_files json [p] [] [] = Made [] /\ load_files json [p] [("", NoFile)] [] = Made [].
Proof. exists ("andn", "pipelined=false"). split; [exact malformed_case|]. split; reflexivity. Qed.
