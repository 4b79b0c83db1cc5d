(** The shipped tables: checks by computation, and tables made from parts of them. *)
From Coq Require Import NArith ZArith Arith List Bool String Lia Permutation.
From Verif Require Import M_Base M_Field M_Forms M_Meta M_OperandInfo M_Extract M_Decoded M_Trie M_Builder M_DTable M_Raw.
From Verif Require Import S_Bits S_Trie S_Agree S_Table S_Shipped L_Trie L_Table L_Check L_Decode L_Total L_Readable.
Import ListNotations.
Local Open Scope N_scope.

(** ** Parts of a table *)
Lemma subseq_refl {A} (l : list A) : subseq l l.
Proof. induction l; constructor; auto. Qed.
Lemma subseq_trans {A} (l2 l3 : list A) : subseq l2 l3 -> forall l1, subseq l1 l2 -> subseq l1 l3.
Proof.
  induction 1 as [|a l l' S IH|a l l' S IH]; intros l1 H; [auto| |constructor; auto].
  inversion H; subst; constructor; auto.
Qed.
Lemma subseq_filter {A} (p : A -> bool) l : subseq (filter p l) l.
Proof. induction l as [|a l IH]; cbn; [constructor|]. destruct (p a); constructor; auto. Qed.
Lemma subseq_in {A} (l l' : list A) : subseq l l' -> forall a, In a l -> In a l'.
Proof. induction 1; cbn; intuition. Qed.
Lemma subseq_app {A} (l1 l1' l2 l2' : list A) : subseq l1 l1' -> subseq l2 l2' -> subseq (l1 ++ l2) (l1' ++ l2').
Proof. induction 1; cbn; intros; try constructor; auto. Qed.
Lemma subseq_nil {A} (l : list A) : subseq [] l.
Proof. induction l; constructor; auto. Qed.
Lemma subseq_encodings l l' : subseq l l' -> subseq (encodings l) (encodings l').
Proof.
  unfold encodings. induction 1 as [|a l l' S IH|a l l' S IH]; cbn [flat_map]; [constructor| |].
  - apply subseq_app; auto using subseq_refl.
  - change (flat_map rec_encs l) with ([] ++ flat_map rec_encs l)%list. apply subseq_app; auto using subseq_nil.
Qed.
Lemma FOP_sub {A} (R : A -> A -> Prop) l l' : subseq l l' -> ForallOrdPairs R l' -> ForallOrdPairs R l.
Proof.
  induction 1 as [|a l l' S IH|a l l' S IH]; intros H; [auto| |]; inversion H; subst; [constructor|]; auto.
  rewrite Forall_forall in *. intros x Hx. eauto using subseq_in.
Qed.
Lemma well_formed_sub l l' : subseq l l' -> well_formed l' -> well_formed l.
Proof.
  intros S W. assert (SI : forall r, In r l -> In r l') by exact (subseq_in _ _ S).
  assert (SO : forall mn, sole l' mn -> sole l mn).
  { unfold sole. intros mn (H1 & H2 & H3). split; [auto|]. split; intros r Hr; [apply H2|apply H3]; auto. }
  constructor.
  - eapply FOP_sub; [apply subseq_encodings; eauto|apply W].
  - eapply FOP_sub; [apply subseq_encodings; eauto|apply W].
  - intros r mn Hr Hi EX. destruct (wf_meta _ W r mn (SI _ Hr) Hi EX) as ((H1 & H2) & H3). split; [split; [auto|]|].
    + intros r0 H. apply H2; auto.
    + intros r0 mn0 H. apply H3; auto.
  - intros r mn Hr Hi EX. destruct (wf_expand _ W r mn (SI _ Hr) Hi EX) as (H1 & [H2|[H2 H3]]); (split; [auto|]); [left; auto|right].
    split; [auto|]. intros r0 H. apply H3; auto.
  - intros r mn base mask value Hr Ho. destruct (wf_base _ W _ _ _ _ _ (SI _ Hr) Ho). auto.
  - intros r r' mn mn' base mask mask' ic Hr Hr'. apply (wf_overlays _ W); auto.
Qed.
Lemma metas_sub l l' r m : (forall r, In r l -> In r l') -> inst_meta l r m -> In m (inst_metas l' r).
Proof.
  intros SI [(H1 & H2)|(H1 & m0 & m1 & H2 & H3 & ->)]; unfold inst_metas.
  - rewrite H2, H1. now left.
  - rewrite H3. apply String.eqb_neq in H1. rewrite H1. apply in_map_iff. exists m0. split; [auto|].
    destruct H2 as [(r0 & Q1 & Q2 & Q3)|(_ & D)].
    + apply expansion_metas_in. left. exists r0. auto.
    + unfold expansion_metas. apply in_or_app. right. destruct D as [[-> ->]|[-> ->]]; now left.
Qed.
Lemma readable_sub chk l l' ic : (forall c ffm m, chk c ffm m = true -> agree_cond c ffm m ic = true) ->
  (forall r, In r l -> In r l') -> readableb chk l' = true -> readable l ic.
Proof.
  intros CK SI H r e y L S D. unfold readableb in H. rewrite forallb_forall in H. specialize (H r (SI _ (proj1 L))).
  apply andb_true_iff in H as [H1 H2]. rewrite forallb_forall in H1, H2. destruct L as [Hr He]. specialize (H1 e He).
  assert (fx_mask e <> None) as F by (destruct (fx_mask e); discriminate).
  enough (exists c ffm, rd_x y = ext c ffm /\ exists n, In (n, c, ffm, rd_meta y) (readings l' r)) as (c & ffm & C1 & n & C2).
  { exists c, ffm. split; [auto|]. apply CK. exact (H2 _ C2). }
  destruct (listed_mn _ _ He) as (HI & _). apply instb_ok in HI. unfold readings. rewrite HI.
  destruct D as [((D1 & D2 & D3) & _)|(ro & mask & D1 & (D2 & (m0 & D3 & D3') & x & D4 & D5) & _)].
  - destruct (exts_in _ _ _ He F D3) as (c & C1 & C2). exists (fst c), (snd c). split; [exact C2|]. exists (en_mn e). apply in_or_app. left.
    apply in_flat_map. exists (rd_meta y). split; [eapply metas_sub; eauto|]. apply in_map_iff. eauto.
  - assert (exists c, In c (overlay_exts r ro) /\ rd_x y = ext (fst c) (snd c)) as (c & C1 & C2).
    { unfold overlay_extractor in D5. unfold overlay_exts. destruct (r_xform ro) as [n|].
      - destruct D5 as (c & D5 & D6). rewrite D5. exists (c, 0). split; [now left|exact D6].
      - rewrite D5. eapply exts_in; eauto. }
    exists (fst c), (snd c). split; [exact C2|]. exists (rd_mn y). apply in_or_app. right.
    apply in_flat_map. exists ro. split; [auto|]. rewrite (ovb_ok _ _ _ _ _ D2). destruct D2 as (D2 & _). rewrite D2, String.eqb_refl.
    apply in_flat_map. exists (rd_meta y). split; [|apply in_map_iff; eauto].
    unfold overlay_metas. rewrite D3, D3'. now left.
Qed.

(** ** Every listed mnemonic is decoded from some opcode *)
Definition nudges : list N := [0; 128; 4; 2 ^ 20; 2 ^ 15; 2 ^ 15 + 2 ^ 20; 64; 2 ^ 12; 132].
Definition hit (s : builder * tree) (mn : string) (ic : N) : bool :=
  match pure_info (fst s) (snd s) ic with Ok v => String.eqb (d_mnemonic (i_di v)) mn | _ => false end.
Definition reach (s : builder * tree) (r : irec) : bool :=
  match r_mn r with
  | None => true
  | Some mn =>
      match r_overlay r with
      | None => existsb (fun c => hit s mn (N.lor (r_stencil r) c)) nudges
      | Some o =>
          match jo_match o, jo_base o with
          | Some [m; v], Some b =>
              match get_opcode s b with
              | Ok st => existsb (fun c => hit s mn (N.lor (N.lor st v) c)) nudges
              | _ => false
              end
          | _, _ => false
          end
      end
  end.
Definition loadsb (recs : list irec) : bool :=
  match make_decoder [] [] 1 [] [] recs with Ok s => forallb (reach s) recs | _ => false end.
Lemma loadsb_ok recs : loadsb recs = true -> exists s, make_decoder [] [] 1 [] [] recs = Ok s /\
  forall A U r mn, In r recs -> r_mn r = Some mn -> exists ic v, decode (A := A) (U := U) s ic = Ok v /\ d_mnemonic (i_di v) = mn.
Proof.
  unfold loadsb. destruct (make_decoder _ _ _ _ _ _) as [s| | |]; try discriminate. intros H. exists s. split; [reflexivity|].
  rewrite forallb_forall in H. intros A U r mn Hr Hm. specialize (H r Hr). unfold reach in H. rewrite Hm in H.
  assert (HT : forall ic, hit s mn ic = true -> exists ic v, decode (A := A) (U := U) s ic = Ok v /\ d_mnemonic (i_di v) = mn).
  { intros ic. unfold hit. destruct (pure_info _ _ _) as [v| | |] eqn:E; try discriminate. intros Q. exists ic, v.
    rewrite decode_pure. split; [exact E|now apply String.eqb_eq]. }
  destruct (r_overlay r) as [o|].
  - destruct (jo_match o) as [[|m [|v [|? ?]]]|]; try discriminate. destruct (jo_base o); [|discriminate].
    destruct (get_opcode _ _); try discriminate. apply existsb_exists in H as (c & _ & H). eauto.
  - apply existsb_exists in H as (c & _ & H). eauto.
Qed.

(** ** The shipped tables *)
Lemma rv64_wf : well_formed rv64.
Proof. apply well_formedb_ok. vm_compute. reflexivity. Qed.
Lemma rv32f_wf : well_formed rv32f.
Proof. apply well_formedb_ok. vm_compute. reflexivity. Qed.
Lemma rv32p_wf : well_formed rv32p.
Proof. apply well_formedb_ok. vm_compute. reflexivity. Qed.
Lemma rv64_loads : loadsb rv64 = true.
Proof. vm_compute. reflexivity. Qed.
Lemma rv32f_loads : loadsb rv32f = true.
Proof. vm_compute. reflexivity. Qed.
Lemma rv32p_loads : loadsb rv32p = true.
Proof. vm_compute. reflexivity. Qed.
Lemma rv64_readable : readableb always rv64 = true.
Proof. vm_compute. reflexivity. Qed.
Lemma rv32f_readable : readableb always rv32f = true.
Proof. vm_compute. reflexivity. Qed.
Lemma rv32p_readable : readableb mostly rv32p = true.
Proof. vm_compute. reflexivity. Qed.

(** ** The order of the records of a shipped table *)
(** Every pair of encodings can be told apart in both orders, but for one pair of mnemonics. *)
Definition swappable (first second : string) (e e' : enc) : Prop :=
  (clear e e' /\ clear e' e) \/ (en_mn e = first /\ en_mn e' = second /\ clear e e') \/
  (en_mn e = second /\ en_mn e' = first /\ clear e' e).
Definition swappableb (first second : string) (p q : prep * string) : bool :=
  if clearp (fst p) (fst q) then
    if clearp (fst q) (fst p) then true else if String.eqb (snd p) first then String.eqb (snd q) second else false
  else false.
Definition swapsb (first second : string) (E : list enc) : bool :=
  if enc_oks E then fop (swappableb first second) (map (fun e => (prep_of e, en_mn e)) E) else false.
Lemma swapsb_ok first second E : swapsb first second E = true -> ForallOrdPairs (swappable first second) E.
Proof.
  unfold swapsb. destruct (enc_oks E) eqn:EO; [|discriminate]. intros H.
  set (R := fun e e' => swappableb first second (prep_of e, en_mn e) (prep_of e', en_mn e')).
  apply (fop_ok R _ enc_ok); [|now apply enc_oks_ok|exact (fop_map (swappableb first second) R (fun e => (prep_of e, en_mn e)) E (fun a b q => q) H)].
  intros a b Ca Cb. unfold R, swappableb. cbn [fst snd].
  destruct (clearp (prep_of a) (prep_of b)) eqn:C1; [|discriminate]. apply clearp_ok, clearb_ok in C1; auto.
  destruct (clearp (prep_of b) (prep_of a)) eqn:C2; [apply clearp_ok, clearb_ok in C2; auto; left; auto|].
  destruct (String.eqb_spec (en_mn a) first) as [E1|]; [|discriminate]. intros E2. apply String.eqb_eq in E2. right. left. auto.
Qed.
Lemma swaps_separated first second E E' : Permutation E E' -> ForallOrdPairs (swappable first second) E ->
  ForallOrdPairs (fun e e' => ~ (en_mn e = second /\ en_mn e' = first)) E' -> separated E'.
Proof.
  intros P H. assert (H' : ForallOrdPairs (swappable first second) E').
  { eapply FOP_perm; [|exact P|exact H]. unfold swappable. intros a b. tauto. }
  clear P H E. induction H' as [|a l F T IH]; intros O; [constructor|]. inversion O as [|? ? F' T']; subst.
  constructor; [|apply IH; auto]. rewrite Forall_forall in *. intros b Hb. specialize (F b Hb). specialize (F' b Hb).
  unfold swappable in F. tauto.
Qed.
Lemma rv64_swaps : swapsb "c.jalr" "c.ebreak" (encodings rv64) = true.
Proof. vm_compute. reflexivity. Qed.
Lemma rv32f_swaps : swapsb "c.jalr" "c.ebreak" (encodings rv32f) = true.
Proof. vm_compute. reflexivity. Qed.
Lemma rv32p_swaps : swapsb "c.jalr" "c.ebreak" (encodings rv32p) = true.
Proof. vm_compute. reflexivity. Qed.
