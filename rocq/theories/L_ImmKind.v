(** Claim C73: the kind of an immediate. *)
From Coq Require Import NArith ZArith List Bool String Lia.
From Verif Require Import M_Base M_Field M_Forms M_Meta M_OperandInfo M_Extract M_Decoded M_Trie M_Builder M_DTable.
From Verif Require Import S_Bits S_Imm S_Table S_Shipped S_Manual S_Manual32 S_ImmKind.
From Verif Require Import L_Imm L_Decoded L_Table L_Check L_Decode L_Readable L_Claims L_Shipped L_Manual L_ManualClaims.
Import ListNotations.
Local Open Scope N_scope.

Lemma decode_info_immT n u x m ic d : decode_info n u x m ic = Ok d -> d_immT d = x_immT x.
Proof.
  unfold decode_info. intros H.
  repeat match type of H with (rbind ?a _) = Ok _ => destruct a; cbn [rbind] in H; try discriminate end.
  match type of H with Ok ?v = Ok d => assert (d = v) as -> by congruence end. reflexivity.
Qed.

(** ** Every table *)
Lemma unsigned_plain c ffm m ic n u d : ic < 2 ^ 64 -> decode_info n u (ext c ffm) m ic = Ok d ->
  d_immT d = ImmUnsigned -> d_soff d = Z.of_N (d_imm d).
Proof.
  intros B D K. pose proof (decode_info_immT _ _ _ _ _ _ D) as E. rewrite K in E.
  assert (P : c <> X_PF_hint) by (intros ->; discriminate E).
  pose proof (decoded_imm _ _ _ _ _ _ _ B D) as I. pose proof (decoded_offset _ _ _ _ _ _ _ P B D) as O.
  destruct c; try discriminate E; cbn [imm_table offset_of imm_of] in *; rewrite O, ?I; reflexivity.
Qed.

(** ** The shipped tables *)
Definition kind_eqb (a b : imm_type) : bool :=
  match a, b with ImmNone, ImmNone | ImmUnsigned, ImmUnsigned | ImmSigned, ImmSigned => true | _, _ => false end.
Lemma kind_eqb_ok a b : kind_eqb a b = true <-> a = b.
Proof. destruct a, b; cbn; split; intros; try reflexivity; discriminate. Qed.
Section Same.
Context (same : imm_type -> imm_type -> bool).
Definition kindsb (M : list minst) (odd pairs : list string) (recs : list irec) : bool :=
  forallb (fun r => forallb (fun e => match fx_mask e with Some _ => true | None => false end) (rec_encs r) &&
    forallb (fun q => let '(n, c, ffm, mt) := q in
      if mem n odd then true else
      if mem n pairs then same (x_immT (ext c ffm)) (kind_of_pair n) else
      forallb (fun m => if String.eqb (mi_name m) n then same (x_immT (ext c ffm)) (kind_of_imm (mi_imm m)) else true) M) (readings recs r)) recs.
Lemma kinds_sound M odd pairs recs recs' u ic v : kindsb M odd pairs recs = true ->
  (forall r, In r recs' -> In r recs) -> decodes recs' u ic (Ok v) -> ~ In (d_mnemonic (i_di v)) odd ->
  (In (d_mnemonic (i_di v)) pairs -> same (d_immT (i_di v)) (kind_of_pair (d_mnemonic (i_di v))) = true) /\
  (~ In (d_mnemonic (i_di v)) pairs -> forall m, In m M -> mi_name m = d_mnemonic (i_di v) -> same (d_immT (i_di v)) (kind_of_imm (mi_imm m)) = true).
Proof.
  intros OK SI D NO. destruct (decodes_reads _ _ _ _ D) as (r & e & y & L & MT & S & R & EN & DI).
  unfold kindsb in OK. rewrite forallb_forall in OK. specialize (OK r (SI _ (proj1 L))). apply andb_true_iff in OK as [H1 H2].
  rewrite forallb_forall in H1, H2. destruct L as [Hr He]. specialize (H1 e He).
  assert (fx_mask e <> None) as FX by (destruct (fx_mask e); discriminate).
  enough (exists c ffm, rd_x y = ext c ffm /\ In (rd_mn y, c, ffm, rd_meta y) (readings recs r)) as (c & ffm & C1 & C2).
  { specialize (H2 _ C2). cbv beta iota in H2. rewrite (decode_info_immT _ _ _ _ _ _ DI), C1, EN in *.
    destruct (mem (rd_mn y) odd) eqn:E; [apply mem_in in E; contradiction|].
    destruct (mem (rd_mn y) pairs) eqn:E'.
    - apply mem_in in E'. split; [intros _; exact H2|contradiction].
    - split; [intros Q; apply mem_in in Q; congruence|]. intros _ m IM NM.
      rewrite forallb_forall in H2. specialize (H2 m IM). rewrite NM, String.eqb_refl in H2. exact H2. }
  destruct (listed_mn _ _ He) as (HI & _). apply instb_ok in HI. unfold readings. rewrite HI.
  destruct R as [((D1 & D2 & D3) & _)|(ro & mask & D1 & (D2 & (m0 & D3 & D3') & x & D4 & D5) & _)].
  - destruct (exts_in _ _ _ He FX D3) as (c & C1 & C2). exists (fst c), (snd c). split; [exact C2|]. apply in_or_app. left.
    apply in_flat_map. exists (rd_meta y). split; [eapply L_Shipped.metas_sub; eauto|]. apply in_map_iff. rewrite D1. eauto.
  - assert (exists c, In c (overlay_exts r ro) /\ rd_x y = ext (fst c) (snd c)) as (c & C1 & C2).
    { unfold overlay_extractor in D5. unfold overlay_exts. destruct (r_xform ro) as [n|].
      - destruct D5 as (c & D5 & D6). rewrite D5. exists (c, 0). split; [now left|exact D6].
      - rewrite D5. eapply exts_in; eauto. }
    exists (fst c), (snd c). split; [exact C2|]. apply in_or_app. right.
    apply in_flat_map. exists ro. split; [auto|]. rewrite (ovb_ok _ _ _ _ _ D2). destruct D2 as (D2 & _). rewrite D2, String.eqb_refl.
    apply in_flat_map. exists (rd_meta y). split; [|apply in_map_iff; eauto].
    unfold overlay_metas. rewrite D3, D3'. now left.
Qed.
End Same.
Lemma book_kinds T B : book_of T B -> kindsb kind_eqb (bk_rows B) odd_kinds (bk_pairs B) T = true.
Proof. intros []; vm_compute; reflexivity. Qed.

Definition has (k : imm_type) : bool := match k with ImmNone => false | _ => true end.
Lemma book_has T B : book_of T B -> kindsb (fun a b => Bool.eqb (has a) (has b)) (bk_rows B) (odd_extra ++ odd_lost) (bk_pairs B) T = true.
Proof. intros []; vm_compute; reflexivity. Qed.
Lemma has_kind d : has (kind_of_imm d) = true <-> d <> NoImm.
Proof. destruct d as [|v z|l c [|p]]; cbn; [|destruct (z <? 0)%Z|..]; cbn; split; intros; try discriminate; try reflexivity. now contradiction H. Qed.

Section Books.
Context (T : list irec) (B : book) (BO : book_of T B).
Context (recs : list irec) (uids : list (string * N)) (annos : list (string * anno)) (nu : N) (incl excl : list pattern) (s : builder * tree).
Context (SB : subseq recs T) (HN : 0 < nu < w32) (HD : make_decoder uids annos nu incl excl recs = Ok s).
Lemma kind_lemma A U ic v : decode (A := A) (U := U) s ic = Ok v -> ~ In (d_mnemonic (i_di v)) odd_kinds ->
  (In (d_mnemonic (i_di v)) (bk_pairs B) -> d_immT (i_di v) = kind_of_pair (d_mnemonic (i_di v))) /\
  (~ In (d_mnemonic (i_di v)) (bk_pairs B) -> forall m, In m (bk_rows B) -> mi_name m = d_mnemonic (i_di v) ->
     d_immT (i_di v) = kind_of_imm (mi_imm m)).
Proof.
  intros E. pose proof (C38_decodes_lemma T recs uids annos nu incl excl s (book_shipped T B BO) SB HN HD A U ic) as D. rewrite E in D.
  intros NO. destruct (kinds_sound _ _ _ _ _ _ _ _ _ (book_kinds T B BO) (subseq_in _ _ (kept_sub incl excl recs T SB)) D NO) as [P Q].
  split; [intros IP|intros NP m IM NM]; apply kind_eqb_ok; auto.
Qed.
Lemma has_lemma A U ic v : decode (A := A) (U := U) s ic = Ok v -> ~ In (d_mnemonic (i_di v)) (odd_extra ++ odd_lost) ->
  ~ In (d_mnemonic (i_di v)) (bk_pairs B) -> forall m, In m (bk_rows B) -> mi_name m = d_mnemonic (i_di v) ->
  (d_has_imm (i_di v) = true <-> mi_imm m <> NoImm).
Proof.
  intros E NO NP m IM NM. pose proof (C38_decodes_lemma T recs uids annos nu incl excl s (book_shipped T B BO) SB HN HD A U ic) as D. rewrite E in D.
  destruct (kinds_sound _ _ _ _ _ _ _ _ _ (book_has T B BO) (subseq_in _ _ (kept_sub incl excl recs T SB)) D NO) as [_ Q].
  specialize (Q NP m IM NM). apply eqb_prop in Q. rewrite <- has_kind, <- Q. unfold d_has_imm, has. reflexivity.
Qed.
End Books.

Lemma pairs_even T B n : book_of T B -> In n (bk_pairs B) -> ~ In n odd_kinds.
Proof.
  intros BO IP IO. assert (Q : forallb (fun p => negb (mem p odd_kinds)) (bk_pairs B) = true) by (destruct BO; vm_compute; reflexivity).
  rewrite forallb_forall in Q. specialize (Q _ IP). apply mem_in in IO. rewrite IO in Q. discriminate.
Qed.

(** ** The names left out *)
Definition odd_kindb (s : builder * tree) (M : list minst) (n : string) : bool :=
  existsb (fun m => if String.eqb (mi_name m) n then existsb (fun f => let ic := N.lor (snd (pat_mv (mi_pat m))) f in
    if fitsb (mi_pat m) ic then
      match pure_info (fst s) (snd s) ic with
      | Ok v => if String.eqb (d_mnemonic (i_di v)) n then negb (kind_eqb (d_immT (i_di v)) (kind_of_imm (mi_imm m))) else false
      | _ => false
      end
    else false) fillers else false) M.
Definition odd_kindsb (recs : list irec) (M : list minst) (odd : list string) : bool :=
  match make_decoder [] [] 1 [] [] recs with
  | Ok s => forallb (fun n => if mem n (map mi_name M) then odd_kindb s M n else true) odd
  | _ => false
  end.
Lemma odd_kinds_ok recs M odd : odd_kindsb recs M odd = true -> exists s, make_decoder [] [] 1 [] [] recs = Ok s /\
  forall n, In n odd -> in_manual M n -> exists ic v m, decode (A := unit) (U := unit) s ic = Ok v /\ d_mnemonic (i_di v) = n /\
     In m M /\ mi_name m = n /\ fits (mi_pat m) ic /\ d_immT (i_di v) <> kind_of_imm (mi_imm m).
Proof.
  unfold odd_kindsb. destruct (make_decoder _ _ _ _ _ _) as [s| | |]; try discriminate. intros H. exists s. split; [reflexivity|].
  rewrite forallb_forall in H. intros n Hn (m0 & I0 & N0). specialize (H _ Hn).
  rewrite (proj2 (mem_in n (map mi_name M))) in H by (apply in_map_iff; eauto). unfold odd_kindb in H.
  apply existsb_exists in H as (m & Hm & H). destruct (String.eqb_spec (mi_name m) n) as [Em|]; [|discriminate].
  apply existsb_exists in H as (f & _ & H). cbv zeta in H. set (ic := N.lor _ f) in H. destruct (fitsb (mi_pat m) ic) eqn:F; [|discriminate].
  destruct (pure_info _ _ ic) as [v| | |] eqn:E; try discriminate. destruct (String.eqb_spec (d_mnemonic (i_di v)) n) as [Q|]; [|discriminate].
  exists ic, v, m. rewrite decode_pure. apply fitsb_ok in F. apply negb_true_iff in H.
  split; [exact E|]. split; [exact Q|]. split; [exact Hm|]. split; [exact Em|]. split; [exact F|].
  intros K. apply kind_eqb_ok in K. congruence.
Qed.
Lemma book_odd_kinds T B : book_of T B -> odd_kindsb T (bk_rows B) odd_kinds = true.
Proof. intros []; vm_compute; reflexivity. Qed.
Lemma kinds_refuted T B : book_of T B -> exists s, make_decoder [] [] 1 [] [] T = Ok s /\
  forall n, In n odd_kinds -> in_manual (bk_rows B) n -> exists ic v m, decode (A := unit) (U := unit) s ic = Ok v /\ d_mnemonic (i_di v) = n /\
     In m (bk_rows B) /\ mi_name m = n /\ fits (mi_pat m) ic /\ d_immT (i_di v) <> kind_of_imm (mi_imm m).
Proof. intros H. exact (odd_kinds_ok _ _ _ (book_odd_kinds T B H)). Qed.
(** addi a0,a1,-1; mv a0,a1; csrrwi; add; lw. *)
Definition kinds_seen (recs : list irec) (l : list N) : option (list (res (string * imm_type))) :=
  match make_decoder [] [] 1 [] [] recs with
  | Ok s => Some (map (fun ic => match pure_info (fst s) (snd s) ic with
      | Ok v => Ok (d_mnemonic (i_di v), d_immT (i_di v)) | Throw e => Throw e | AssertFail => AssertFail | UB => UB end) l)
  | _ => None
  end.
Lemma kinds_seen_ok recs l a : kinds_seen recs l = Some a -> exists s, make_decoder [] [] 1 [] [] recs = Ok s /\
  Forall2 (fun ic q => forall n k, q = Ok (n, k) -> exists v, decode (A := unit) (U := unit) s ic = Ok v /\ d_mnemonic (i_di v) = n /\ d_immT (i_di v) = k) l a.
Proof.
  unfold kinds_seen. destruct (make_decoder _ _ _ _ _ _) as [s| | |]; try discriminate. intros H. exists s. split; [reflexivity|].
  injection H as <-. induction l as [|ic l IH]; constructor; [|exact IH]. intros n k Q. rewrite decode_pure.
  destruct (pure_info _ _ ic) as [v| | |]; try discriminate. injection Q as <- <-. eauto.
Qed.
Lemma seen64 : kinds_seen rv64 [0xFFF58513; 0x00058513; 0x3002D073; 0x00A58533] =
  Some [Ok ("addi", ImmSigned); Ok ("mv", ImmNone); Ok ("csrrwi", ImmUnsigned); Ok ("add", ImmNone)]%string.
Proof. vm_compute. reflexivity. Qed.
Lemma kind_case : exists s v1 v2 v3 v4, make_decoder [] [] 1 [] [] rv64 = Ok s /\
  decode (A := unit) (U := unit) s 0xFFF58513 = Ok v1 /\ d_mnemonic (i_di v1) = "addi"%string /\ d_immT (i_di v1) = ImmSigned /\
  decode (A := unit) (U := unit) s 0x00058513 = Ok v2 /\ d_mnemonic (i_di v2) = "mv"%string /\ d_has_imm (i_di v2) = false /\
  decode (A := unit) (U := unit) s 0x3002D073 = Ok v3 /\ d_mnemonic (i_di v3) = "csrrwi"%string /\ d_immT (i_di v3) = ImmUnsigned /\
  decode (A := unit) (U := unit) s 0x00A58533 = Ok v4 /\ d_mnemonic (i_di v4) = "add"%string /\ d_has_imm (i_di v4) = false.
Proof.
  destruct (kinds_seen_ok _ _ _ seen64) as (s & E & F). inversion F as [|? ? ? ? P1 F1]; subst. inversion F1 as [|? ? ? ? P2 F2]; subst.
  inversion F2 as [|? ? ? ? P3 F3]; subst. inversion F3 as [|? ? ? ? P4 _]; subst.
  destruct (P1 _ _ eq_refl) as (v1 & A1 & A2 & A3). destruct (P2 _ _ eq_refl) as (v2 & B1 & B2 & B3).
  destruct (P3 _ _ eq_refl) as (v3 & C1 & C2 & C3). destruct (P4 _ _ eq_refl) as (v4 & D1 & D2 & D3).
  exists s, v1, v2, v3, v4. unfold d_has_imm. rewrite B3, D3. auto 20.
Qed.
