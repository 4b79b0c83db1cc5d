(** Claim C62: classes and data sizes of the shipped tables. *)
From Coq Require Import NArith List Bool String Lia.
From Verif Require Import M_Base M_Field M_Forms M_Meta M_OperandInfo M_Extract M_Decoded M_Trie M_Builder M_DTable M_Raw.
From Verif Require Import S_Bits L_Bits S_Trie S_Table S_Shipped S_Reserved S_Manual S_Manual32 S_Classes.
From Verif Require Import L_Trie L_Table L_Check L_Decode L_Readable L_Claims L_Shipped L_Reserved L_Manual L_ManualFull L_ManualClaims L_DasmTables.
Import ListNotations.
Local Open Scope list_scope.
Local Open Scope N_scope.

(** ** The record, the row and the meta-data of a decoded opcode *)
Lemma read_rows_x T K u ic v : rows_okb T = true -> masked_okb T = true -> (forall r, In r K -> In r T) -> ic < 2 ^ 64 -> decodes K u ic (Ok v) ->
  exists r c ffm o cf e y, In r T /\ In (d_mnemonic (i_di v), c, ffm, i_meta v) (readings T r) /\ In o (rows T) /\
    o_n o = d_mnemonic (i_di v) /\ inside (o_q o) ic /\ In cf (exts r) /\
    (match res_set (fst cf) (snd cf) with Some z => ~ inside z ic | None => True end) /\
    selected (encodings K) e ic /\ read_as K o e ic y /\ d_dsize (i_di v) = mt_data (i_meta v) /\
    i_icode v = ic /\ i_x v = ext c ffm /\ exists n w, decode_info n w (ext c ffm) (i_meta v) ic = Ok (i_di v).
Proof.
  intros OK MK SI B D. pose proof D as [[_ H]|(r & e & x & L & S & X & [[_ H]|(NR & y & w & R & AN & _)])]; [discriminate..|].
  unfold answers in AN. destruct (decode_info _ w _ _ _) as [d| | |] eqn:E; try discriminate. destruct AN as [a AN].
  assert (v = mkInfo ic d (rd_x y) (rd_meta y) a) as Q by (apply (f_equal (fun r => match r with Ok v => v | _ => v end)) in AN; exact AN).
  apply decode_info_fields in E as Q'. destruct Q' as [Q1 _].
  destruct (reads_row _ _ _ _ _ _ OK SI L (proj1 (proj2 S)) R) as (o & I1 & RA). pose proof RA as (E0 & _ & E1 & _).
  pose proof MK as FX. unfold masked_okb in FX. rewrite forallb_forall in FX. specialize (FX r (SI _ (proj1 L))).
  rewrite forallb_forall in FX. specialize (FX e (proj2 L)). assert (FX' : fx_mask e <> None) by (destruct (fx_mask e); discriminate).
  destruct (exts_in r e x (proj2 L) FX' X) as (cf & C1 & C2).
  assert (RD : exists c ffm, rd_x y = ext c ffm /\ In (rd_mn y, c, ffm, rd_meta y) (readings T r)).
  { clear - R L SI FX'. destruct L as [Hr He]. destruct (listed_mn _ _ He) as (HI & _). apply instb_ok in HI. unfold readings. rewrite HI.
    destruct R as [((D1 & D2 & D3) & _)|(ro & mask & D1 & (D2 & (m0 & D3 & D3') & x & D4 & D5) & _)].
    - destruct (exts_in _ _ _ He FX' D3) as (c & C1 & C2). exists (fst c), (snd c). split; [exact C2|]. apply in_or_app. left.
      apply in_flat_map. exists (rd_meta y). split; [eapply L_Shipped.metas_sub; eauto|]. apply in_map_iff. rewrite D1. eauto.
    - assert (exists c, In c (overlay_exts r ro) /\ rd_x y = ext (fst c) (snd c)) as (c & C1 & C2).
      { unfold overlay_extractor in D5. unfold overlay_exts. destruct (r_xform ro) as [n|].
        - destruct D5 as (c & D5 & D6). rewrite D5. exists (c, 0). split; [now left|exact D6].
        - rewrite D5. eapply exts_in; eauto. }
      exists (fst c), (snd c). split; [exact C2|]. apply in_or_app. right.
      apply in_flat_map. exists ro. split; [auto|]. rewrite (ovb_ok _ _ _ _ _ D2). destruct D2 as (D2 & _). rewrite D2, String.eqb_refl.
      apply in_flat_map. exists (rd_meta y). split; [|apply in_map_iff; eauto].
      unfold overlay_metas. rewrite D3, D3'. now left. }
  destruct RD as (c & ffm & RX & RD). rewrite Q. cbn [i_di i_meta]. rewrite Q1. exists r, c, ffm, o, cf, e, y.
  split; [exact (SI _ (proj1 L))|]. split; [exact RD|]. split; [exact I1|]. split; [exact E0|]. split; [exact E1|]. split; [exact C1|]. split.
  - pose proof (res_set_ok T (fst cf) (snd cf) ic) as RS. destruct (res_set (fst cf) (snd cf)) as [z|]; [|exact I]. intros IZ. apply NR. unfold reserved.
    rewrite C2, illop_lemma by exact B. f_equal. now apply RS.
  - split; [exact S|]. split; [exact RA|]. split; [|cbn [i_icode i_x]; split; [reflexivity|]; split; [exact RX|]; rewrite <- RX; eauto]. clear - E. unfold decode_info in E.
    repeat match type of E with (rbind ?a _) = Ok _ => destruct a; cbn [rbind] in E; try discriminate end.
    match type of E with Ok ?v = Ok d => assert (d = v) as -> by congruence end. reflexivity.
Qed.

Lemma read_rows' T K u ic v : rows_okb T = true -> masked_okb T = true -> (forall r, In r K -> In r T) -> ic < 2 ^ 64 -> decodes K u ic (Ok v) ->
  exists r c ffm o cf e y, In r T /\ In (d_mnemonic (i_di v), c, ffm, i_meta v) (readings T r) /\ In o (rows T) /\
    o_n o = d_mnemonic (i_di v) /\ inside (o_q o) ic /\ In cf (exts r) /\
    (match res_set (fst cf) (snd cf) with Some z => ~ inside z ic | None => True end) /\
    selected (encodings K) e ic /\ read_as K o e ic y /\ d_dsize (i_di v) = mt_data (i_meta v) /\
    exists n w, decode_info n w (ext c ffm) (i_meta v) ic = Ok (i_di v).
Proof.
  intros OK MK SI B D. destruct (read_rows_x T K u ic v OK MK SI B D) as (r & c & ffm & o & cf & e & y & H). exists r, c, ffm, o, cf, e, y. tauto.
Qed.
Lemma read_rows T K u ic v : rows_okb T = true -> masked_okb T = true -> (forall r, In r K -> In r T) -> ic < 2 ^ 64 -> decodes K u ic (Ok v) ->
  exists r c ffm o cf e y, In r T /\ In (d_mnemonic (i_di v), c, ffm, i_meta v) (readings T r) /\ In o (rows T) /\
    o_n o = d_mnemonic (i_di v) /\ inside (o_q o) ic /\ In cf (exts r) /\
    (match res_set (fst cf) (snd cf) with Some z => ~ inside z ic | None => True end) /\
    selected (encodings K) e ic /\ read_as K o e ic y /\ d_dsize (i_di v) = mt_data (i_meta v).
Proof.
  intros OK MK SI B D. destruct (read_rows' T K u ic v OK MK SI B D) as (r & c & ffm & o & cf & e & y & H). exists r, c, ffm, o, cf, e, y. tauto.
Qed.

(** ** Checking a property of the meta-data against patterns *)
(* the test, patterns where it holds, patterns of which it does not hold nevertheless *)
Record item := mkItem { it_test : meta -> bool; it_in : list (N * N); it_out : list (N * N) }.
Definition reg_bits : list N := [7; 8; 9; 10; 11].
Definition res_sets (cf : xcls * N) : list (N * N) := match res_set (fst cf) (snd cf) with Some z => [z] | None => [] end.
Definition flagged_okb (t : item) (X : list (xcls * N)) (q : N * N) : bool :=
  if forallb (fun cf => coverb reg_bits q (it_in t ++ res_sets cf)) X then forallb (disjointb q) (it_out t) else false.
Definition unflagged_okb (R : list orow) (t : item) (X : list (xcls * N)) (o : orow) : bool :=
  let q := o_q o in
  forallb (fun p => if disjointb p q then true else
    let Q := it_out t ++ map o_q (filter (fun o' => beatsb o' o) R) in
    forallb (fun cf => coverb reg_bits (both p q) (res_sets cf ++ Q)) X) (it_in t).
Definition items_okb (T : list irec) (I : list item) : bool :=
  let R := rows T in
  forallb (fun r => let X := exts r in forallb (fun y => let '(n, _, _, mt) := y in
    forallb (fun o => forallb (fun t => if it_test t mt then flagged_okb t X (o_q o) else unflagged_okb R t X o) I) (named_in R n))
    (readings T r)) T.
Definition inside_some (l : list (N * N)) (ic : N) : Prop := exists q, In q l /\ inside q ic.

Section Items.
Context (T K : list irec) (I : list item) (IT : items_okb T I = true).
Context (GR : forallb row_goodb (rows T) = true) (ND : nodupb (mns T) = true) (OK : rows_okb T = true) (MK : masked_okb T = true).
Context (SI : forall r, In r K -> In r T) (u : string -> N) (ic : N) (BD : ic < 2 ^ 64) (v : info) (D : decodes K u ic (Ok v)).
Lemma item_sound t : In t I -> it_test t (i_meta v) = true -> inside_some (it_in t) ic /\ ~ inside_some (it_out t) ic.
Proof.
  intros HT TT. destruct (read_rows _ _ _ _ _ OK MK SI BD D) as (r & c & ffm & o & cf & e & y & H1 & H2 & H3 & H4 & H5 & H6 & H7 & _).
  unfold items_okb in IT. cbv zeta in IT. rewrite forallb_forall in IT. specialize (IT _ H1). rewrite forallb_forall in IT. specialize (IT _ H2).
  cbv beta iota in IT. rewrite forallb_forall in IT. specialize (IT o). rewrite forallb_forall in IT.
  assert (NI : In o (named_in (rows T) (d_mnemonic (i_di v)))) by (apply filter_In; split; [auto|now apply String.eqb_eq]).
  specialize (IT NI _ HT). rewrite TT in IT. unfold flagged_okb in IT. destruct (forallb _ (exts r)) eqn:FA; [|discriminate].
  rewrite forallb_forall in FA, IT. specialize (FA _ H6). split.
  - destruct (coverb_ok _ _ _ _ FA H5) as (q & Q1 & Q2). apply in_app_or in Q1 as [Q1|Q1]; [exists q; auto|]. exfalso.
    unfold res_sets in Q1. destruct (res_set _ _) as [z|]; [|destruct Q1]. destruct Q1 as [<-|[]]. exact (H7 Q2).
  - intros (q & Q1 & Q2). exact (disjointb_ok _ _ _ (IT _ Q1) H5 Q2).
Qed.
Lemma item_complete t : (forall o, In o (rows T) -> provided K (o_n o)) -> In t I -> inside_some (it_in t) ic -> ~ inside_some (it_out t) ic ->
  it_test t (i_meta v) = true.
Proof.
  intros PV HT (p & P1 & P2) NO. destruct (it_test t (i_meta v)) eqn:TT; [reflexivity|]. exfalso.
  destruct (read_rows _ _ _ _ _ OK MK SI BD D) as (r & c & ffm & o & cf & e & y & H1 & H2 & H3 & H4 & H5 & H6 & H7 & H8 & H9 & _).
  unfold items_okb in IT. cbv zeta in IT. rewrite forallb_forall in IT. specialize (IT _ H1). rewrite forallb_forall in IT. specialize (IT _ H2).
  cbv beta iota in IT. rewrite forallb_forall in IT. specialize (IT o). rewrite forallb_forall in IT.
  assert (NI : In o (named_in (rows T) (d_mnemonic (i_di v)))) by (apply filter_In; split; [auto|now apply String.eqb_eq]).
  specialize (IT NI _ HT). rewrite TT in IT. unfold unflagged_okb in IT. cbv zeta in IT. rewrite forallb_forall in IT. specialize (IT _ P1).
  destruct (disjointb p (o_q o)) eqn:DJ; [exact (disjointb_ok _ _ _ DJ P2 H5)|]. rewrite forallb_forall in IT. specialize (IT _ H6).
  destruct (coverb_ok _ _ _ _ IT (both_ok _ _ _ P2 H5)) as (q & Q1 & Q2). apply in_app_or in Q1 as [Q1|Q1].
  - unfold res_sets in Q1. destruct (res_set _ _) as [z|]; [|destruct Q1]. destruct Q1 as [<-|[]]. exact (H7 Q2).
  - apply in_app_or in Q1 as [Q1|Q1]; [apply NO; exists q; auto|]. apply in_map_iff in Q1 as (o' & <- & Q1). apply filter_In in Q1 as [Q1 Q3].
    exact (beats T GR ND K SI o' o e ic y Q3 Q1 (PV _ Q1) Q2 H8 H9).
Qed.
End Items.

(** ** The shipped tables *)
Definition class_item (c : class) : item :=
  mkItem (fun mt => is_inst_type mt (2 ^ cl_bit c)) (map pat_mv (cl_pats c)) (map pat_mv (cl_omitted c)).
Definition size_item (m : mode) (s : N * list string) : item :=
  mkItem (fun mt => mt_data mt =? fst s) (map pat_mv (snd s ++ if fst s =? 8 then prefetch_r m else [])) [].
Definition items (m : mode) : list item := map class_item (classes m) ++ map (size_item m) (sizes m).
Definition sized_okb (T : list irec) (m : mode) : bool :=
  forallb (fun r => forallb (fun y => let '(_, _, _, mt) := y in existsb (N.eqb (mt_data mt)) (0 :: map fst (sizes m))) (readings T r)) T.
Definition modeb (m : mode) : bool :=
  let T := table_of m in if items_okb T (items m) then if masked_okb T then sized_okb T m else false else false.
Lemma mode_ok m : modeb m = true.
Proof. destruct m; vm_compute; reflexivity. Qed.
Lemma mode_book m : exists B, book_of (table_of m) B.
Proof. destruct m; [exists (mkBook manual64 reserved64 odd_patterns odd_operands [])|eexists|eexists]; constructor. Qed.
Lemma rows_provided T B o : book_of T B -> In o (rows T) -> provided T (o_n o).
Proof.
  intros BO I. pose proof (book_ok T B BO) as CK. unfold bookb in CK. cbv zeta in CK. apply andb_true_iff in CK as [_ Y].
  rewrite forallb_forall in Y. destruct (row_origin _ _ I) as (r & O1 & O2 & O3). destruct (listed_mn _ _ O2) as (HI & _).
  assert (P : forall r n, In r T -> r_mn r = Some n -> provided T n).
  { intros r0 n I0 EN. exists r0. split; [auto|]. split; [auto|]. intros b mask v O. specialize (Y _ I0). rewrite (ovb_ok _ _ _ _ _ O) in Y.
    apply existsb_exists in Y as (r' & Y1 & Y2). exists r'. split; [auto|].
    apply instb_ok. unfold oseqb in Y2. destruct (instb r'); [|discriminate]. apply String.eqb_eq in Y2. congruence. }
  destruct (o_ov o) as [[k w]|].
  - destruct O3 as (ro & O3 & O4). apply (P ro); [auto|apply O4].
  - rewrite O3. apply (P r); [auto|apply HI].
Qed.
Lemma in_pats l ic : inside_some (map pat_mv l) ic <-> exists p, In p l /\ fits p ic.
Proof.
  split.
  - intros (q & H1 & H2). apply in_map_iff in H1 as (p & <- & H1). exists p. split; [auto|]. now apply pat_fits.
  - intros (p & H1 & H2). exists (pat_mv p). split; [now apply in_map|]. now apply pat_fits in H2.
Qed.
Section Modes.
Context (m : mode) (recs : list irec) (uids : list (string * N)) (annos : list (string * anno)) (nu : N) (incl excl : list pattern) (s : builder * tree).
Context (SB : subseq recs (table_of m)) (HN : 0 < nu < w32) (HD : make_decoder uids annos nu incl excl recs = Ok s).
Context (A U : Type) (ic : N) (v : info) (BD : ic < 2 ^ 64) (DC : decode (A := A) (U := U) s ic = Ok v).
Let K := kept incl excl recs.
Let T := table_of m.
Let SI : forall r, In r K -> In r T := subseq_in _ _ (kept_sub incl excl recs T SB).
Lemma mode_checks : forallb row_goodb (rows T) = true /\ nodupb (mns T) = true /\ rows_okb T = true /\
  items_okb T (items m) = true /\ masked_okb T = true /\ sized_okb T m = true.
Proof.
  destruct (mode_book m) as [B BO]. pose proof (book_ok _ B BO) as CK. unfold bookb in CK. cbv zeta in CK. repeat (apply andb_true_iff in CK as [CK ?]).
  pose proof (mode_ok m) as MO. unfold modeb in MO. cbv zeta in MO. fold T in MO. destruct (items_okb T (items m)); [|discriminate].
  destruct (masked_okb T); [|discriminate]. auto 10.
Qed.
Lemma mode_decodes : decodes K (lookup_uid s) ic (Ok v).
Proof.
  destruct (mode_book m) as [B BO].
  pose proof (C38_decodes_lemma T recs uids annos nu incl excl s (book_shipped T B BO) SB HN HD A U ic) as D. rewrite DC in D. exact D.
Qed.
Lemma size_meta : d_dsize (i_di v) = mt_data (i_meta v) /\ In (d_dsize (i_di v)) (0 :: map fst (sizes m)).
Proof.
  destruct mode_checks as (_ & _ & C3 & _ & C5 & C6).
  destruct (read_rows _ _ _ _ _ C3 C5 SI BD mode_decodes) as (r & c & ffm & o & cf & e & y & H1 & H2 & _ & _ & _ & _ & _ & _ & _ & H9).
  split; [exact H9|]. unfold sized_okb in C6. rewrite forallb_forall in C6. specialize (C6 _ H1). rewrite forallb_forall in C6. specialize (C6 _ H2).
  cbv beta iota in C6. apply existsb_exists in C6 as (n & N1 & N2). apply N.eqb_eq in N2. rewrite H9, N2. exact N1.
Qed.
Lemma C62_class_lemma c : In c (classes m) -> is_inst_type (i_meta v) (2 ^ cl_bit c) = true -> in_class c ic /\ ~ omitted c ic.
Proof.
  intros HC F. destruct mode_checks as (_ & _ & C3 & C4 & C5 & _).
  destruct (item_sound T K (items m) C4 C3 C5 SI _ ic BD v mode_decodes (class_item c)) as [P Q].
  - apply in_or_app. left. now apply in_map.
  - exact F.
  - cbn [it_in it_out class_item] in P, Q. rewrite in_pats in P, Q. auto.
Qed.
Lemma C62_size_lemma : d_dsize (i_di v) = 0 \/ has_size m ic (d_dsize (i_di v)) \/
  (d_dsize (i_di v) = 8 /\ exists p, In p (prefetch_r m) /\ fits p ic).
Proof.
  destruct size_meta as [SM SS]. destruct SS as [<-|SS]; [auto|right]. apply in_map_iff in SS as ([n l] & EN & IN). cbn [fst] in EN.
  destruct mode_checks as (_ & _ & C3 & C4 & C5 & _).
  destruct (item_sound T K (items m) C4 C3 C5 SI _ ic BD v mode_decodes (size_item m (n, l))) as [P _].
  - apply in_or_app. right. now apply in_map.
  - cbn [it_test size_item fst]. apply N.eqb_eq. congruence.
  - cbn [it_in size_item fst snd] in P. apply in_pats in P as (p & P1 & P2). rewrite <- EN. apply in_app_or in P1 as [P1|P1].
    + left. exists l, p. auto.
    + right. destruct (N.eqb_spec n 8) as [->|]; [|destruct P1]. split; [reflexivity|]. exists p. auto.
Qed.
Section Whole.
Context (WH : K = T).
Lemma whole_provided o : In o (rows T) -> provided K (o_n o).
Proof. intros I. destruct (mode_book m) as [B BO]. rewrite WH. exact (rows_provided _ B _ BO I). Qed.
Lemma C62_full_lemma c : In c (classes m) -> (is_inst_type (i_meta v) (2 ^ cl_bit c) = true <-> in_class c ic /\ ~ omitted c ic).
Proof.
  intros HC. split; [now apply C62_class_lemma|]. intros [P Q]. destruct mode_checks as (C1 & C2 & C3 & C4 & C5 & _).
  apply (item_complete T K (items m) C4 C1 C2 C3 C5 SI _ ic BD v mode_decodes (class_item c) whole_provided).
  - apply in_or_app. left. now apply in_map.
  - apply in_pats. exact P.
  - cbn [it_out class_item]. rewrite in_pats. exact Q.
Qed.
Lemma C62_full_size_lemma n : n <> 0 -> ~ (exists p, In p (prefetch_r m) /\ fits p ic) -> (d_dsize (i_di v) = n <-> has_size m ic n).
Proof.
  intros NZ NP. split.
  - intros <-. destruct C62_size_lemma as [Q|[Q|[_ Q]]]; [contradiction|exact Q|contradiction].
  - intros (l & p & P1 & P2 & P3). destruct mode_checks as (C1 & C2 & C3 & C4 & C5 & _). rewrite (proj1 size_meta).
    assert (Q : it_test (size_item m (n, l)) (i_meta v) = true).
    { apply (item_complete T K (items m) C4 C1 C2 C3 C5 SI _ ic BD v mode_decodes (size_item m (n, l)) whole_provided).
      - apply in_or_app. right. now apply in_map.
      - cbn [it_in size_item fst snd]. apply in_pats. exists p. split; [apply in_or_app; now left|exact P3].
      - intros (q & [] & _). }
    cbn [it_test size_item fst] in Q. now apply N.eqb_eq in Q.
Qed.
End Whole.
End Modes.
