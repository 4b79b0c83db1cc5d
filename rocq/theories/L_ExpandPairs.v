(** Claim C69: compressed loads and stores of register pairs. *)
From Coq Require Import Ascii NArith ZArith Arith List Bool String Lia.
From Verif Require Import M_Base M_Field M_Forms M_Meta M_OperandInfo M_Extract M_Decoded M_Trie M_Builder M_DTable M_Raw.
From Verif Require Import S_Bits L_Bits S_Trie S_Slots S_Imm S_Pairs S_Agree S_Table S_Shipped S_Reserved S_Manual S_Manual32 S_Sdsp S_Expand S_PairRows S_ExpandPairs.
From Verif Require Import L_Trie L_Table L_Check L_Decode L_Readable L_Decoded L_Regs L_Claims L_Shipped L_Manual L_ManualFull L_ManualClaims L_Sdsp L_Symbolic L_Expand L_PairRows.
Import ListNotations.
Local Open Scope N_scope.

(** [ps] turns opcodes of row [m] into opcodes that only rows with the name of [p'] have. *)
Definition pair_check (BK : book) (O : list (list (option bool))) (ps : list piece) (m : minst) (p p' : pair_inst) : bool :=
  match learn (pbits (mi_pat m)) 0 B with
  | None => true
  | Some k0 =>
      let Ln := fun j => norm k0 (nsym ps j) in
      if existsb (fun r => surely (pbits (mi_pat r)) 0 (nsym ps) k0) (bk_rows BK) then
      if forallb (fun r => match learn (pbits r) 0 Ln with None => true | Some k1 =>
           let k := (k1 ++ k0)%list in if consistent k then existsb (fun q => surely (pbits q) 0 B k) (bk_reserved BK) else true end) (bk_reserved BK) then
      if forallb (fun b => match learn b 0 Ln with None => true | Some k1 => negb (consistent (k1 ++ k0)%list) end) O then
      if forallb (fun r => match learn (pbits (mi_pat r)) 0 Ln with None => true | Some k1 =>
           if consistent (k1 ++ k0)%list then String.eqb (mi_name r) (pi_name p') else true end) (bk_rows BK) then
      if same_op ps k0 (reg BX (pi_first p)) (reg BX (pi_first p')) then
      if same_op ps k0 (reg BX (pi_base p)) (reg BX (pi_base p')) then
      if same_imm ps k0 (pi_imm p) (pi_imm p') then Bool.eqb (pi_load p) (pi_load p') else false else false else false else false else false else false else false
  end.
Definition pair_entry (T : list irec) (BK : book) (p' : pair_inst) (e : string * list piece) : bool :=
  let O := map (fun o => mv_bits (o_mk o, o_v o)) (filter (fun o => mem (o_n o) (bk_patterns BK)) (rows T)) in
  bsrc_eqb (nsym (snd e) 0) (C true) && (List.length (syms (snd e)) <=? 64)%nat && mem (fst e) (bk_pairs BK) && negb (mem (fst e) (bk_patterns BK)) &&
  existsb (fun m => String.eqb (mi_name m) (fst e)) (bk_rows BK) && mem (pi_name p') (bk_pairs BK) &&
  forallb (fun q => if String.eqb (pi_name q) (pi_name p') then place_eqb (pi_first q) (pi_first p') && place_eqb (pi_base q) (pi_base p') && Bool.eqb (pi_load q) (pi_load p') else true) pair_manual &&
  forallb (fun m => if String.eqb (mi_name m) (fst e) then
    forallb (fun p => if String.eqb (pi_name p) (fst e) then
      forallb (fun q => if String.eqb (pi_name q) (pi_name p') then pair_check BK O (snd e) m p q else true) pair_manual else true) pair_manual
  else true) (bk_rows BK).

Section Entry.
Context (T : list irec) (BK : book) (BO : book_of T BK) (uids : list (string * N)) (annos : list (string * anno)) (nu : N) (s : builder * tree).
Context (HN : 0 < nu < w32) (HD : make_decoder uids annos nu [] [] T = Ok s) (A U : Type).
Let D ic : decodes T (lookup_uid s) ic (decode (A := A) (U := U) s ic).
Proof. pose proof (C38_decodes_lemma T T uids annos nu [] [] s (book_shipped T BK BO) (subseq_refl T) HN HD A U ic) as Q. now rewrite kept_all in Q. Qed.
Let prov m : In m (bk_rows BK) -> provided T (mi_name m) := book_provides T BK m BO.
Let inst ic v : decode (A := A) (U := U) s ic = Ok v -> ~ In (d_mnemonic (i_di v)) (bk_patterns BK) ->
  (exists m, mi_name m = d_mnemonic (i_di v) /\ closest (bk_rows BK) T m ic) \/
  (~ in_manual (bk_rows BK) (d_mnemonic (i_di v)) /\ forall m, In m (bk_rows BK) -> ~ fits (mi_pat m) ic).
Proof. intros E NO. pose proof (C49_instruction_lemma T BK BO T uids annos nu [] [] s (subseq_refl T) HN HD A U ic v E NO) as Q. now rewrite kept_all in Q. Qed.
Lemma pair_expands n ps p' ic v : pair_entry T BK p' (n, ps) = true -> ic < 2 ^ 64 -> decode (A := A) (U := U) s ic = Ok v -> d_mnemonic (i_di v) = n ->
  exists w p q k, decode (A := A) (U := U) s (expanded ps ic) = Ok w /\ pi_name p = n /\ pi_name q = pi_name p' /\ In p pair_manual /\ In q pair_manual /\
    pair_reports (negb (String.eqb (pi_name p) "sd")) p ic (i_di v) /\ pair_reports (negb (String.eqb (pi_name q) "sd")) q (expanded ps ic) (i_di w) /\
    known ic k /\ same_op ps k (reg BX (pi_first p)) (reg BX (pi_first q)) = true /\ same_op ps k (reg BX (pi_base p)) (reg BX (pi_base q)) = true /\
    same_imm ps k (pi_imm p) (pi_imm q) = true /\ pi_load p = pi_load q.
Proof.
  intros CK LT E EN. unfold pair_entry in CK. cbv zeta in CK. cbn [fst snd] in CK.
  apply andb_true_iff in CK as [CK C8]. apply andb_true_iff in CK as [CK _]. apply andb_true_iff in CK as [CK C6]. apply andb_true_iff in CK as [CK C5].
  apply andb_true_iff in CK as [CK C4]. apply andb_true_iff in CK as [CK C3]. apply andb_true_iff in CK as [C1 C2].
  apply bsrc_eqb_eq in C1. apply Nat.leb_le in C2. apply negb_true_iff in C4. apply mem_in in C3, C6.
  assert (NO : ~ In (d_mnemonic (i_di v)) (bk_patterns BK)) by (intros Q; apply mem_in in Q; congruence).
  apply existsb_exists in C5 as (m0 & I0 & Q0). apply String.eqb_eq in Q0.
  destruct (inst ic v E NO) as [(m & NM & (IM & FM & _))|[NI _]]; [|exfalso; apply NI; exists m0; split; congruence].
  assert (IP : In (d_mnemonic (i_di v)) (bk_pairs BK)) by congruence.
  destruct (C49_pairs_lemma T BK T uids annos nu [] [] s BO (subseq_refl T) HN HD A U ic v LT E IP) as (p & P1 & P2 & P3).
  rewrite forallb_forall in C8. specialize (C8 m IM). rewrite NM, EN, String.eqb_refl in C8. rewrite forallb_forall in C8. specialize (C8 p P1). rewrite P2, EN, String.eqb_refl in C8.
  rewrite forallb_forall in C8. set (X := expanded ps ic) in *.
  assert (LX : X < 2 ^ 64) by (eapply N.lt_le_trans; [apply expanded_lt|apply N.pow_le_mono_r; lia]).
  assert (B0 : N.testbit X 0 = true) by (change 0 with (N.of_nat 0); unfold X; rewrite expanded_bit, C1; reflexivity).
  destruct (fits_learn _ _ FM) as (k0 & K0 & HK0).
  assert (Y : exists q, In q pair_manual /\ pi_name q = pi_name p').
  { assert (Y : forallb (fun n => existsb (fun p => String.eqb (pi_name p) n) pair_manual) (bk_pairs BK) = true) by (clear - BO; destruct BO; vm_compute; reflexivity).
    rewrite forallb_forall in Y. specialize (Y _ C6). apply existsb_exists in Y as (q & I & Q). apply String.eqb_eq in Q. eauto. }
  destruct Y as (q0 & IQ0 & NQ0).
  pose proof (C8 q0 IQ0) as C9. rewrite NQ0, String.eqb_refl in C9. unfold pair_check in C9. rewrite K0 in C9. cbv zeta in C9.
  destruct (existsb _ (bk_rows BK)) eqn:CA in C9; [|discriminate]. destruct (forallb _ (bk_reserved BK)) eqn:CB in C9; [|discriminate]. destruct (forallb _ (map _ _)) eqn:CC in C9; [|discriminate].
  destruct (forallb _ (bk_rows BK)) eqn:CD in C9; [|discriminate]. clear C9.
  apply existsb_exists in CA as (ma & IA & SA). pose proof (surely_fits_x _ _ _ _ HK0 SA) as FA. fold X in FA.
  rewrite forallb_forall in CB, CC, CD.
  assert (TO := total_lemma T T uids annos nu [] [] s (book_shipped T BK BO) (subseq_refl T) HN HD A U X LX).
  assert (NS : T = rv32p -> ~ sdsp_x0 X).
  { intros _ [S1 _]. apply (f_equal (fun x => N.testbit x 0)) in S1. rewrite slice_testbit in S1. change (0 + 0) with 0 in S1. rewrite B0 in S1. discriminate S1. }
  specialize (TO NS). destruct (decode (A := A) (U := U) s X) as [w|ex| |] eqn:EW; [|exfalso|contradiction..].
  2: { destruct TO as [-> | ->].
    - pose proof (C49_unknown_lemma T BK BO T uids annos nu [] [] s (subseq_refl T) HD A U X EW ma IA) as Q1. rewrite kept_all in Q1. exact (Q1 (prov ma IA) FA).
    - apply (C49_reserved_lemma T BK uids annos nu s BO HN HD A U X LX) in EW as (r & I & F). specialize (CB r I). cbv beta in CB.
      destruct (fits_learn_x _ _ _ _ HK0 F) as (k1 & K1 & HK1). rewrite K1 in CB. pose proof (known_app _ _ _ HK1 HK0) as HK. rewrite (consistent_ok _ _ HK) in CB.
      apply existsb_exists in CB as (r' & I' & S'). pose proof (surely_fits _ _ _ HK S') as F'.
      assert (G : decode (A := A) (U := U) s ic = Throw EIllegalOpcode) by (apply (C49_reserved_lemma T BK uids annos nu s BO HN HD A U ic LT); eauto). rewrite G in E. discriminate E. }
  assert (NP : ~ In (d_mnemonic (i_di w)) (bk_patterns BK)).
  { intros I. pose proof (D X) as DX. rewrite EW in DX. pose proof (book_ok T BK BO) as Z0. unfold bookb in Z0. cbv zeta in Z0. repeat (apply andb_true_iff in Z0 as [Z0 ?]).
    destruct (part_row T ltac:(assumption) T (fun r H => H) (lookup_uid s) X w DX) as (o & e & y & IO & _ & (N1 & _ & N3 & _) & N4 & _).
    assert (IMO : In (mv_bits (o_mk o, o_v o)) (map (fun o => mv_bits (o_mk o, o_v o)) (filter (fun o => mem (o_n o) (bk_patterns BK)) (rows T)))).
    { apply in_map_iff. exists o. split; [reflexivity|]. apply filter_In. split; [exact IO|]. apply mem_in. rewrite N1, <- N4. exact I. }
    specialize (CC _ IMO). cbv beta in CC. destruct (mv_learn_x (o_mk o, o_v o) _ _ _ HK0 N3) as (k1 & K1 & HK1). rewrite K1, (consistent_ok _ _ (known_app _ _ _ HK1 HK0)) in CC. discriminate CC. }
  destruct (inst X w EW NP) as [(m2 & N2 & (I2 & F2 & _))|[_ NF]]; [|destruct (NF ma IA FA)].
  specialize (CD m2 I2). cbv beta in CD. destruct (fits_learn_x _ _ _ _ HK0 F2) as (k1 & K1 & HK1). rewrite K1, (consistent_ok _ _ (known_app _ _ _ HK1 HK0)) in CD. apply String.eqb_eq in CD.
  assert (IW : In (d_mnemonic (i_di w)) (bk_pairs BK)) by (rewrite <- N2, CD, NQ0; exact C6).
  destruct (C49_pairs_lemma T BK T uids annos nu [] [] s BO (subseq_refl T) HN HD A U X w LX EW IW) as (q & R1 & R2 & R3).
  assert (NQ : pi_name q = pi_name p') by congruence.
  specialize (C8 q R1). rewrite NQ, String.eqb_refl in C8. unfold pair_check in C8. rewrite K0 in C8. cbv zeta in C8.
  repeat match type of C8 with (if ?b then _ else _) = true => destruct b eqn:?; [|discriminate C8] end.
  apply eqb_prop in C8. exists w, p, q, k0. rewrite <- EN. auto 20.
Qed.
End Entry.
Definition ld_row : pair_inst := pins "ld" true (At5 15) (At5 7) imm_i.
Definition sd_row : pair_inst := pins "sd" false (At5 15) (At5 20) imm_s.
Definition book_p : book := mkBook (m_shared ++ m_shifts ++ m_zilsd ++ m_zclsd) reserved32p odd_patterns32 odd_operands32 pairs32.
Lemma zclsd_check : forallb (fun e => pair_entry rv32p book_p (if mem (fst e) zclsd_loads then ld_row else sd_row) e) zclsd_expansions = true.
Proof. vm_compute. reflexivity. Qed.
Lemma reg_same ps k ic a b : known ic k -> same_op ps k (reg BX a) (reg BX b) = true -> place_val a ic = place_val b (expanded ps ic).
Proof. intros HK H. apply (same_op_ok ps k ic _ _ HK) in H. unfold meant in H. cbn [reg op_bank op_place op_data op_acc] in H. congruence. Qed.
Lemma pair_shown_where a b r : map (fun x => let '(k, n, _, _) := x in (k, n) : option bank * N) (pair_shown a r) = map (fun x => let '(k, n, _, _) := x in (k, n)) (pair_shown b r).
Proof. unfold pair_shown. destruct (r =? 0); reflexivity. Qed.
Lemma where_shown l : map where_ l = map (fun x => let '(k, n, _, _) := x in (k, n) : option bank * N) (map shown l).
Proof. rewrite map_map. reflexivity. Qed.
Lemma C69_pairs_lemma uids annos nu s : 0 < nu < w32 -> make_decoder uids annos nu [] [] rv32p = Ok s ->
  forall A U ic v ps, ic < 2 ^ 64 -> decode (A := A) (U := U) s ic = Ok v -> In (d_mnemonic (i_di v), ps) zclsd_expansions ->
  exists w, decode (A := A) (U := U) s (expanded ps ic) = Ok w /\ alike_but_marks v w /\ (In (d_mnemonic (i_di v)) zclsd_loads -> alike v w).
Proof.
  intros HN HD A U ic v ps LT E I. pose proof zclsd_check as CK. rewrite forallb_forall in CK. specialize (CK _ I). cbn [fst] in CK.
  destruct (pair_expands rv32p book_p book32p uids annos nu s HN HD A U _ ps _ ic v CK LT E eq_refl) as (w & p & q & k & EW & NP & NQ & IP & IQ & (V1 & V2 & V3 & V4) & (W1 & W2 & W3 & W4) & HK & S1 & S2 & S3 & LD).
  apply (reg_same _ _ _ _ _ HK) in S1, S2. rewrite V3 in V4. rewrite W3 in W4. pose proof (same_imm_ok _ _ _ _ _ _ _ HK S3 V4 W4) as S4.
  exists w. split; [exact EW|]. cbv zeta in V1, V2, W1, W2. rewrite <- S1, <- LD in W1, W2. rewrite <- S2 in W2. split.
  - unfold alike_but_marks. rewrite !where_shown, V1, V2, W1, W2. split; [reflexivity|]. split; [|congruence]. cbn [map]. f_equal. destruct (pi_load p); [reflexivity|apply pair_shown_where].
  - intros IL. unfold alike. rewrite V1, V2, W1, W2. split; [reflexivity|]. split; [|congruence]. f_equal. destruct (pi_load p) eqn:PL; [reflexivity|exfalso].
    apply mem_in in IL. rewrite IL in NQ. clear - LD NQ IQ. assert (X : forallb (fun q => if String.eqb (pi_name q) "ld" then pi_load q else true) pair_manual = true) by (vm_compute; reflexivity).
    rewrite forallb_forall in X. specialize (X q IQ). rewrite NQ in X. cbn [ld_row pi_name String.eqb] in X. rewrite <- LD in X. discriminate X.
Qed.
