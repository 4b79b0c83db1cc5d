(** Claim C49: the shipped tables against the manual. *)
From Coq Require Import Ascii NArith ZArith Arith List Bool String Lia.
From Verif Require Import M_Base M_Field M_Forms M_Meta M_OperandInfo M_Extract M_Decoded M_Trie M_Builder M_DTable M_Raw.
From Verif Require Import S_Bits L_Bits S_Trie S_Slots S_Imm S_Pairs S_Agree S_Table S_Shipped S_Reserved S_Manual S_Manual32 S_Sdsp.
From Verif Require Import L_Trie L_Table L_Check L_Decode L_Readable L_Claims L_Shipped L_Reserved L_Manual L_ManualFull L_Sdsp.
Import ListNotations.
Local Open Scope N_scope.

(** ** Two rows that fit one opcode *)
Lemma strictly_narrower p q : strictly (pat_mv p) (pat_mv q) = true -> narrower p q.
Proof.
  unfold strictly. intros H. destruct (within (pat_mv p) (pat_mv q)) eqn:W; [|discriminate]. split.
  - intros ic F. apply pat_fits. apply pat_fits in F. exact (within_ok _ _ _ W F).
  - intros F. apply all_fit_within in F. apply negb_true_iff in H. unfold within in W, F. apply andb_true_iff in W as [W1 W2], F as [F1 F2].
    apply N.eqb_eq in W1, W2, F1, F2. rewrite N.land_comm in F1.
    assert (E : fst (pat_mv p) = fst (pat_mv q)) by congruence. rewrite E, N.eqb_refl in H. cbn [andb] in H. apply N.eqb_neq in H. apply H.
    rewrite <- W2, <- E. symmetry. apply N.bits_inj. intros i. rewrite N.land_spec. pose proof (mv_sub (rev (pattern_bits p)) i) as Q.
    fold (pat_mv p) in Q. destruct (N.testbit (snd (pat_mv p)) i); [now rewrite Q|reflexivity].
Qed.
Definition untiedb (M : list minst) (tied : list string) : bool :=
  let P := map (fun m => (mi_name m, pat_mv (mi_pat m))) M in
  forallb (fun p => forallb (fun q =>
    if disjointb (snd p) (snd q) then true else if strictly (snd p) (snd q) then true else if strictly (snd q) (snd p) then true else
    if String.eqb (fst p) (fst q) then true else if mem (fst p) tied then mem (fst q) tied else false) P) P.
Lemma untied M tied K m m' ic : untiedb M tied = true -> closest M K m ic -> closest M K m' ic ->
  provided K (mi_name m) -> provided K (mi_name m') ->
  mi_name m = mi_name m' \/ (In (mi_name m) tied /\ In (mi_name m') tied).
Proof.
  unfold untiedb. cbv zeta. intros H (I1 & F1 & C1) (I2 & F2 & C2) P1 P2. rewrite forallb_forall in H.
  specialize (H (mi_name m, pat_mv (mi_pat m)) (in_map _ _ _ I1)). rewrite forallb_forall in H.
  specialize (H (mi_name m', pat_mv (mi_pat m')) (in_map _ _ _ I2)). cbn [fst snd] in H. pose proof F1 as F1'. pose proof F2 as F2'. apply pat_fits in F1', F2'.
  destruct (disjointb _ _) eqn:D in H; [destruct (disjointb_ok _ _ _ D F1' F2')|].
  destruct (strictly _ _) eqn:S1 in H; [destruct (C2 _ I1 P1 F1 (strictly_narrower _ _ S1))|].
  destruct (strictly _ _) eqn:S2 in H; [destruct (C1 _ I2 P2 F2 (strictly_narrower _ _ S2))|].
  destruct (String.eqb_spec (mi_name m) (mi_name m')); [now left|right]. destruct (mem _ tied) eqn:T in H; [|discriminate].
  apply mem_in in T, H. auto.
Qed.
Lemma reads_provided K r e ic y : listed K r e -> reads K r e ic y -> provided K (rd_mn y).
Proof.
  intros [L1 L2] R. destruct (listed_mn _ _ L2) as (HI & _). destruct R as [((D1 & _) & _)|(ro & mask & D1 & (D2 & _) & _)].
  - exists r. rewrite D1. split; [auto|]. split; [apply HI|]. intros b m v (_ & jo & H & _). destruct HI. congruence.
  - exists ro. split; [auto|]. split; [apply D2|]. intros b m v O. exists r. split; [auto|]. replace b with (en_mn e); [exact HI|].
    destruct D2 as (_ & jo & Q1 & Q2 & _), O as (_ & jo' & Q1' & Q2' & _). congruence.
Qed.

(** ** A part of a table *)
Section Part.
Context (T : list irec) (M : list minst) (RS oddp oddo tied : list string) (bits : list N).
Context (GR : forallb row_goodb (rows T) = true) (ND : nodupb (mns T) = true) (OK : rows_okb T = true).
Context (CV : covered_okb T M bits = true) (LE : least_okb T M oddp = true) (RO : reserved_okb T M RS = true).
Context (OP : operands_okb M oddo T = true) (UT : untiedb M tied = true).
Context (K : list irec) (SI : forall r, In r K -> In r T) (u : string -> N) (ic : N) (BD : ic < 2 ^ 64).

Lemma part_row v : decodes K u ic (Ok v) -> exists o e y, In o (rows T) /\ selected (encodings K) e ic /\ read_as K o e ic y /\
  d_mnemonic (i_di v) = rd_mn y /\ provided K (rd_mn y).
Proof.
  intros D. destruct (decodes_reads _ _ _ _ D) as (r & e & y & L & MT & S & R & EN & _).
  destruct (reads_row _ _ _ _ _ _ OK SI L MT R) as (o & I & RA). exists o, e, y. pose proof (reads_provided _ _ _ _ _ L R). auto.
Qed.
Lemma part_instruction v : decodes K u ic (Ok v) -> ~ In (d_mnemonic (i_di v)) oddp ->
  (exists m, mi_name m = d_mnemonic (i_di v) /\ closest M K m ic) \/
  (~ in_manual M (d_mnemonic (i_di v)) /\ forall m, In m M -> ~ fits (mi_pat m) ic).
Proof.
  intros D NO. destruct (part_row _ D) as (o & e & y & I & S & R & EN & _). rewrite EN in *.
  exact (least_ok T GR ND K SI M oddp bits o e ic y CV LE I S R NO).
Qed.
Lemma part_provided v : decodes K u ic (Ok v) -> provided K (d_mnemonic (i_di v)).
Proof. intros D. destruct (part_row _ D) as (o & e & y & _ & _ & _ & -> & P). exact P. Qed.
Lemma part_unknown m : In m M -> provided K (mi_name m) -> fits (mi_pat m) ic -> exists e, In e (encodings K) /\ matches e ic.
Proof.
  intros I P F. destruct (covered_ok _ _ _ _ _ CV I F) as (o & O1 & O2 & O3). rewrite <- O2 in P.
  destruct (provided_row T GR ND K SI _ _ O1 P O3) as (r & L & MT & _).
  exists (o_e o). split; [apply in_flat_map; exists r; exact L|exact MT].
Qed.
End Part.

(** ** The shipped tables *)
Definition bits0 : list N := [25].
Definition ties : list string := ["li"; "mv"]%string.
Definition bookb (T : list irec) (B : book) : bool :=
  let M := bk_rows B in
  forallb row_goodb (rows T) && nodupb (mns T) && rows_okb T && covered_okb T M bits0 && least_okb T M (bk_patterns B) &&
  reserved_okb T M (bk_reserved B) && refused_okb T (bk_reserved B) && operands_okb M (bk_operands B ++ bk_pairs B) T && untiedb M ties &&
  forallb (fun m => existsb (fun r => match r_mn r with Some n => String.eqb n (mi_name m) | None => false end) T) M &&
  forallb (fun r => match ovb r with Some (b, _, _) => existsb (fun r' => oseqb (instb r') b) T | None => true end) T.
Lemma book_ok T B : book_of T B -> bookb T B = true.
Proof. intros []; vm_compute; reflexivity. Qed.
Lemma book_shipped T B : book_of T B -> shipped T.
Proof. intros []; constructor. Qed.

Section Books.
Context (T : list irec) (B : book) (BO : book_of T B).
Context (recs : list irec) (uids : list (string * N)) (annos : list (string * anno)) (nu : N) (incl excl : list pattern) (s : builder * tree).
Context (SB : subseq recs T) (HN : 0 < nu < w32) (HD : make_decoder uids annos nu incl excl recs = Ok s).
Let K := kept incl excl recs.
Let WF : well_formed K := shipped_kept_wf incl excl recs T (book_shipped T B BO) SB.
Let SI : forall r, In r K -> In r T := subseq_in _ _ (kept_sub incl excl recs T SB).
Context (A U : Type) (ic : N) (BD : ic < 2 ^ 64).
Let D : decodes K (lookup_uid s) ic (decode (A := A) (U := U) s ic) := C38_decodes_lemma T recs uids annos nu incl excl s (book_shipped T B BO) SB HN HD A U ic.
Ltac checks := pose proof (book_ok T B BO) as CK; unfold bookb in CK; cbv zeta in CK; repeat (apply andb_true_iff in CK as [CK ?]).

Lemma C49_instruction_lemma v : decode (A := A) (U := U) s ic = Ok v -> ~ In (d_mnemonic (i_di v)) (bk_patterns B) ->
  (exists m, mi_name m = d_mnemonic (i_di v) /\ closest (bk_rows B) K m ic) \/
  (~ in_manual (bk_rows B) (d_mnemonic (i_di v)) /\ forall m, In m (bk_rows B) -> ~ fits (mi_pat m) ic).
Proof. intros E NO. rewrite E in D. checks. eapply part_instruction; eauto. Qed.
Lemma C49_operands_lemma v : decode (A := A) (U := U) s ic = Ok v -> ~ In (d_mnemonic (i_di v)) (bk_operands B) -> ~ In (d_mnemonic (i_di v)) (bk_pairs B) ->
  forall m, In m (bk_rows B) -> mi_name m = d_mnemonic (i_di v) -> fits (mi_pat m) ic -> reports m ic (i_di v).
Proof.
  intros E NO NP. rewrite E in D. checks. eapply operands_sound; eauto. intros Q. apply in_app_or in Q. tauto.
Qed.
Lemma C49_unknown_lemma : decode (A := A) (U := U) s ic = Throw EUnknownOpcode ->
  forall m, In m (bk_rows B) -> provided K (mi_name m) -> ~ fits (mi_pat m) ic.
Proof.
  intros E m I P F. checks. assert (X : exists e, In e (encodings K) /\ matches e ic) by (eapply part_unknown; eauto). destruct X as (e & H1' & H2').
  exact (proj1 (C03_lemma _ _ _ _ _ _ _ HD (wf_cells _ WF) ic) E e H1' H2').
Qed.
Lemma C49_illegal_lemma : decode (A := A) (U := U) s ic = Throw EIllegalOpcode ->
  (exists p, In p (bk_reserved B) /\ fits p ic) \/ exists m, In m (bk_rows B) /\ fits (mi_pat m) ic /\ ~ provided K (mi_name m).
Proof.
  intros E. destruct (C07_lemma _ _ _ _ _ _ _ HD (wf_cells _ WF) (A := A) (U := U) ic) as [[_ Q]|(r & e & x & L & S & X & Q & _)]; [contradiction|].
  apply Q in E. checks. eapply reserved_sound; eauto.
Qed.
Lemma C49_complete_lemma m : (T = rv32p -> ~ sdsp_x0 ic) -> provided K (mi_name m) -> closest (bk_rows B) K m ic ->
  (exists v, decode (A := A) (U := U) s ic = Ok v /\
     (d_mnemonic (i_di v) = mi_name m \/ In (d_mnemonic (i_di v)) (bk_patterns B) \/
      In (mi_name m) ["li"; "mv"]%string /\ In (d_mnemonic (i_di v)) ["li"; "mv"]%string)) \/
  (decode (A := A) (U := U) s ic = Throw EIllegalOpcode /\
     ((exists p, In p (bk_reserved B) /\ fits p ic) \/ exists m, In m (bk_rows B) /\ fits (mi_pat m) ic /\ ~ provided K (mi_name m))).
Proof.
  intros NP P C. checks.
  pose proof (total_lemma T recs uids annos nu incl excl s (book_shipped T B BO) SB HN HD A U ic BD NP) as TT.
  pose proof C as (I & F & _). pose proof (C49_unknown_lemma) as UK. pose proof C49_illegal_lemma as IL.
  pose proof (fun v => C49_instruction_lemma v) as IN. pose proof D as D'.
  clear D. destruct (decode s ic) as [v|ex| |]; [|destruct TT as [-> | ->]; [destruct (UK eq_refl m I P F)|right; auto]|destruct TT..].
  left. exists v. split; [reflexivity|]. destruct (mem (d_mnemonic (i_di v)) (bk_patterns B)) eqn:ME; [apply mem_in in ME; auto|].
  assert (NO : ~ In (d_mnemonic (i_di v)) (bk_patterns B)) by (intros Q; apply mem_in in Q; congruence).
  destruct (IN v eq_refl NO) as [(m' & N' & C')|[_ Q]]; [|destruct (Q _ I F)].
  assert (PV : provided K (d_mnemonic (i_di v))) by (eapply part_provided; eauto). rewrite <- N' in *.
  assert (UT : mi_name m = mi_name m' \/ (In (mi_name m) ties /\ In (mi_name m') ties)) by (eapply untied; eauto).
  destruct UT as [Q|Q]; [left; congruence|right; right; exact Q].
Qed.
End Books.
Lemma book_provides T B m : book_of T B -> In m (bk_rows B) -> provided T (mi_name m).
Proof.
  intros BO I. pose proof (book_ok T B BO) as CK. unfold bookb in CK. cbv zeta in CK. apply andb_true_iff in CK as [CK Y]. apply andb_true_iff in CK as [_ X].
  rewrite forallb_forall in X, Y. specialize (X _ I). apply existsb_exists in X as (r & X1 & X2). specialize (Y _ X1).
  exists r. split; [auto|]. destruct (r_mn r) as [n|] eqn:EN; [|discriminate]. apply String.eqb_eq in X2. subst n. split; [auto|].
  intros b mask v O. rewrite (ovb_ok _ _ _ _ _ O) in Y. apply existsb_exists in Y as (r' & Y1 & Y2). exists r'. split; [auto|].
  apply instb_ok. unfold oseqb in Y2. destruct (instb r'); [|discriminate]. apply String.eqb_eq in Y2. congruence.
Qed.
Lemma C49_reserved_lemma T B uids annos nu s : book_of T B -> 0 < nu < w32 -> make_decoder uids annos nu [] [] T = Ok s ->
  forall A U ic, ic < 2 ^ 64 -> (decode (A := A) (U := U) s ic = Throw EIllegalOpcode <-> exists p, In p (bk_reserved B) /\ fits p ic).
Proof.
  intros BO HN HD A U ic BD. pose proof (C38_decodes_lemma _ _ _ _ _ _ _ _ (book_shipped T B BO) (subseq_refl T) HN HD A U ic) as D. rewrite kept_all in D. split.
  - intros E. destruct (C49_illegal_lemma _ _ BO _ _ _ _ _ _ _ (subseq_refl T) HD A U ic BD E) as [Q|(m & I & F & NP)]; [exact Q|].
    exfalso. apply NP. rewrite kept_all. eapply book_provides; eauto.
  - intros (p & I & F). pose proof (book_ok T B BO) as CK. unfold bookb in CK. cbv zeta in CK. repeat (apply andb_true_iff in CK as [CK ?]).
    eapply refused; eauto.
Qed.

(** ** Where the tables differ *)
Definition sh_eqb (a b : option bank * N * bool * bool) : bool :=
  let '(k, n, d, i) := a in let '(k', n', d', i') := b in
  match k, k' with Some BX, Some BX | Some BF, Some BF | Some BV, Some BV | None, None => true | _, _ => false end && (n =? n') && Bool.eqb d d' && Bool.eqb i i'.
Fixpoint shs_eqb (a b : list (option bank * N * bool * bool)) : bool :=
  match a, b with [], [] => true | x :: a, y :: b => sh_eqb x y && shs_eqb a b | _, _ => false end.
Lemma shs_refl l : shs_eqb l l = true.
Proof.
  induction l as [|[[[k n] d] i] l IH]; [reflexivity|]. cbn [shs_eqb sh_eqb]. rewrite IH, N.eqb_refl, !eqb_reflx.
  destruct k as [[]|]; reflexivity.
Qed.
Definition differsb (m : minst) (ic : N) (d : dinfo) : bool :=
  negb (shs_eqb (map shown (oi_elems (d_dst_oi d))) (map (meant ic) (mi_dests m)) &&
        shs_eqb (map shown (oi_elems (d_src_oi d))) (map (meant ic) (mi_srcs m)) && (d_imm d =? imm_of (mi_imm m) 0 ic)).
Lemma differs m ic d : differsb m ic d = true -> ~ reports m ic d.
Proof. unfold differsb. intros H (Q1 & Q2 & Q3 & _). rewrite Q1, Q2, Q3, !shs_refl, N.eqb_refl in H. discriminate. Qed.
Definition fitsb (p : string) (ic : N) : bool := N.land ic (fst (pat_mv p)) =? snd (pat_mv p).
Lemma fitsb_ok p ic : fitsb p ic = true <-> fits p ic.
Proof. unfold fitsb. rewrite N.eqb_eq. symmetry. apply pat_fits. Qed.
Definition fillers : list N := [0; 2 ^ 25; 2 ^ 24; 2 ^ 20; 2 ^ 15; 2 ^ 7; 2 ^ 24 + 2 ^ 15; 2 ^ 25 + 2 ^ 15; 2 ^ 12; 2 ^ 12 + 2 ^ 7].
Definition odd_patternb (s : builder * tree) (R : list orow) (M : list minst) (n : string) : bool :=
  existsb (fun o => existsb (fun f => let ic := N.lor (o_v o) f in
    if hit s n ic then forallb (fun m => if String.eqb (mi_name m) n then negb (fitsb (mi_pat m) ic) else true) M else false) fillers) (named_in R n).
Definition odd_operandb (s : builder * tree) (M : list minst) (n : string) : bool :=
  existsb (fun m => if String.eqb (mi_name m) n then existsb (fun f => let ic := N.lor (snd (pat_mv (mi_pat m))) f in
    if fitsb (mi_pat m) ic then
      match pure_info (fst s) (snd s) ic with Ok v => if String.eqb (d_mnemonic (i_di v)) n then differsb m ic (i_di v) else false | _ => false end
    else false) fillers else false) M.
Definition odd_allb (recs : list irec) (M : list minst) (oddp oddo : list string) : bool :=
  match make_decoder [] [] 1 [] [] recs with
  | Ok s => forallb (odd_patternb s (rows recs) M) oddp && forallb (odd_operandb s M) oddo
  | _ => false
  end.
Lemma odd_all recs M oddp oddo : odd_allb recs M oddp oddo = true -> exists s, make_decoder [] [] 1 [] [] recs = Ok s /\
  (forall n, In n oddp -> exists ic v, decode (A := unit) (U := unit) s ic = Ok v /\ d_mnemonic (i_di v) = n /\
     forall m, In m M -> mi_name m = n -> ~ fits (mi_pat m) ic) /\
  (forall n, In n oddo -> exists ic v m, decode (A := unit) (U := unit) s ic = Ok v /\ d_mnemonic (i_di v) = n /\
     In m M /\ mi_name m = n /\ fits (mi_pat m) ic /\ ~ reports m ic (i_di v)).
Proof.
  unfold odd_allb. destruct (make_decoder _ _ _ _ _ _) as [s| | |]; try discriminate. intros H. exists s. split; [reflexivity|].
  apply andb_true_iff in H as [H1 H2]. rewrite forallb_forall in H1, H2. split; intros n Hn.
  - specialize (H1 _ Hn). unfold odd_patternb in H1. apply existsb_exists in H1 as (o & _ & H1). apply existsb_exists in H1 as (f & _ & H1).
    cbv zeta in H1. set (ic := N.lor _ f) in H1. unfold hit in H1. destruct (pure_info _ _ ic) as [v| | |] eqn:E; try discriminate.
    destruct (String.eqb_spec (d_mnemonic (i_di v)) n) as [Q|]; [|discriminate]. exists ic, v. rewrite decode_pure. split; [exact E|]. split; [exact Q|].
    intros m Hm Em F. rewrite forallb_forall in H1. specialize (H1 _ Hm). rewrite Em, String.eqb_refl in H1. apply fitsb_ok in F. rewrite F in H1. discriminate.
  - specialize (H2 _ Hn). unfold odd_operandb in H2. apply existsb_exists in H2 as (m & Hm & H2). destruct (String.eqb_spec (mi_name m) n) as [Em|]; [|discriminate].
    apply existsb_exists in H2 as (f & _ & H2). cbv zeta in H2. set (ic := N.lor _ f) in H2. destruct (fitsb (mi_pat m) ic) eqn:F; [|discriminate].
    destruct (pure_info _ _ ic) as [v| | |] eqn:E; try discriminate. destruct (String.eqb_spec (d_mnemonic (i_di v)) n) as [Q|]; [|discriminate].
    exists ic, v, m. rewrite decode_pure. apply fitsb_ok in F. apply differs in H2. auto 10.
Qed.
Lemma book_odd T B : book_of T B -> odd_allb T (bk_rows B) (bk_patterns B) (bk_operands B) = true.
Proof. intros []; vm_compute; reflexivity. Qed.
Lemma C49_odd_lemma T B : book_of T B -> exists s, make_decoder [] [] 1 [] [] T = Ok s /\
  (forall n, In n (bk_patterns B) -> exists ic v, decode (A := unit) (U := unit) s ic = Ok v /\ d_mnemonic (i_di v) = n /\
     forall m, In m (bk_rows B) -> mi_name m = n -> ~ fits (mi_pat m) ic) /\
  (forall n, In n (bk_operands B) -> exists ic v m, decode (A := unit) (U := unit) s ic = Ok v /\ d_mnemonic (i_di v) = n /\
     In m (bk_rows B) /\ mi_name m = n /\ fits (mi_pat m) ic /\ ~ reports m ic (i_di v)).
Proof. intros H. exact (odd_all _ _ _ _ (book_odd T B H)). Qed.
Lemma ldsp_names : names rv32p [0x6012] = Some [Ok "c.ldsp"%string].
Proof. vm_compute. reflexivity. Qed.
Lemma C49_ldsp_lemma : exists s ic v, make_decoder [] [] 1 [] [] rv32p = Ok s /\ fits ldsp_x0 ic /\ decode (A := unit) (U := unit) s ic = Ok v.
Proof.
  destruct (names_ok _ _ _ ldsp_names) as (s & E & Q). cbn [map] in Q. injection Q as Q. apply name_ok in Q as (v & D & _).
  exists s, 0x6012, v. split; [exact E|]. split; [apply fitsb_ok; vm_compute; reflexivity|exact D].
Qed.
(** Opcodes of the full table: add, c.ebreak (narrower than c.jalr and c.add), the reserved
    c.jr x0, an unknown one. *)
Lemma manual_names : names rv64 [0x00A58533; 0x9002; 0x8002; 0x7F] =
  Some [Ok "add"%string; Ok "c.ebreak"%string; Throw EIllegalOpcode; Throw EUnknownOpcode].
Proof. vm_compute. reflexivity. Qed.
Lemma C49_case : exists s v w, make_decoder [] [] 1 [] [] rv64 = Ok s /\
  decode (A := unit) (U := unit) s 0x00A58533 = Ok v /\ d_mnemonic (i_di v) = "add"%string /\
  decode (A := unit) (U := unit) s 0x9002 = Ok w /\ d_mnemonic (i_di w) = "c.ebreak"%string /\
  decode (A := unit) (U := unit) s 0x8002 = Throw EIllegalOpcode /\ decode (A := unit) (U := unit) s 0x7F = Throw EUnknownOpcode /\
  ~ In "add"%string odd_patterns /\ ~ In "add"%string odd_operands /\ ~ In "c.ebreak"%string odd_patterns /\
  (exists m, mi_name m = "c.jalr"%string /\ In m manual64 /\ fits (mi_pat m) 0x9002) /\
  (exists m, mi_name m = "c.ebreak"%string /\ provided rv64 (mi_name m) /\ closest manual64 rv64 m 0x9002).
Proof.
  destruct (names_ok _ _ _ manual_names) as (s & E & Q). cbn [map] in Q. injection Q as Q1 Q2 Q3 Q4.
  apply name_ok in Q1 as (v & D1 & M1). apply name_ok in Q2 as (w & D2 & M2).
  exists s, v, w. split; [exact E|]. split; [exact D1|]. split; [exact M1|]. split; [exact D2|]. split; [exact M2|].
  split; [destruct (decode s 0x8002); cbn [name_of] in Q3; congruence|]. split; [destruct (decode s 0x7F); cbn [name_of] in Q4; congruence|].
  assert (NI : forall n l, mem n l = false -> ~ In n l) by (intros n l H I; apply mem_in in I; congruence).
  split; [apply NI; reflexivity|]. split; [apply NI; reflexivity|]. split; [apply NI; reflexivity|]. split.
  - assert (X : existsb (fun m => String.eqb (mi_name m) "c.jalr" && fitsb (mi_pat m) 0x9002) manual64 = true) by (vm_compute; reflexivity).
    apply existsb_exists in X as (m & X1 & X2). apply andb_true_iff in X2 as [X2 X3]. apply String.eqb_eq in X2. apply fitsb_ok in X3. eauto.
  - assert (HN : 0 < 1 < w32) by (split; reflexivity).
    assert (NO : ~ In (d_mnemonic (i_di w)) odd_patterns) by (rewrite M2; apply NI; reflexivity).
    assert (X : existsb (fun m => String.eqb (mi_name m) "c.ebreak") manual64 = true) by (vm_compute; reflexivity).
    apply existsb_exists in X as (m0 & X1 & X2). apply String.eqb_eq in X2.
    destruct (C49_instruction_lemma _ _ book64 _ _ _ _ _ _ _ (subseq_refl rv64) HN E unit unit 0x9002 w D2 NO) as [(m & N1 & C)|[Q _]].
    + rewrite kept_all in C. exists m. split; [congruence|]. split; [|exact C]. exact (book_provides _ _ m book64 (proj1 C)).
    + exfalso. apply Q. rewrite M2. exists m0. auto.
Qed.
