(** Claim C69: compressed instructions and the instructions they abbreviate. *)
From Coq Require Import Ascii NArith ZArith Arith List Bool String Lia.
From Verif Require Import M_Base M_Field M_Forms M_Meta M_OperandInfo M_Extract M_Decoded M_Trie M_Builder M_DTable M_Raw.
From Verif Require Import S_Bits L_Bits S_Trie S_Slots S_Imm S_Pairs S_Agree S_Table S_Shipped S_Reserved S_Manual S_Manual32 S_Sdsp S_Expand.
From Verif Require Import L_Trie L_Table L_Check L_Decode L_Readable L_Decoded L_Regs L_Claims L_Shipped L_Manual L_ManualFull L_ManualClaims L_Sdsp L_Symbolic.
Import ListNotations.
Local Open Scope N_scope.

(** A row of the manual with its bits. *)
Record prow := mkP { p_m : minst; p_b : list (option bool); p_q : N * N }.
Definition prow_of (m : minst) : prow := mkP m (pbits (mi_pat m)) (pat_mv (mi_pat m)).
Section Check.
Context (P Q : list prow) (R UN : list (list (option bool))) (O : list (list (option bool))) (odd : list string).
(** No decoded opcode that is reported by row [m] has these bits (but for the excepted ones). *)
Definition excused (m : prow) (k : list (nat * bool)) : bool :=
  if consistent k then if existsb (fun pb => surely pb 0 B k) UN then true else if existsb (fun pb => surely pb 0 B k) R then true
    else existsb (fun r => if strictly (p_q r) (p_q m) then surely (p_b r) 0 B k else false) Q
  else true.
Definition row_check (ps : list piece) (m : prow) : bool :=
  match learn (p_b m) 0 B with
  | None => true
  | Some k0 =>
      let L := syms ps in let Lx := fun j => nth j L (C false) in let Ln := fun j => norm k0 (Lx j) in
      if existsb (fun r => surely (p_b r) 0 Lx k0) P then
      if forallb (fun pb => match learn pb 0 Ln with None => true | Some k1 => excused m (k1 ++ k0) end) R then
      if forallb (fun pb => match learn pb 0 Ln with None => true | Some k1 => excused m (k1 ++ k0) end) O then
      forallb (fun r => match learn (p_b r) 0 Ln with None => true | Some k1 =>
        let k := (k1 ++ k0)%list in
        if excused m k then true else
        if existsb (fun r' => if strictly (p_q r') (p_q r) then surely (p_b r') 0 Lx k else false) P then true else
        if mem (mi_name (p_m r)) odd then false else same_row ps k (p_m m) (p_m r) end) P
      else false else false else false
  end.
Definition entry_check (e : string * list piece) : bool :=
  if bsrc_eqb (nsym (snd e) 0) (C true) then if (List.length (syms (snd e)) <=? 64)%nat then
    if existsb (fun r => String.eqb (mi_name (p_m r)) (fst e)) P then
      forallb (fun r => if String.eqb (mi_name (p_m r)) (fst e) then row_check (snd e) r else true) P
    else false else false else false.
End Check.
(** The opcodes reported under a name of [bk_patterns] fit its row if bit 12 is 0. *)
Definition shift_check (T : list irec) (P : list prow) (n : string) : bool :=
  forallb (fun o => if String.eqb (o_n o) n then
    match learn (mv_bits (o_mk o, o_v o)) 0 B with
    | None => true
    | Some k => existsb (fun r => if String.eqb (mi_name (p_m r)) n then surely (p_b r) 0 B ((12%nat, false) :: k) else false) P
    end else true) (rows T).
Definition expand_check (T : list irec) (B : book) (l : list (string * list piece)) : bool :=
  let P := map prow_of (bk_rows B) in
  let odd := (bk_operands B ++ bk_pairs B)%list in
  let O := map (fun o => mv_bits (o_mk o, o_v o)) (filter (fun o => mem (o_n o) (bk_patterns B)) (rows T)) in
  let R := map pbits (bk_reserved B) in
  let UN := map pbits unlike in
  forallb (fun e => if mem (fst e) odd then false else
    if mem (fst e) (bk_patterns B) then if mem (fst e) shifts then if shift_check T P (fst e) then entry_check P [] R UN O odd e else false else false
    else entry_check P P R UN O odd e) l.
Lemma known_app ic k k' : known ic k -> known ic k' -> known ic (k ++ k').
Proof. intros H H' i b Q. apply in_app_or in Q as [Q|Q]; [exact (H i b Q)|exact (H' i b Q)]. Qed.

Section Entry.
Context (T : list irec) (BK : book) (BO : book_of T BK) (uids : list (string * N)) (annos : list (string * anno)) (nu : N) (s : builder * tree).
Context (HN : 0 < nu < w32) (HD : make_decoder uids annos nu [] [] T = Ok s) (A U : Type).
Let P := map prow_of (bk_rows BK).
Let odd := (bk_operands BK ++ bk_pairs BK)%list.
Let O := map (fun o => mv_bits (o_mk o, o_v o)) (filter (fun o => mem (o_n o) (bk_patterns BK)) (rows T)).
Let R := map pbits (bk_reserved BK).
Let UN := map pbits unlike.
Let D ic : decodes T (lookup_uid s) ic (decode (A := A) (U := U) s ic).
Proof. pose proof (C38_decodes_lemma T T uids annos nu [] [] s (book_shipped T BK BO) (subseq_refl T) HN HD A U ic) as Q. now rewrite kept_all in Q. Qed.
Let prov m : In m (bk_rows BK) -> provided T (mi_name m) := book_provides T BK m BO.
Let inst ic v : decode (A := A) (U := U) s ic = Ok v -> ~ In (d_mnemonic (i_di v)) (bk_patterns BK) ->
  (exists m, mi_name m = d_mnemonic (i_di v) /\ closest (bk_rows BK) T m ic) \/
  (~ in_manual (bk_rows BK) (d_mnemonic (i_di v)) /\ forall m, In m (bk_rows BK) -> ~ fits (mi_pat m) ic).
Proof. intros E NO. pose proof (C49_instruction_lemma T BK BO T uids annos nu [] [] s (subseq_refl T) HN HD A U ic v E NO) as Q. now rewrite kept_all in Q. Qed.
Let ops ic v : ic < 2 ^ 64 -> decode (A := A) (U := U) s ic = Ok v -> ~ In (d_mnemonic (i_di v)) odd ->
  forall m, In m (bk_rows BK) -> mi_name m = d_mnemonic (i_di v) -> fits (mi_pat m) ic -> reports m ic (i_di v).
Proof.
  intros L E NO. apply (C49_operands_lemma T BK BO T uids annos nu [] [] s (subseq_refl T) HN HD A U ic L v E); intros Q; apply NO, in_or_app; auto.
Qed.
(** Row [m] has opcode [ic], and no row of [Q] that has it is narrower. *)
Definition nearest (Q : list prow) (m : minst) (ic : N) : Prop :=
  fits (mi_pat m) ic /\ forall r, In r Q -> fits (mi_pat (p_m r)) ic -> strictly (p_q r) (pat_mv (mi_pat m)) = false.
Lemma excused_ok Q m ic v k : (forall r, In r Q -> exists m', r = prow_of m') -> ic < 2 ^ 64 -> decode (A := A) (U := U) s ic = Ok v ->
  (forall p, In p unlike -> ~ fits p ic) -> nearest Q m ic -> known ic k -> excused Q R UN (prow_of m) k = false.
Proof.
  intros QP LT E NU [_ NR] HK. destruct (excused Q R UN (prow_of m) k) eqn:X; [exfalso|reflexivity]. unfold excused in X.
  rewrite (consistent_ok _ _ HK) in X.
  destruct (existsb _ UN) eqn:X1 in X.
  { apply existsb_exists in X1 as (pb & I & S). apply in_map_iff in I as (p & <- & I). exact (NU p I (surely_fits _ _ _ HK S)). }
  destruct (existsb _ R) eqn:X2 in X.
  { apply existsb_exists in X2 as (pb & I & S). apply in_map_iff in I as (p & <- & I).
    assert (F : decode (A := A) (U := U) s ic = Throw EIllegalOpcode) by (apply (C49_reserved_lemma T BK uids annos nu s BO HN HD A U ic LT); exists p; split; [exact I|exact (surely_fits _ _ _ HK S)]).
    rewrite F in E. discriminate E. }
  apply existsb_exists in X as (r & I & S). destruct (strictly _ _) eqn:ST in S; [|discriminate]. destruct (QP r I) as (m' & ->). cbn [prow_of p_q p_b p_m] in *.
  specialize (NR _ I (surely_fits _ _ _ HK S)). cbn [prow_of p_q] in NR. rewrite ST in NR. discriminate NR.
Qed.
Lemma row_expands Q ps m ic v : (forall r, In r Q -> exists m', r = prow_of m') -> ic < 2 ^ 64 -> decode (A := A) (U := U) s ic = Ok v ->
  (forall p, In p unlike -> ~ fits p ic) -> nearest Q m ic -> reports m ic (i_di v) ->
  expanded ps ic < 2 ^ 64 -> N.testbit (expanded ps ic) 0 = true -> row_check P Q R UN O odd ps (prow_of m) = true ->
  exists w, decode (A := A) (U := U) s (expanded ps ic) = Ok w /\ alike v w.
Proof.
  intros QP LT E NU NR RP LX B0 CK. unfold row_check in CK. cbv zeta in CK. cbn [prow_of p_b] in CK.
  destruct (fits_learn _ _ (proj1 NR)) as (k0 & K0 & HK0). rewrite K0 in CK. change (fun j => nth j (syms ps) (C false)) with (nsym ps) in CK.
  change (fun j => norm k0 (nth j (syms ps) (C false))) with (fun j => norm k0 (nsym ps j)) in CK.
  destruct (existsb _ P) eqn:CA in CK; [|discriminate]. destruct (forallb _ R) eqn:CB in CK; [|discriminate]. destruct (forallb _ O) eqn:CC in CK; [|discriminate].
  apply existsb_exists in CA as (ra & IA & SA). apply in_map_iff in IA as (ma & <- & IA). cbn [prow_of p_b] in SA. pose proof (surely_fits_x _ _ _ _ HK0 SA) as FA.
  rewrite forallb_forall in CB, CC, CK. set (X := expanded ps ic) in *.
  assert (EX : forall k1, known ic k1 -> excused Q R UN (prow_of m) (k1 ++ k0) = false) by (intros k1 H1; exact (excused_ok Q m ic v _ QP LT E NU NR (known_app _ _ _ H1 HK0))).
  assert (TO := total_lemma T T uids annos nu [] [] s (book_shipped T BK BO) (subseq_refl T) HN HD A U X LX).
  assert (NS : T = rv32p -> ~ sdsp_x0 X).
  { intros _ [S1 _]. apply (f_equal (fun x => N.testbit x 0)) in S1. rewrite slice_testbit in S1. change (0 + 0) with 0 in S1. rewrite B0 in S1. discriminate S1. }
  specialize (TO NS). destruct (decode (A := A) (U := U) s X) as [w|e| |] eqn:EW; [|exfalso|contradiction..].
  2: { destruct TO as [-> | ->].
    - pose proof (C49_unknown_lemma T BK BO T uids annos nu [] [] s (subseq_refl T) HD A U X EW ma IA) as Q1. rewrite kept_all in Q1. exact (Q1 (prov ma IA) FA).
    - apply (C49_reserved_lemma T BK uids annos nu s BO HN HD A U X LX) in EW as (p & I & F). specialize (CB (pbits p) (in_map pbits _ _ I)). cbv beta in CB.
      destruct (fits_learn_x _ _ _ _ HK0 F) as (k1 & K1 & HK1). rewrite K1, (EX k1 HK1) in CB. discriminate CB. }
  exists w. split; [reflexivity|].
  assert (NP : ~ In (d_mnemonic (i_di w)) (bk_patterns BK)).
  { intros I. pose proof (D X) as DX. rewrite EW in DX. pose proof (book_ok T BK BO) as C0. unfold bookb in C0. cbv zeta in C0. repeat (apply andb_true_iff in C0 as [C0 ?]).
    destruct (part_row T ltac:(assumption) T (fun r H => H) (lookup_uid s) X w DX) as (o & e & y & IO & _ & (N1 & _ & N3 & _) & N4 & _).
    assert (IM : In (mv_bits (o_mk o, o_v o)) O).
    { apply in_map_iff. exists o. split; [reflexivity|]. apply filter_In. split; [exact IO|]. apply mem_in. rewrite N1, <- N4. exact I. }
    specialize (CC _ IM). cbv beta in CC. destruct (mv_learn_x (o_mk o, o_v o) _ _ _ HK0 N3) as (k1 & K1 & HK1). rewrite K1, (EX k1 HK1) in CC. discriminate CC. }
  destruct (inst X w EW NP) as [(m2 & N2 & (I2 & F2 & C2))|[_ NF]]; [|destruct (NF ma IA FA)].
  specialize (CK (prow_of m2) (in_map prow_of _ _ I2)). cbv beta in CK. cbn [prow_of p_b p_q p_m] in CK. destruct (fits_learn_x _ _ _ _ HK0 F2) as (k1 & K1 & HK1). rewrite K1, (EX k1 HK1) in CK.
  pose proof (known_app _ _ _ HK1 HK0) as HK.
  destruct (existsb _ P) eqn:CN in CK.
  { exfalso. apply existsb_exists in CN as (r & I & S). apply in_map_iff in I as (m3 & <- & I). cbn [prow_of p_b p_q] in S. destruct (strictly _ _) eqn:ST in S; [|discriminate].
    exact (C2 m3 I (prov m3 I) (surely_fits_x _ _ _ _ HK S) (strictly_narrower _ _ ST)). }
  destruct (mem (mi_name m2) odd) eqn:MO; [discriminate|].
  apply (same_row_ok _ _ _ _ _ _ _ HK CK RP). apply (ops X w LX EW); auto. rewrite <- N2. intros I. apply mem_in in I. congruence.
Qed.
Lemma entry_expands Q n ps ic v : (forall r, In r Q -> exists m', r = prow_of m') -> ic < 2 ^ 64 -> decode (A := A) (U := U) s ic = Ok v ->
  (forall p, In p unlike -> ~ fits p ic) -> d_mnemonic (i_di v) = n -> ~ In n odd ->
  entry_check P Q R UN O odd (n, ps) = true ->
  (in_manual (bk_rows BK) n -> exists m, In m (bk_rows BK) /\ mi_name m = n /\ nearest Q m ic) ->
  exists w, decode (A := A) (U := U) s (expanded ps ic) = Ok w /\ alike v w.
Proof.
  intros QP LT E NU EN NO CK HM. unfold entry_check in CK. cbn [fst snd] in CK. destruct (bsrc_eqb _ _) eqn:C1; [|discriminate]. destruct (Nat.leb _ _) eqn:C2; [|discriminate].
  destruct (existsb _ P) eqn:C3; [|discriminate]. apply existsb_exists in C3 as (r & I & N1). apply in_map_iff in I as (m0 & <- & I0). apply String.eqb_eq in N1. cbn [prow_of p_m] in N1.
  destruct (HM (ex_intro _ m0 (conj I0 N1))) as (m & I & N2 & NR). rewrite forallb_forall in CK. specialize (CK _ (in_map prow_of _ _ I)). cbn [prow_of p_m] in CK. rewrite N2, String.eqb_refl in CK.
  apply Nat.leb_le in C2. apply bsrc_eqb_eq in C1.
  apply (row_expands Q ps m ic v QP LT E NU NR); [|eapply N.lt_le_trans; [apply expanded_lt|apply N.pow_le_mono_r; lia]| |exact CK].
  - apply (ops ic v LT E); [now rewrite EN|exact I|congruence|exact (proj1 NR)].
  - change 0 with (N.of_nat 0). rewrite expanded_bit, C1. reflexivity.
Qed.
Lemma expands l ic v ps : expand_check T BK l = true -> ic < 2 ^ 64 -> decode (A := A) (U := U) s ic = Ok v -> In (d_mnemonic (i_di v), ps) l ->
  (In (d_mnemonic (i_di v)) (bk_patterns BK) -> In (d_mnemonic (i_di v)) shifts -> N.testbit ic 12 = false) ->
  (forall p, In p unlike -> ~ fits p ic) -> exists w, decode (A := A) (U := U) s (expanded ps ic) = Ok w /\ alike v w.
Proof.
  intros CK LT E I SH NU. unfold expand_check in CK. cbv zeta in CK. fold P odd O R UN in CK. rewrite forallb_forall in CK. specialize (CK _ I). cbn [fst] in CK.
  set (n := d_mnemonic (i_di v)) in *. destruct (mem n odd) eqn:MO; [discriminate|]. assert (NO : ~ In n odd) by (intros Q; apply mem_in in Q; congruence).
  destruct (mem n (bk_patterns BK)) eqn:MP.
  - destruct (mem n shifts) eqn:MS; [|discriminate]. destruct (shift_check T P n) eqn:SC; [|discriminate]. apply mem_in in MP, MS.
    apply (entry_expands [] n ps ic v); auto; [intros r []|]. intros _. pose proof (D ic) as DX. rewrite E in DX. pose proof (book_ok T BK BO) as C0. unfold bookb in C0. cbv zeta in C0. repeat (apply andb_true_iff in C0 as [C0 ?]).
    destruct (part_row T ltac:(assumption) T (fun r H => H) (lookup_uid s) ic v DX) as (o & e & y & IO & _ & (N1 & _ & N3 & _) & N4 & _).
    unfold shift_check in SC. rewrite forallb_forall in SC. specialize (SC _ IO). cbv beta in SC. rewrite N1, <- N4 in SC. fold n in SC. rewrite String.eqb_refl in SC.
    destruct (mv_learn (o_mk o, o_v o) _ N3) as (k & K1 & HK). rewrite K1 in SC. apply existsb_exists in SC as (r & IR & S). apply in_map_iff in IR as (m & <- & IR). cbn [prow_of p_m p_b] in S.
    destruct (String.eqb_spec (mi_name m) n) as [Q|]; [|discriminate]. exists m. split; [exact IR|]. split; [exact Q|]. split; [|intros ? []].
    refine (surely_fits _ _ _ _ S). intros i b [J|J]; [injection J as <- <-; exact (SH MP MS)|exact (HK i b J)].
  - apply (entry_expands P n ps ic v); auto; [intros r IR; apply in_map_iff in IR as (m & <- & _); eauto|]. intros IM.
    destruct (inst ic v E) as [(m & N2 & (I2 & F2 & C2))|[NI _]]; [fold n; intros Q; apply mem_in in Q; congruence| |contradiction].
    exists m. split; [exact I2|]. split; [exact N2|]. split; [exact F2|]. intros r IR F. apply in_map_iff in IR as (m' & <- & IR). cbn [prow_of p_m p_q] in *.
    destruct (strictly _ _) eqn:ST; [|reflexivity]. destruct (C2 m' IR (prov m' IR) F (strictly_narrower _ _ ST)).
Qed.
End Entry.
Lemma expand_ok T B l : book_of T B -> expansions_of T l -> expand_check T B l = true.
Proof.
  intros [] E; inversion E as [X|X|X].
  all: try (apply (f_equal (@List.length _)) in X; vm_compute in X; discriminate X).
  all: try (apply (f_equal (fun l => match rev l with r :: _ => r_mn r | _ => None end)) in X; vm_compute in X; discriminate X).
  all: clear E; try clear X; vm_compute; reflexivity.
Qed.
Lemma expansions_book T l : expansions_of T l -> exists B, book_of T B.
Proof. intros []; eexists; constructor. Qed.
Lemma no_shifts_64 B : book_of rv64 B -> forallb (fun n => negb (mem n (bk_patterns B))) shifts = true.
Proof.
  intros E. inversion E as [X|X|X].
  - vm_compute. reflexivity.
Qed.
Lemma C69_lemma T l uids annos nu s : expansions_of T l -> 0 < nu < w32 -> make_decoder uids annos nu [] [] T = Ok s ->
  forall A U ic v ps, ic < 2 ^ 64 -> decode (A := A) (U := U) s ic = Ok v -> In (d_mnemonic (i_di v), ps) l ->
  (T <> rv64 -> In (d_mnemonic (i_di v)) shifts -> N.testbit ic 12 = false) -> (forall p, In p unlike -> ~ fits p ic) ->
  exists w, decode (A := A) (U := U) s (expanded ps ic) = Ok w /\ alike v w.
Proof.
  intros EX HN HD A U ic v ps LT E I SH NU. destruct (expansions_book T l EX) as (B & BO).
  apply (expands T B BO uids annos nu s HN HD A U l ic v ps (expand_ok T B l BO EX) LT E I); [|exact NU].
  intros MP MS. apply SH; [|exact MS]. intros ->. pose proof (no_shifts_64 B BO) as Q. rewrite forallb_forall in Q. specialize (Q _ MS). apply negb_true_iff in Q. apply mem_in in MP. rewrite MP in Q. discriminate Q.
Qed.
