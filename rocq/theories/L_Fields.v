(** Claim C66: special fields of the shipped tables. *)
From Coq Require Import NArith List Bool String Lia.
From Verif Require Import M_Base M_Field M_Forms M_Meta M_OperandInfo M_Extract M_Decoded M_Trie M_Builder M_DTable M_Raw.
From Verif Require Import S_Bits L_Bits S_Trie S_Table S_Shipped S_Reserved S_Special S_Manual S_Manual32 S_Classes S_Fields.
From Verif Require Import L_Trie L_Table L_Check L_Decode L_Stores L_Readable L_Claims L_Shipped L_Reserved L_Manual L_ManualFull L_ManualClaims L_DasmTables.
From Verif Require Import L_Classes.
Import ListNotations.
Local Open Scope list_scope.
Local Open Scope N_scope.

Definition answersb (c : xcls) (ffm : N) (s : sfid) : bool :=
  match special_table c s with Some (lo, len, chk) => negb (chk && negb (slice lo len ffm =? 0)) | None => false end.
Definition placedb (c : xcls) (f : sfield) : bool :=
  match special_table c (sf_id f) with Some (lo, len, _) => (lo =? sf_lo f) && (len =? sf_len f) | None => true end.
Lemma answers_spec c ffm f ic : placedb c f = true -> sf_id f <> SF__N ->
  x_spec (ext c ffm) (sf_id f) ic = if answersb c ffm (sf_id f) then Ok (slice (sf_lo f) (sf_len f) ic) else Throw EUnsupportedSpecialField.
Proof.
  unfold placedb, answersb. intros P NN. rewrite C35_lemma. destruct (special_table c (sf_id f)) as [[[lo len] chk]|].
  - apply andb_true_iff in P as [P1 P2]. apply N.eqb_eq in P1 as ->. apply N.eqb_eq in P2 as ->. destruct (chk && _); reflexivity.
  - destruct (sf_id f); try reflexivity. contradiction.
Qed.

Record fitem := mkFi { fi_f : sfield; fi_in : list (N * N); fi_out : list (N * N); fi_extra : list (N * N) }.
Definition field_item (f : sfield) : fitem := mkFi f (map pat_mv (sf_pats f)) (map pat_mv (sf_fixed f)) (map pat_mv (sf_extra f)).
Definition given_okb (t : fitem) (X : list (xcls * N)) (q : N * N) : bool :=
  if (if forallb (fun cf => coverb reg_bits q (fi_in t ++ res_sets cf)) X then forallb (disjointb q) (fi_out t) else false) then true
  else forallb (fun cf => coverb reg_bits q (fi_extra t ++ res_sets cf)) X.
Definition refused_okb (t : fitem) (X : list (xcls * N)) (q : N * N) : bool :=
  let go out := forallb (fun p => if disjointb p q then true else
    forallb (fun cf => coverb reg_bits (both p q) (res_sets cf ++ out)) X) in
  if go (fi_out t) (fi_in t) then go [] (fi_extra t) else false.
Definition fields_okb (T : list irec) (I : list fitem) : bool :=
  let R := rows T in
  forallb (fun r => let X := exts r in forallb (fun y => let '(n, c, ffm, _) := y in
    if forallb (fun t => placedb c (fi_f t)) I then
      forallb (fun o => forallb (fun t => if answersb c ffm (sf_id (fi_f t)) then given_okb t X (o_q o) else refused_okb t X (o_q o)) I) (named_in R n)
    else false) (readings T r)) T.
Definition field_items : list fitem := map field_item special_fields.
Lemma fields_ok m : fields_okb (table_of m) field_items = true.
Proof. destruct m; vm_compute; reflexivity. Qed.

Section Modes.
Context (m : mode) (recs : list irec) (uids : list (string * N)) (annos : list (string * anno)) (nu : N) (incl excl : list pattern) (s : builder * tree).
Context (SB : subseq recs (table_of m)) (HN : 0 < nu < w32) (HD : make_decoder uids annos nu incl excl recs = Ok s).
Context (A U : Type) (ic : N) (v : info) (BD : ic < 2 ^ 64) (DC : decode (A := A) (U := U) s ic = Ok v).
Let K := kept incl excl recs.
Let T := table_of m.
Let SI : forall r, In r K -> In r T := subseq_in _ _ (kept_sub incl excl recs T SB).
Lemma res_out cf (q : N * N) : (match res_set (fst cf) (snd cf) with Some z => ~ inside z ic | None => True end) -> In q (res_sets cf) -> inside q ic -> False.
Proof. unfold res_sets. destruct (res_set _ _) as [z|]; [|intros _ []]. intros H [<-|[]]. exact H. Qed.
Lemma field_read f : In f special_fields ->
  exists b : bool, info_special v (sf_id f) = (if b then Ok (slice (sf_lo f) (sf_len f) ic) else Throw EUnsupportedSpecialField) /\
    (b = true -> has_field f ic \/ extra_field f ic) /\
    (has_field f ic \/ extra_field f ic -> b = true).
Proof.
  intros HF. destruct (mode_checks m) as (_ & _ & C3 & _ & C5 & _).
  destruct (read_rows_x _ _ _ _ _ C3 C5 SI BD (mode_decodes m recs uids annos nu incl excl s SB HN HD A U ic v DC))
    as (r & c & ffm & o & cf & e & y & H1 & H2 & H3 & H4 & H5 & H6 & H7 & _ & _ & _ & X1 & X2 & _).
  pose proof (fields_ok m) as W. unfold fields_okb in W. cbv zeta in W. rewrite forallb_forall in W. specialize (W _ H1). rewrite forallb_forall in W. specialize (W _ H2).
  cbv beta iota in W. destruct (forallb _ field_items) eqn:PL; [|discriminate]. rewrite forallb_forall in PL, W.
  assert (IT : In (field_item f) field_items) by now apply in_map. specialize (PL _ IT). cbn [fi_f field_item] in PL.
  assert (NI : In o (named_in (rows (table_of m)) (d_mnemonic (i_di v)))) by (apply filter_In; split; [auto|now apply String.eqb_eq]).
  specialize (W _ NI). rewrite forallb_forall in W. specialize (W _ IT). cbn [fi_f field_item] in W.
  exists (answersb c ffm (sf_id f)). split.
  { unfold info_special. rewrite X1, X2. apply answers_spec; [exact PL|]. clear - HF.
    repeat (destruct HF as [<-|HF]; [discriminate|]). destruct HF. }
  destruct (answersb c ffm (sf_id f)).
  - split; [|reflexivity]. intros _. unfold given_okb in W. fold (field_item f) in W. cbn [fi_in fi_out fi_extra field_item] in W.
    destruct (forallb _ (exts r)) eqn:FA in W; [destruct (forallb (disjointb (o_q o)) _) eqn:FB in W|].
    2, 3: right; rewrite forallb_forall in W; specialize (W _ H6); destruct (coverb_ok _ _ _ _ W H5) as (q & Q1 & Q2);
      apply in_app_or in Q1 as [Q1|Q1]; [apply in_pats; exists q; auto|exfalso; eapply res_out; eauto].
    left. rewrite forallb_forall in FA, FB. specialize (FA _ H6). destruct (coverb_ok _ _ _ _ FA H5) as (q & Q1 & Q2).
    apply in_app_or in Q1 as [Q1|Q1]; [|exfalso; eapply res_out; eauto]. split; [apply in_pats; exists q; auto|].
    intros Z. apply in_pats in Z as (z & Z1 & Z2). exact (disjointb_ok _ _ _ (FB _ Z1) H5 Z2).
  - split; [discriminate|]. intros HV. exfalso. unfold refused_okb in W. cbv zeta in W. cbn [fi_in fi_out fi_extra field_item] in W.
    assert (GO : forall out ins, forallb (fun p => if disjointb p (o_q o) then true else
        forallb (fun cf => coverb reg_bits (both p (o_q o)) (res_sets cf ++ out)) (exts r)) ins = true ->
        inside_some ins ic -> inside_some out ic).
    { intros out ins W' (p & P1 & P2). rewrite forallb_forall in W'. specialize (W' _ P1).
      destruct (disjointb p (o_q o)) eqn:DJ; [exfalso; exact (disjointb_ok _ _ _ DJ P2 H5)|]. rewrite forallb_forall in W'. specialize (W' _ H6).
      destruct (coverb_ok _ _ _ _ W' (both_ok _ _ _ P2 H5)) as (q & Q1 & Q2). apply in_app_or in Q1 as [Q1|Q1]; [exfalso; eapply res_out; eauto|].
      exists q. auto. }
    destruct (forallb _ (map pat_mv (sf_pats f))) eqn:W1 in W; [|discriminate]. destruct HV as [[V1 V2]|V].
    + apply V2. apply in_pats. apply (GO _ _ W1). now apply in_pats.
    + destruct (GO _ _ W) as (q & [] & _). now apply in_pats.
Qed.
Lemma C66_field_lemma f : In f special_fields ->
  ((has_field f ic \/ extra_field f ic) /\ info_special v (sf_id f) = Ok (slice (sf_lo f) (sf_len f) ic)) \/
  (~ has_field f ic /\ ~ extra_field f ic /\ info_special v (sf_id f) = Throw EUnsupportedSpecialField).
Proof.
  intros HF. destruct (field_read f HF) as (b & B1 & B2 & B3).
  destruct b; [left; auto|right]. split; [|split; [|exact B1]]; intros H; discriminate B3; auto.
Qed.
End Modes.

(** ** Fields the manual does not have *)
Definition hasb (f : sfield) (ic : N) : bool :=
  if existsb (fun p => fitsb p ic) (sf_pats f) then negb (existsb (fun p => fitsb p ic) (sf_fixed f)) else false.
Lemma hasb_ok f ic : hasb f ic = false -> ~ has_field f ic.
Proof.
  unfold hasb. intros H [(p & P1 & P2) Q]. apply fitsb_ok in P2.
  assert (E : existsb (fun p => fitsb p ic) (sf_pats f) = true) by (apply existsb_exists; eauto). rewrite E in H. apply negb_false_iff, existsb_exists in H as (z & Z1 & Z2).
  apply Q. exists z. split; [auto|]. now apply fitsb_ok.
Qed.
Definition extrab (s : builder * tree) (R : list orow) (f : sfield) (p : string) : bool :=
  let q := pat_mv p in
  existsb (fun o => if disjointb q (o_q o) then false else let ic := snd (both q (o_q o)) in
    if ic <? 2 ^ 64 then if fitsb p ic then if hasb f ic then false else
      match pure_info (fst s) (snd s) ic with Ok v => match info_special v (sf_id f) with Ok _ => true | _ => false end | _ => false end else false else false) R.
Definition extrasb (T : list irec) : bool :=
  match make_decoder [] [] 1 [] [] T with
  | Ok s => let R := rows T in forallb (fun f => forallb (extrab s R f) (sf_extra f)) special_fields
  | _ => false
  end.
Lemma extras_ok : extrasb rv64 = true.
Proof. vm_compute. reflexivity. Qed.
Lemma extras_all T : extrasb T = true -> exists s, make_decoder [] [] 1 [] [] T = Ok s /\
  forall f p, In f special_fields -> In p (sf_extra f) -> exists ic v n, ic < 2 ^ 64 /\ decode (A := unit) (U := unit) s ic = Ok v /\
    fits p ic /\ ~ has_field f ic /\ info_special v (sf_id f) = Ok n.
Proof.
  unfold extrasb. intros H. destruct (make_decoder [] [] 1 [] [] T) as [s| | |]; try discriminate. exists s. split; [reflexivity|]. cbv zeta in H.
  intros f p HF HP. rewrite forallb_forall in H. specialize (H _ HF). rewrite forallb_forall in H. specialize (H _ HP).
  unfold extrab in H. cbv zeta in H. apply existsb_exists in H as (o & _ & H). destruct (disjointb _ _); [discriminate|].
  set (ic := snd (both (pat_mv p) (o_q o))) in H. destruct (N.ltb_spec ic (2 ^ 64)) as [LT|]; [|discriminate]. destruct (fitsb p ic) eqn:F1; [|discriminate].
  destruct (hasb f ic) eqn:F2; [discriminate|]. exists ic. rewrite decode_pure. destruct (pure_info _ _ ic) as [v| | |]; try discriminate.
  destruct (info_special v (sf_id f)) as [n| | |] eqn:E; try discriminate. exists v, n. split; [exact LT|]. split; [reflexivity|].
  apply fitsb_ok in F1. apply hasb_ok in F2. auto.
Qed.
Lemma C66_extra_lemma : exists s, make_decoder [] [] 1 [] [] rv64 = Ok s /\
  forall f p, In f special_fields -> In p (sf_extra f) -> exists ic v n, ic < 2 ^ 64 /\ decode (A := unit) (U := unit) s ic = Ok v /\
    fits p ic /\ ~ has_field f ic /\ info_special v (sf_id f) = Ok n.
Proof. exact (extras_all rv64 extras_ok). Qed.

(** ** Examples *)
Definition fielded : list irec := filter (fun r => match r_mn r with Some n => mem n ["fadd.s"; "csrrw"; "amoadd.w"; "vadd.vv"; "vmerge.vvm"; "fence"]%string | None => false end) rv64.
Definition fielded_ops : list N := [0x00C5F553; 0x30559573; 0x04C5A52F; 0x02208157; 0x5C208157; 0x0330000F].
Definition answered (v : info) : list (sfid * N) :=
  flat_map (fun f => match info_special v (sf_id f) with Ok n => [(sf_id f, n)] | _ => [] end) special_fields.
Definition fielded_lists : list (string * list (sfid * N)) := [
  ("fadd.s", [(SF_RM, 7)]); ("csrrw", [(SF_CSR, 773)]); ("amoadd.w", [(SF_AQ, 1); (SF_RL, 0); (SF_VM, 0); (SF_WD, 1)]);
  ("vadd.vv", [(SF_VM, 1)]); ("vmerge.vvm", []); ("fence", [(SF_FM, 0); (SF_PRED, 3); (SF_SUCC, 3); (SF_HINT, 3)])]%string.
Definition views_of (recs : list irec) (ops : list N) : option (list (option (string * list (sfid * N)))) :=
  match make_decoder [] [] 1 [] [] recs with
  | Ok s => Some (map (fun ic => match pure_info (fst s) (snd s) ic with Ok v => Some (d_mnemonic (i_di v), answered v) | _ => None end) ops)
  | _ => None
  end.
Lemma views_of_ok recs ops l : views_of recs ops = Some (map Some l) -> exists s, make_decoder [] [] 1 [] [] recs = Ok s /\
  Forall2 (fun ic x => exists v, decode (A := unit) (U := unit) s ic = Ok v /\ d_mnemonic (i_di v) = fst x /\ answered v = snd x) ops l.
Proof.
  unfold views_of. destruct (make_decoder _ _ _ _ _ recs) as [s| | |]; try discriminate. intros E. exists s. split; [reflexivity|].
  assert (E' : map (fun ic => match pure_info (fst s) (snd s) ic with Ok v => Some (d_mnemonic (i_di v), answered v) | _ => None end) ops = map Some l) by congruence.
  clear E. revert l E'. induction ops as [|ic ops IH]; intros [|x l] E; try discriminate; [constructor|]. cbn [map] in E.
  apply (f_equal (fun l => (hd None l, tl l))) in E. cbn [hd tl] in E. apply pair_equal_spec in E as [E1 E2]. constructor; [|now apply IH].
  rewrite decode_pure. destruct (pure_info _ _ ic) as [v| | |]; try discriminate. exists v. split; [reflexivity|].
  apply (f_equal (fun o => match o with Some x => x | None => (""%string, []) end)) in E1. cbv beta iota in E1. rewrite <- E1. auto.
Qed.
Lemma views_ok : views_of fielded fielded_ops = Some (map Some fielded_lists).
Proof. vm_compute. reflexivity. Qed.
Lemma C66_case : exists s, subseq fielded rv64 /\ make_decoder [] [] 1 [] [] fielded = Ok s /\
  Forall2 (fun ic x => exists v, decode (A := unit) (U := unit) s ic = Ok v /\ d_mnemonic (i_di v) = fst x /\ answered v = snd x) fielded_ops fielded_lists.
Proof. destruct (views_of_ok _ _ _ views_ok) as (s & E & Q). exists s. split; [apply subseq_filter|]. auto. Qed.
