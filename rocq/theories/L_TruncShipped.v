(** The shipped tables keep to the length of their instructions (C70). *)
From Coq Require Import NArith ZArith List Bool String Lia.
From Verif Require Import M_Base M_Field M_Forms M_Meta M_OperandInfo M_Extract M_Decoded M_Builder M_DTable S_Shipped.
From Verif Require Import S_Bits L_Bits S_Trie S_Table S_Trunc L_Count L_Trie L_Table L_Calm L_Decode L_Check L_Shipped L_Claims L_Trunc.
Import ListNotations.
Local Open Scope N_scope.

Definition within (e : enc) (f : field) : bool := f_rpos f + f_len f <=? ilen (en_stencil e).
Definition ignoredb (e : enc) (f : field) : bool := existsb (String.eqb (f_name f)) (en_ign e).
Definition fixed_in (e : enc) : bool :=
  forallb (fun n => forallb (fun p => if String.eqb n (fst p) then match nth_error (fm_fields (en_form e)) (snd p) with Some f => within e f | None => true end else true)
    (fm_names (en_form e))) (en_fixed e).
Definition not_zero (e : enc) : bool :=
  if length_class (en_stencil e) =? 0
  then existsb (fun f => if ignoredb e f then false else negb (slice (f_rpos f) (f_len f) (en_stencil e) =? 0)) (fm_ocfields (en_form e))
  else true.
Definition enc_tidy (c : xcls) (e : enc) : bool :=
  if forallb (fun f => if ignoredb e f then true else within e f) (fm_ocfields (en_form e)) then
  if fixed_in e then
  if (if ilen (en_stencil e) =? 16 then compact c else true) then
  if not_zero e then true else
    match en_fixed e with [] => match x_illop (ext c 0) 0 with Ok b => b | _ => false end | _ => false end
  else false else false else false.
Definition rec_tidy (r : irec) : bool :=
  match rec_encs r with
  | [] => true
  | es => match rec_class r with Ok c => forallb (enc_tidy c) es | _ => false end
  end.
Definition over_tidy (ro : irec) (base : string) (mask : N) (r : irec) : bool :=
  forallb (fun e => if String.eqb base (en_mn e) then
    if mask <? 2 ^ ilen (en_stencil e) then
      match r_xform ro with
      | None => true
      | Some n => match get_extractor n with Ok c => if ilen (en_stencil e) =? 16 then compact c else true | _ => true end
      end
    else false else true) (rec_encs r).
Definition overlay_tidy (recs : list irec) (ro : irec) : bool :=
  match r_overlay ro with
  | Some jo => match jo_base jo, jo_match jo with
               | Some base, Some [mask; value] => forallb (over_tidy ro base mask) recs
               | _, _ => true
               end
  | None => true
  end.
Definition tidyb (recs : list irec) : bool := if forallb rec_tidy recs then forallb (overlay_tidy recs) recs else false.

Lemma tidy_ok recs : tidyb recs = true -> tidy recs.
Proof.
  intros H. unfold tidyb in H. destruct (forallb rec_tidy recs) eqn:H0; [|discriminate]. rewrite forallb_forall in H, H0.
  assert (EN : forall r e, listed recs r e -> exists c, rec_class r = Ok c /\ enc_tidy c e = true).
  { intros r e [L1 L2]. specialize (H0 r L1). unfold rec_tidy in H0.
    destruct (rec_encs r) as [|e0 es]; [destruct L2|]. destruct (rec_class r) as [c| | |]; try discriminate.
    exists c. split; [reflexivity|]. rewrite forallb_forall in H0. apply H0, L2. }
  assert (OV : forall ro mn mask value r e, In ro recs -> listed recs r e -> overlays ro mn (en_mn e) mask value ->
    mask < 2 ^ ilen (en_stencil e) /\
    forall n c, ilen (en_stencil e) = 16 -> r_xform ro = Some n -> get_extractor n = Ok c -> compact c = true).
  { intros ro mn mask value r e Hr [L1 L2] (_ & jo & O1 & O2 & O3). specialize (H ro Hr). unfold overlay_tidy in H.
    rewrite O1, O2, O3 in H. rewrite forallb_forall in H. specialize (H r L1). unfold over_tidy in H. rewrite forallb_forall in H.
    specialize (H e L2). cbn beta in H. rewrite String.eqb_refl in H. destruct (mask <? _) eqn:E; [|discriminate].
    split; [now apply N.ltb_lt|]. intros n c Z X G. rewrite X, G, Z in H. exact H. }
  assert (IG : forall e f, ignoredb e f = true <-> ignores e f) by (intros; apply ignored_In).
  constructor.
  - intros r e f L F NI. destruct (EN r e L) as (c & _ & Q). unfold enc_tidy in Q.
    destruct (forallb _ _) eqn:E in Q; [|discriminate]. rewrite forallb_forall in E. specialize (E f F). cbn beta in E.
    destruct (ignoredb e f) eqn:EI; [apply IG in EI; contradiction|]. now apply N.leb_le.
  - intros r e n f L F (i & N1 & N2). destruct (EN r e L) as (c & _ & Q). unfold enc_tidy in Q.
    destruct (forallb _ _) in Q; [|discriminate]. destruct (fixed_in e) eqn:E in Q; [|discriminate].
    unfold fixed_in in E. rewrite forallb_forall in E. specialize (E n F). rewrite forallb_forall in E. specialize (E _ N1).
    cbn [fst snd] in E. rewrite String.eqb_refl, N2 in E. now apply N.leb_le.
  - intros r e c L Z RC. destruct (EN r e L) as (c' & RC' & Q). assert (c' = c) as -> by congruence. unfold enc_tidy in Q.
    destruct (forallb _ _) in Q; [|discriminate]. destruct (fixed_in e) in Q; [|discriminate]. rewrite Z in Q. cbn in Q.
    destruct (compact c); [reflexivity|discriminate].
  - intros ro mn mask value r e Hr L O. apply (OV _ _ _ _ _ _ Hr L O).
  - intros ro mn mask value r e n c Hr L O. apply (OV _ _ _ _ _ _ Hr L O).
  - intros r e x L M (c & RC & X). destruct (EN r e L) as (c' & RC' & Q). assert (c' = c) as -> by congruence. unfold enc_tidy in Q.
    destruct (forallb _ _) in Q; [|discriminate]. destruct (fixed_in e) in Q; [|discriminate].
    destruct (if ilen _ =? 16 then _ else _) in Q; [|discriminate].
    assert (NZ : not_zero e = false).
    { destruct (not_zero e) eqn:E; [exfalso|reflexivity]. unfold not_zero in E. destruct M as (M1 & M2 & _).
      rewrite <- M1 in E. change (length_class 0) with 0 in E. cbn [N.eqb] in E. apply existsb_exists in E as (f & F1 & F2).
      destruct (ignoredb e f) eqn:EI; [discriminate|]. specialize (M2 f F1). rewrite <- M2 in F2 by (intros Y; apply IG in Y; congruence).
      assert (slice (f_rpos f) (f_len f) 0 = 0) as Z0; [|rewrite Z0 in F2; discriminate].
      unfold slice. rewrite ?N.div_0_l, ?N.mod_0_l by (apply N.pow_nonzero; lia). reflexivity. }
    rewrite NZ in Q. destruct X as [[X1 ->]|[X1 _]]; [|destruct (en_fixed e); [congruence|discriminate]].
    rewrite X1 in Q. unfold reserved. destruct (x_illop (ext c 0) 0) as [b| | |]; try discriminate. now rewrite Q.
Qed.
Lemma tidy_sub recs recs' : (forall r, In r recs -> In r recs') -> tidy recs' -> tidy recs.
Proof.
  intros S [T1 T2 T3 T4 T5 T6]. assert (L : forall r e, listed recs r e -> listed recs' r e) by (intros r e [Q1 Q2]; split; auto).
  constructor; eauto.
Qed.
Lemma rv64_tidy : tidyb rv64 = true. Proof. vm_compute. reflexivity. Qed.
Lemma rv32f_tidy : tidyb rv32f = true. Proof. vm_compute. reflexivity. Qed.
Lemma rv32p_tidy : tidyb rv32p = true. Proof. vm_compute. reflexivity. Qed.
Lemma shipped_tidy T : shipped T -> tidy T.
Proof. intros []; apply tidy_ok; [exact rv64_tidy|exact rv32f_tidy|exact rv32p_tidy]. Qed.

Lemma C70_shipped_lemma T recs uids annos nu incl excl s : shipped T -> subseq recs T -> make_decoder uids annos nu incl excl recs = Ok s ->
  forall A U ic, same_report (decode (A := A) (U := U) s ic) (decode (A := A) (U := U) s (own_bits ic)).
Proof.
  intros H S HD A U ic. apply (decode_own uids annos nu incl excl recs s HD (shipped_kept_wf incl excl recs T H S)).
  apply (tidy_sub _ T); [|now apply shipped_tidy]. exact (subseq_in _ _ (kept_sub incl excl recs T S)).
Qed.
Lemma C70_any_lemma uids annos nu incl excl recs s : make_decoder uids annos nu incl excl recs = Ok s ->
  well_formed (kept incl excl recs) -> tidy (kept incl excl recs) ->
  forall A U ic, same_report (decode (A := A) (U := U) s ic) (decode (A := A) (U := U) s (own_bits ic)).
Proof. intros HD WF TD A U ic. exact (decode_own uids annos nu incl excl recs s HD WF TD ic). Qed.
