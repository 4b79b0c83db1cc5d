(** Shifts, which RV32 and RV64 describe by the forms ISHW and ISH, report the same facts (C71). *)
From Coq Require Import NArith List Bool String Lia ZifyBool ZifyN.
From Verif Require Import M_Base M_Field M_Forms M_Meta M_OperandInfo M_Extract M_Decoded M_Registry M_Trie M_Builder M_DTable M_Raw G_Tables.
From Verif Require Import S_Bits L_Bits S_Trie S_Table S_Shipped S_Both L_Trie L_Table L_Decode L_Total L_Shipped L_Claims L_Both L_BothShipped.
Import ListNotations.
Local Open Scope N_scope.

(** ** The two extractors *)
Definition mates (x x' : Ext) (ic : N) : Prop :=
  x_hint x ic = x_hint x' ic /\ x_src x ic = x_src x' ic /\ x_addr x ic = x_addr x' ic /\
  x_data x ic = x_data x' ic /\ x_dst x ic = x_dst x' ic /\ (forall m k, x_srcT x ic m k = x_srcT x' ic m k) /\
  (forall m k, x_dstT x ic m k = x_dstT x' ic m k) /\ (forall m b, x_srcI x ic m b = x_srcI x' ic m b) /\
  (forall m b, x_dstI x ic m b = x_dstI x' ic m b) /\ x_immT x = x_immT x' /\ x_imm x ic = x_imm x' ic /\ x_soff x ic = x_soff x' ic /\
  forall f, x_spec x f ic = x_spec x' f ic.
Lemma six_ext f g : (forall k, f k = g k) -> six f = six g.
Proof. intros H. unfold six. now rewrite !H. Qed.
Lemma mates_info n u x x' m ic : mates x x' ic -> decode_info n u x m ic = decode_info n u x' m ic.
Proof.
  intros (H1 & H2 & H3 & H4 & H5 & H6 & H7 & H8 & H9 & H10 & H11 & H12 & _). unfold decode_info.
  now rewrite H1, H2, H3, H4, H5, (six_ext _ _ (H6 m)), (six_ext _ _ (H7 m)), H8, H9, H10, H11, H12.
Qed.
Lemma shamt_short ic : N.testbit ic 25 = false -> f_extract ISH_SHAMT ic = f_extract ISHW_SHAMTW ic.
Proof.
  intros H. apply N.bits_inj. intros i. rewrite !f_extract_testbit by (unfold fok; cbn [f_len f_rpos ISH_SHAMT ISHW_SHAMTW]; lia). cbn [f_len f_rpos ISH_SHAMT ISHW_SHAMTW].
  destruct (N.eq_dec i 5) as [->|N5]; [|f_equal; lia]. exact H.
Qed.
Lemma imm_ish f ic : x_imm (ext X_ISH f) ic = Ok (f_extract ISH_SHAMT ic).
Proof. reflexivity. Qed.
Lemma imm_ishw f ic : x_imm (ext X_ISHW f) ic = Ok (f_extract ISHW_SHAMTW ic).
Proof. reflexivity. Qed.
Lemma soff_ish f ic : x_soff (ext X_ISH f) ic = Ok (to_i64 (f_extract ISH_SHAMT ic)).
Proof. reflexivity. Qed.
Lemma soff_ishw f ic : x_soff (ext X_ISHW f) ic = Ok (to_i64 (f_extract ISHW_SHAMTW ic)).
Proof. reflexivity. Qed.
Lemma mates_plain ic : N.testbit ic 25 = false -> mates (ext X_ISH 0) (ext X_ISHW 0) ic.
Proof.
  intros H. apply shamt_short in H. unfold mates. rewrite imm_ish, imm_ishw, soff_ish, soff_ishw, H.
  do 12 (split; [intros; reflexivity|]). intros; reflexivity.
Qed.
Lemma mates_fixed ic : N.testbit ic 25 = false -> mates (ext X_ISH 0x3F00000) (ext X_ISHW 0x1F00000) ic.
Proof.
  intros H. apply shamt_short in H. unfold mates. rewrite imm_ish, imm_ishw, soff_ish, soff_ishw, H.
  do 12 (split; [intros; reflexivity|]). intros; reflexivity.
Qed.

(** ** The records *)
(** Form ISH (true) or ISHW, and whether the shift amount is fixed. *)
Definition shape (w : raw) : option (bool * bool) :=
  match w_overlay w, w_xform w, w_expand w, w_ignore w, w_form w with
  | None, None, None, [], Some fn =>
      if String.eqb fn "ISH" then
        match w_fixed w with [] => Some (true, false) | [n] => if String.eqb n "shamt" then Some (true, true) else None | _ => None end
      else if String.eqb fn "ISHW" then
        if forallb (fun st => negb (N.testbit st 25)) ((match w_stencil w with Some n => n | None => 0 end) :: w_alias w) then
          match w_fixed w with [] => Some (false, false) | [n] => if String.eqb n "shamtw" then Some (false, true) else None | _ => None end
        else None
      else None
  | _, _, _, _, _ => None
  end.
Definition shapesb (all : list raw) : bool :=
  forallb (fun w => match w_mn w with
    | Some n => if mem n shifts then match shape w with Some _ => true | None => false end else true
    | None => true end) all.
Lemma all_shapes : shapesb all_raw = true.
Proof. vm_compute. reflexivity. Qed.
Lemma shift_shape w n : In w all_raw -> w_mn w = Some n -> In n shifts -> exists p, shape w = Some p.
Proof.
  intros I N S. pose proof all_shapes as H. unfold shapesb in H. rewrite forallb_forall in H. specialize (H w I). rewrite N in H.
  apply mem_in in S. rewrite S in H. destruct (shape w); [eauto|discriminate].
Qed.
Definition shape_ext (p : bool * bool) : Ext :=
  if fst p then ext X_ISH (if snd p then 0x3F00000 else 0) else ext X_ISHW (if snd p then 0x1F00000 else 0).
Lemma shape_inv w p : shape w = Some p -> w_overlay w = None /\ w_xform w = None /\ w_expand w = None /\ w_ignore w = [] /\
  ((fst p = true /\ w_form w = Some "ISH"%string /\ w_fixed w = if snd p then ["shamt"]%string else []) \/
   (fst p = false /\ w_form w = Some "ISHW"%string /\ (w_fixed w = if snd p then ["shamtw"]%string else []) /\
    forall st, In st (r_stencil (rec_of w) :: r_alias (rec_of w)) -> N.testbit st 25 = false)).
Proof.
  unfold shape. destruct (w_overlay w); [discriminate|]. destruct (w_xform w); [discriminate|]. destruct (w_expand w); [discriminate|].
  destruct (w_ignore w); [|discriminate]. destruct (w_form w) as [fn|]; [|discriminate].
  intros H. do 4 (split; [reflexivity|]). destruct (String.eqb fn "ISH") eqn:E1; [|destruct (String.eqb fn "ISHW") eqn:E2; [|discriminate]].
  - left. apply String.eqb_eq in E1. subst fn. destruct (w_fixed w) as [|n l]; [injection H as <-; auto|]. destruct l; [|discriminate].
    destruct (String.eqb n "shamt") eqn:E; [|discriminate]. apply String.eqb_eq in E. injection H as <-. subst n. auto.
  - right. apply String.eqb_eq in E2. subst fn. destruct (forallb _ _) eqn:F; [|discriminate]. rewrite forallb_forall in F.
    assert (B : forall st, In st (r_stencil (rec_of w) :: r_alias (rec_of w)) -> N.testbit st 25 = false) by (intros st I; apply negb_true_iff, F, I).
    destruct (w_fixed w) as [|n l]; [injection H as <-; auto|]. destruct l; [|discriminate].
    destruct (String.eqb n "shamtw") eqn:E; [|discriminate]. apply String.eqb_eq in E. injection H as <-. subst n. auto.
Qed.
Lemma form_ish : get_form "ISH" = Ok form_ISH. Proof. reflexivity. Qed.
Lemma form_ishw : get_form "ISHW" = Ok form_ISHW. Proof. reflexivity. Qed.
Lemma shape_extractor w p e x : shape w = Some p -> In e (rec_encs (rec_of w)) -> extractor_of (rec_of w) e x -> x = shape_ext p.
Proof.
  intros H I X. apply shape_inv in H as (O & XF & _ & _ & D). destruct (listed_mn _ _ I) as (_ & FX & _). apply (extractor_of_fun (rec_of w) e); [exact X|]. clear x X.
  assert (FM : en_form e = if fst p then form_ISH else form_ISHW).
  { unfold rec_encs in I. cbn [rec_of r_mn r_overlay r_form r_stencil r_alias r_ignore r_fixed] in I. rewrite O in I. destruct (w_mn w); [|destruct I].
    destruct D as [(-> & D & _)|(-> & D & _)]; rewrite D in I; [rewrite form_ish in I|rewrite form_ishw in I]; apply in_map_iff in I as (st & <- & _); reflexivity. }
  assert (CL : rec_class (rec_of w) = Ok (if fst p then X_ISH else X_ISHW)).
  { unfold rec_class. cbn [rec_of r_xform r_form]. rewrite XF. destruct D as [(-> & -> & _)|(-> & -> & _)]; reflexivity. }
  exists (if fst p then X_ISH else X_ISHW). split; [exact CL|]. cbn [rec_of r_fixed] in FX.
  destruct D as [(E & _ & F)|(E & _ & F & _)]; rewrite E in *; rewrite F in FX; unfold shape_ext; rewrite E; destruct (snd p).
  - right. rewrite FX. split; [discriminate|]. exists 0x3F00000. split; [|reflexivity]. unfold fixed_bits. rewrite FX, FM.
    apply fixed_mask_bits; [exact (registry_ok _ _ form_ish)|reflexivity].
  - left. auto.
  - right. rewrite FX. split; [discriminate|]. exists 0x1F00000. split; [|reflexivity]. unfold fixed_bits. rewrite FX, FM.
    apply fixed_mask_bits; [exact (registry_ok _ _ form_ishw)|reflexivity].
  - left. auto.
Qed.
Lemma shape_bit w b e ic : shape w = Some (false, b) -> In e (rec_encs (rec_of w)) -> matches e ic -> N.testbit ic 25 = false.
Proof.
  intros H I (_ & M & _). apply shape_inv in H as (O & _ & _ & IG & [(E & _)|(_ & F & _ & S)]); [discriminate|].
  unfold rec_encs in I. change (r_form (rec_of w)) with (w_form w) in I. rewrite F, form_ishw in I.
  change (r_overlay (rec_of w)) with (match w_overlay w with Some (b, m) => Some (mkJO b m) | None => None end) in I. rewrite O in I.
  change (r_ignore (rec_of w)) with (w_ignore w) in I. rewrite IG in I.
  destruct (r_mn (rec_of w)) as [mn|]; [|destruct I]. apply in_map_iff in I as (st & <- & I).
  specialize (M ISHW_FUNC7). cbn [en_form en_stencil] in M. rewrite <- (S st I).
  assert (A : agree_on ISHW_FUNC7 ic st) by (apply M; [cbn; tauto|intros []]). pose proof (proj1 (agree_on_bits _ _ _) A 0) as Q. apply Q. cbn [f_len ISHW_FUNC7]. reflexivity.
Qed.

(** ** Decoding *)
Section Shifts.
Context (uids uids' : list (string * N)) (annos annos' : list (string * anno)) (nu nu' : N)
  (incl excl incl' excl' : list pattern) (recs recs' : list irec) (s s' : builder * tree) (ic : N).
Context (HN : 0 < nu < w32) (HN' : 0 < nu' < w32)
  (HD : make_decoder uids annos nu incl excl recs = Ok s)
  (HD' : make_decoder uids' annos' nu' incl' excl' recs' = Ok s').
Let K := kept incl excl recs.
Let K' := kept incl' excl' recs'.
Context (WF : well_formed K) (WF' : well_formed K').
Context (HK : forall r, In r K -> exists w, In w all_raw /\ r = rec_of w) (HK' : forall r, In r K' -> exists w, In w all_raw /\ r = rec_of w).

Lemma shift_reading X r e y : (forall r, In r X -> exists w, In w all_raw /\ r = rec_of w) -> listed X r e -> reads X r e ic y -> In (rd_mn y) shifts ->
  exists w p, In w all_raw /\ r = rec_of w /\ w_mn w = Some (rd_mn y) /\ shape w = Some p /\ own_meta r = Ok (rd_meta y) /\ rd_x y = shape_ext p.
Proof.
  intros HX L [((R1 & R2 & R3) & _)|(ro & mask & I & ((RN & jo & RO & _) & _) & _)] S.
  - destruct (HX r (proj1 L)) as (w & W & ->). destruct (listed_mn _ _ (proj2 L)) as ([N _] & _).
    assert (N' : w_mn w = Some (rd_mn y)) by (rewrite R1; exact N).
    destruct (shift_shape w _ W N' S) as (p & P). exists w, p. split; [exact W|]. split; [reflexivity|]. split; [exact N'|]. split; [exact P|].
    split; [|exact (shape_extractor w p e _ P (proj2 L) R3)]. pose proof (shape_inv w p P) as (_ & _ & E & _).
    destruct R2 as [[_ R2]|[R2 _]]; [exact R2|]. exfalso. apply R2. cbn [rec_of r_expand]. now rewrite E.
  - exfalso. destruct (HX ro I) as (w & W & ->). destruct (shift_shape w _ W RN S) as (p & P). apply shape_inv in P as (O & _).
    cbn [rec_of r_overlay] in RO. rewrite O in RO. discriminate.
Qed.
Lemma shift_facts {A U} v v' : decode (A := A) (U := U) s ic = Ok v -> decode (A := A) (U := U) s' ic = Ok v' ->
  d_mnemonic (i_di v) = d_mnemonic (i_di v') -> In (d_mnemonic (i_di v)) shifts ->
  i_icode v = i_icode v' /\ but_uid (i_di v) = but_uid (i_di v') /\ i_meta v = i_meta v' /\ forall f, x_spec (i_x v) f ic = x_spec (i_x v') f ic.
Proof.
  intros H H' EM S.
  destruct (outcome _ _ _ _ _ _ _ HN HD WF (A := A) (U := U) ic) as [[N1 Q1]|(r & e & x & L & SE & X & [[D Q1]|(D & y & u & RY & AN & _)])]; try congruence.
  destruct (outcome _ _ _ _ _ _ _ HN' HD' WF' (A := A) (U := U) ic) as [[N2 Q2]|(r' & e' & x' & L' & SE' & X' & [[D' Q2]|(D' & y' & u' & RY' & AN' & _)])]; try congruence.
  rewrite H in AN. rewrite H' in AN'. unfold answers in AN, AN'. rewrite info_uid in AN, AN'.
  destruct (decode_info (rd_mn y) _ _ _ _) as [d| | |] eqn:E; cbn [rbind] in AN; try discriminate. destruct AN as [a [= ->]].
  destruct (decode_info (rd_mn y') _ _ _ _) as [d'| | |] eqn:E'; cbn [rbind] in AN'; try discriminate. destruct AN' as [a' [= ->]].
  cbn [i_di i_meta i_icode i_x] in *.
  change (d_mnemonic (with_uid u d)) with (d_mnemonic d) in *. change (d_mnemonic (with_uid u' d')) with (d_mnemonic d') in *.
  rewrite (info_name _ _ _ _ _ _ E), (info_name _ _ _ _ _ _ E') in *.
  destruct (shift_reading K r e y HK L RY S) as (w & p & W & -> & N & P & OM & XE).
  assert (S' : In (rd_mn y') shifts) by now rewrite <- EM.
  destruct (shift_reading K' r' e' y' HK' L' RY' S') as (w' & p' & W' & -> & N' & P' & OM' & XE').
  rewrite <- EM in N'. destruct (alikeb_ok _ all_alike w w' _ W W' N N') as (A1 & A2 & _).
  assert (MM : rd_meta y = rd_meta y') by (pose proof (own_meta_alike w w' A1 A2); congruence).
  assert (XX : mates (rd_x y) (rd_x y') ic).
  { rewrite XE, XE'. pose proof (shape_inv w p P) as (_ & _ & _ & _ & C). pose proof (shape_inv w' p' P') as (_ & _ & _ & _ & C').
    assert (SN : snd p = snd p').
    { unfold same_fixed in A2. destruct C as [(_ & _ & F)|(_ & _ & F & _)], C' as [(_ & _ & F')|(_ & _ & F' & _)]; rewrite F, F' in A2;
        destruct (snd p), (snd p'); try reflexivity; destruct (ls_dec _ _) as [Z|]; try discriminate Z; discriminate A2. }
    assert (SELF : forall q, mates q q ic) by (intros q; unfold mates; auto 20).
    assert (SYM : forall q q', mates q q' ic -> mates q' q ic) by (unfold mates; intros q q' Z; decompose [and] Z; auto 20).
    destruct p as [f b], p' as [f' b']. cbn [snd] in SN. subst b'. unfold shape_ext. cbn [fst snd].
    destruct f, f'; [apply SELF| | |apply SELF].
    - assert (B : N.testbit ic 25 = false) by (apply (shape_bit w' b e'); [exact P'|apply L'|apply SE']).
      destruct b; [now apply mates_fixed|now apply mates_plain].
    - assert (B : N.testbit ic 25 = false) by (apply (shape_bit w b e); [exact P|apply L|apply SE]).
      apply SYM. destruct b; [now apply mates_fixed|now apply mates_plain]. }
  split; [reflexivity|]. split; [|split; [exact MM|]].
  - rewrite EM, MM, (mates_info _ _ _ _ _ _ XX) in E. assert (d = d') as <- by congruence. reflexivity.
  - destruct XX as (_ & _ & _ & _ & _ & _ & _ & _ & _ & _ & _ & _ & Q). exact Q.
Qed.
End Shifts.

Lemma shipped_shifts T T' recs recs' uids uids' annos annos' nu nu' incl excl incl' excl' s s' :
  shipped T -> shipped T' -> subseq recs T -> subseq recs' T' -> 0 < nu < w32 -> 0 < nu' < w32 ->
  make_decoder uids annos nu incl excl recs = Ok s -> make_decoder uids' annos' nu' incl' excl' recs' = Ok s' ->
  forall A U ic v v', decode (A := A) (U := U) s ic = Ok v -> decode (A := A) (U := U) s' ic = Ok v' ->
  d_mnemonic (i_di v) = d_mnemonic (i_di v') -> In (d_mnemonic (i_di v)) shifts ->
  i_icode v = i_icode v' /\ but_uid (i_di v) = but_uid (i_di v') /\ i_meta v = i_meta v' /\
  forall f, x_spec (i_x v) f ic = x_spec (i_x v') f ic.
Proof.
  intros HT HT' S S' HN HN' HD HD' A U ic v v' H H' EM NR.
  exact (shift_facts _ _ _ _ _ _ _ _ _ _ _ _ _ _ ic HN HN' HD HD' (shipped_kept_wf _ _ _ _ HT S) (shipped_kept_wf _ _ _ _ HT' S')
    (part_all _ _ _ _ HT S) (part_all _ _ _ _ HT' S') v v' H H' EM NR).
Qed.
