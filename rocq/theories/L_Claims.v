(** The claims about decoding in their final form (P_Decode, P_Shipped). *)
From Coq Require Import NArith ZArith Arith List Bool String Lia Permutation.
From Verif Require Import M_Base M_Field M_Forms M_Meta M_OperandInfo M_Extract M_Decoded M_Trie M_Builder M_DTable M_Raw.
From Verif Require Import G_Tables S_Bits S_Trie S_Agree S_Table S_Shipped L_Trie L_Table L_Check L_Calm L_Decode L_Ids L_Total L_Readable L_Shipped.
Import ListNotations.
Local Open Scope N_scope.

(** ** C18 *)
Lemma C18_kept_lemma incl excl recs r : In r (kept incl excl recs) <-> In r recs /\ wanted incl excl (r_tags r).
Proof. unfold kept. rewrite filter_In, wantedb_spec. tauto. Qed.
Lemma C18_configure_lemma incl excl recs s : (forall r, In r recs -> r_mn r = None -> r_pseudo r <> None) ->
  configure incl excl recs s = configure [] [] (kept incl excl recs) s.
Proof.
  intros H. revert s. induction recs as [|r recs IH]; intros s; [reflexivity|]. cbn [configure kept filter].
  assert (IH' : forall s, configure incl excl recs s = configure [] [] (kept incl excl recs) s) by (apply IH; intros; apply H; auto with datatypes).
  rewrite C18_filter_lemma. destruct (r_mn r) as [mn|] eqn:EM.
  - destruct (wantedb incl excl (r_tags r)); [|apply IH']. cbn [configure]. rewrite EM, C18_filter_lemma.
    unfold wantedb at 1, hits. cbn. assert (existsb (fun _ : string => false) (r_tags r) = false) as ->.
    { induction (r_tags r); auto. }
    cbn. destruct (parse_inst s r mn); cbn [rbind]; auto.
  - destruct (r_pseudo r) eqn:EP; [|exfalso; apply (H r); auto with datatypes].
    destruct (wantedb incl excl (r_tags r)); [|apply IH']. cbn [configure]. rewrite EM, EP. apply IH'.
Qed.
Lemma C18_decoder_lemma uids annos nu incl excl recs : (forall r, In r recs -> r_mn r = None -> r_pseudo r <> None) ->
  make_decoder uids annos nu incl excl recs = make_decoder uids annos nu [] [] (kept incl excl recs).
Proof.
  intros H. unfold make_decoder. destruct (builder_new _ _ _); cbn [rbind]; try reflexivity. now apply C18_configure_lemma.
Qed.

Lemma earlier_dec p q : earlier_specified p q \/ ~ earlier_specified p q.
Proof.
  revert q. induction p as [|a p IH]; intros q.
  - right. intros (c & r & r' & H & _). destruct c; discriminate.
  - destruct q as [|b q]; [right; intros (c & r & r' & _ & H); destruct c; discriminate|].
    destruct (Bool.bool_dec a b) as [->|NE].
    + destruct (IH q) as [H|H]; [left; now apply earlier_cons|right; now rewrite earlier_cons].
    + destruct a, b; try congruence; [left; exists [], p, q; auto|]. right. intros (c & r & r' & H & H').
      destruct c as [|c0 c]; [discriminate|]. cbn in H, H'. congruence.
Qed.
Lemma more_specific_dec e e' : more_specific e e' \/ ~ more_specific e e'.
Proof.
  unfold more_specific. destruct (earlier_dec (specified e) (specified e')) as [H|H]; [auto|].
  destruct (list_eq_dec Bool.bool_dec (specified e) (specified e')) as [H1|H1]; [|tauto].
  destruct (le_lt_dec (nfixed e) (nfixed e')) as [H2|H2]; [right; intros [?|[_ ?]]; [tauto|lia]|auto].
Qed.
Section Claims.
Context (uids : list (string * N)) (annos : list (string * anno)) (nu : N)
  (incl excl : list pattern) (recs : list irec) (s : builder * tree).
Context (HN : 0 < nu < w32) (HD : make_decoder uids annos nu incl excl recs = Ok s)
  (WF : well_formed (kept incl excl recs)).
Let K := kept incl excl recs.
Let E := encodings K.

(** The selected encoding, its record and its extractor are unique. *)
Lemma decodes_sel {A U} ic r e : listed K r e -> selected E e ic ->
  exists x, extractor_of r e x /\
    ((reserved x ic /\ decode (A := A) (U := U) s ic = Throw EIllegalOpcode) \/
     (~ reserved x ic /\ exists y u, reads K r e ic y /\ answers y u ic (decode (A := A) (U := U) s ic) /\ u <> 0 /\
        (rd_mn y = en_mn e -> u = lookup_uid s (uid_name r (en_mn e))) /\
        (rd_mn y <> en_mn e -> u = lookup_uid s (rd_mn y)))).
Proof.
  intros L S. destruct (outcome _ _ _ _ _ _ _ HN HD WF (A := A) (U := U) ic) as [[N1 _]|(r' & e' & x & L' & S' & X & D)].
  - exfalso. apply (N1 e); apply S.
  - assert (e' = e) as -> by (apply (selected_unique incl excl recs ic); [apply WF|exact S'|exact S]).
    assert (r' = r) as ->.
    { eapply (insts_unique _ _ _ _ _ _ _ HD (wf_cells _ WF) r' r (en_mn e)); [apply L'|apply L|..];
        [apply (listed_mn r' e (proj2 L'))|apply (listed_mn r e (proj2 L))]. }
    exists x. auto.
Qed.
Lemma answers_ok y u ic v : answers y u ic (Ok v) -> i_icode v = ic /\ i_meta v = rd_meta y /\ i_x v = rd_x y /\
  decode_info (rd_mn y) u (rd_x y) (rd_meta y) ic = Ok (i_di v) /\ d_mnemonic (i_di v) = rd_mn y /\ d_uid (i_di v) = u.
Proof.
  unfold answers. destruct (decode_info _ _ _ _ _) as [d| | |] eqn:ED; try discriminate. intros [a H].
  assert (v = mkInfo ic d (rd_x y) (rd_meta y) a) as -> by congruence. cbn [i_icode i_meta i_x i_di].
  apply decode_info_fields in ED. tauto.
Qed.

Lemma C19_wf_lemma {A U} ic v r e : decode (A := A) (U := U) s ic = Ok v -> listed K r e -> selected E e ic ->
  (d_mnemonic (i_di v) = en_mn e /\ forall mn mask, ~ overlay_hit K mn (en_mn e) mask ic) \/
  (exists mask, overlay_hit K (d_mnemonic (i_di v)) (en_mn e) mask ic /\
     forall mn' mask', overlay_hit K mn' (en_mn e) mask' ic ->
       popcount mask' <= popcount mask /\ (popcount mask' = popcount mask -> mn' = d_mnemonic (i_di v))).
Proof.
  intros H L S. destruct (decodes_sel (A := A) (U := U) ic r e L S) as (x & X & [[_ Q]|(_ & y & u & RY & AN & _)]); [congruence|].
  rewrite H in AN. apply answers_ok in AN as (_ & _ & _ & _ & AM & _).
  destruct RY as [((R1 & _) & R2)|(ro & mask & R1 & R2 & R3)]; [left; split; [congruence|exact R2]|right].
  exists mask. rewrite AM. destruct R2 as (R2 & _). split; [exists ro; auto|]. intros mn' mask' HIT. split; [exact (R3 _ _ HIT)|].
  intros EQ. destruct HIT as (ro' & Q1 & Q2). destruct (wf_overlays _ WF ro' ro _ _ _ _ _ _ Q1 R1 Q2 R2) as [->|NE]; [|congruence].
  destruct Q2, R2. congruence.
Qed.
(** Compressed instructions have no overlays. *)
Lemma overlay_plain ic r e mn mask : listed K r e -> overlay_hit K mn (en_mn e) mask ic -> r_expand r = ""%string.
Proof.
  intros L HIT. destruct s as [b t] eqn:Es. pose proof HD as HD'. unfold make_decoder in HD'.
  destruct (builder_new uids annos nu) as [b0| | |] eqn:EB; cbn [rbind] in HD'; try discriminate.
  destruct (configured _ _ _ _ _ _ _ _ _ EB HD' (wf_cells _ WF)) as (X & P & _ & _ & I & _ & HP).
  destruct (listed_mn _ _ (proj2 L)) as (HI & _).
  assert (HR : In r P) by (apply HP; split; [apply L|destruct HI; congruence]).
  destruct HIT as (ro & Q1 & Q2). pose proof (wf_base _ WF _ _ _ _ _ Q1 Q2) as [SK _].
  destruct Q2 as (Q2 & jo & Q3 & Q4 & Q5). pose proof (sole_sub _ _ _ _ _ HP SK) as SP.
  destruct (bi_overlays _ _ _ I ro mn) as (j & g & o & G1 & G2 & G3); [apply HP; split; [auto|congruence]|congruence|auto|].
  pose proof G3 as (_ & (jo' & G4 & G5) & G11 & _). apply overlay_parse_inv in G5 as [G5 G6].
  assert (jo' = jo) as -> by congruence. assert (ov_base o = en_mn e) as G7 by congruence.
  destruct (bi_ols _ _ _ I _ _ _ G1 G2) as (G8 & _). rewrite G7 in G8.
  destruct (bi_keys _ _ _ I _ _ G8) as [D|(r0 & K1 & K2 & K3 & K4)]; [destruct SP; tauto|].
  assert (r_mn r0 = Some (en_mn e)) as K5 by (destruct K4 as [K4|K4]; [auto|now apply SP]).
  rewrite (bi_uniq _ _ _ I r r0 (en_mn e)); auto. split; auto.
Qed.
Lemma C14_lemma {A U} ic v r e : decode (A := A) (U := U) s ic = Ok v -> listed K r e -> selected E e ic -> r_expand r <> ""%string ->
  d_mnemonic (i_di v) = en_mn e /\ d_uid (i_di v) = lookup_uid s (r_expand r) /\ d_uid (i_di v) <> 0.
Proof.
  intros H L S EX. destruct (decodes_sel (A := A) (U := U) ic r e L S) as (x & X & [[_ Q]|(_ & y & u & RY & AN & NZ & U1 & _)]); [congruence|].
  rewrite H in AN. apply answers_ok in AN as (_ & _ & _ & _ & AM & AU).
  destruct (listed_mn _ _ (proj2 L)) as (HI & _). destruct (wf_expand _ WF r (en_mn e) (proj1 L) HI EX) as (NC & _).
  destruct RY as [((R1 & _) & R2)|(ro & mask & R1 & R2 & R3)].
  - rewrite AM, AU. split; [auto|]. split; [|auto]. rewrite (U1 R1). unfold uid_name. apply String.eqb_neq in EX. now rewrite EX.
  - exfalso. apply EX. apply (overlay_plain ic r e (rd_mn y) mask L). exists ro. split; [auto|]. apply R2.
Qed.
Lemma C06_own_lemma {A U} r e : listed K r e ->
  (forall e', In e' E -> matches e' (en_stencil e) -> ~ more_specific e' e) ->
  exists x, extractor_of r e x /\
    ((reserved x (en_stencil e) /\ decode (A := A) (U := U) s (en_stencil e) = Throw EIllegalOpcode) \/
     (~ reserved x (en_stencil e) /\ exists y u, reads K r e (en_stencil e) y /\
        answers y u (en_stencil e) (decode (A := A) (U := U) s (en_stencil e)))).
Proof.
  intros L H. assert (S : selected E e (en_stencil e)).
  { split; [apply (listed_in _ _ _ _ _ L)|]. split; [|exact H]. split; [reflexivity|]. split; [intros; reflexivity|intros n f _ _; reflexivity]. }
  destruct (decodes_sel (A := A) (U := U) _ r e L S) as (x & X & [Q|(Q & y & u & RY & AN & _)]); exists x; (split; [exact X|]); [left; exact Q|right].
  split; [exact Q|]. exists y, u. auto.
Qed.
Lemma C42_lemma {A U} ic v : decode (A := A) (U := U) s ic = Ok v ->
  exists r e y, listed K r e /\ selected E e ic /\ reads K r e ic y /\
    i_icode v = ic /\ i_meta v = rd_meta y /\ d_mnemonic (i_di v) = rd_mn y /\
    decode_info (rd_mn y) (d_uid (i_di v)) (rd_x y) (rd_meta y) ic = Ok (i_di v).
Proof.
  intros H. destruct (outcome _ _ _ _ _ _ _ HN HD WF (A := A) (U := U) ic) as [[_ Q]|(r & e & x & L & S & X & [[_ Q]|(_ & y & u & RY & AN & _)])]; try congruence.
  rewrite H in AN. apply answers_ok in AN as (A1 & A2 & A3 & A4 & A5 & A6). exists r, e, y.
  split; [exact L|]. split; [exact S|]. split; [exact RY|]. split; [exact A1|]. split; [exact A2|]. split; [exact A5|]. rewrite A6. exact A4.
Qed.
Lemma C04_lemma {A U} ic v : decode (A := A) (U := U) s ic = Ok v ->
  exists r e, listed K r e /\ matches e ic /\ (forall e', In e' E -> matches e' ic -> e' = e \/ more_specific e e') /\
    (d_mnemonic (i_di v) = en_mn e \/ exists mask, overlay_hit K (d_mnemonic (i_di v)) (en_mn e) mask ic).
Proof.
  intros H. destruct (C02_lemma _ _ _ _ _ _ _ HD (wf_cells _ WF) ic v H) as (r & e & L & M & S & _ & R).
  exists r, e. split; [exact L|]. split; [exact M|]. split; [|exact R]. intros e' He' M'.
  assert (S2 := S). destruct S2 as (He & _ & NS). specialize (NS e' He' M').
  pose proof (wf_ties _ WF) as NT.
  destruct (ForallOrdPairs_In NT e e' He He') as [Q|[Q|Q]]; [left; symmetry; exact Q| |]; right;
    (destruct (more_specific_dec e e') as [Y|Y]; [exact Y|exfalso; apply Q; exists ic; auto]).
Qed.
Lemma C07_sel_lemma {A U} ic r e x : listed K r e -> selected E e ic -> extractor_of r e x ->
  (decode (A := A) (U := U) s ic = Throw EIllegalOpcode <-> reserved x ic).
Proof.
  intros L S X. destruct (C07_lemma _ _ _ _ _ _ _ HD (wf_cells _ WF) (A := A) (U := U) ic) as [[N1 _]|(r' & e' & x' & L' & S' & X' & Q & _)].
  - exfalso. apply (N1 e); apply S.
  - assert (e' = e) as -> by (apply (selected_unique incl excl recs ic); [apply WF|exact S'|exact S]).
    assert (r' = r) as ->.
    { eapply (insts_unique _ _ _ _ _ _ _ HD (wf_cells _ WF) r' r (en_mn e)); [apply L'|apply L|..];
        [apply (listed_mn r' e (proj2 L'))|apply (listed_mn r e (proj2 L))]. }
    assert (x' = x) as <- by (eapply extractor_of_fun; eassumption). exact Q.
Qed.
End Claims.

(** ** Refutations *)
Definition matchesb (e : enc) (ic : N) : bool :=
  match all_mask e with
  | Some m => (length_class ic =? length_class (en_stencil e)) && (N.land ic m =? N.land (en_stencil e) m)
  | None => true
  end.
Lemma matchesb_false e ic : enc_okb e = true -> matchesb e ic = false -> ~ matches e ic.
Proof.
  intros O H M. apply enc_okb_ok in O. unfold matchesb in H. destruct (all_mask e) as [m|] eqn:EM; [|discriminate].
  apply (all_mask_matches _ _ _ O EM) in M as [M1 M2]. rewrite M1, M2, !N.eqb_refl in H. discriminate.
Qed.
Lemma matchesb_true e ic : enc_okb e = true -> all_mask e <> None -> matchesb e ic = true -> matches e ic.
Proof.
  intros O N H. apply enc_okb_ok in O. unfold matchesb in H. destruct (all_mask e) as [m|] eqn:EM; [|contradiction].
  apply andb_true_iff in H as [H1 H2]. apply N.eqb_eq in H1, H2. apply (all_mask_matches _ _ _ O EM). auto.
Qed.
Lemma small_perm : Permutation small small_swapped.
Proof.
  assert (H : exists a b c d, small = (a ++ (b ++ c) ++ d)%list /\ small_swapped = (a ++ d ++ b ++ c)%list).
  { exists (firstn 10 small), (firstn 1 (skipn 10 small)), (firstn 1 (skipn 11 small)), (skipn 12 small). split; vm_compute; reflexivity. }
  destruct H as (a & b & c & d & -> & ->). apply Permutation_app_head, Permutation_app_comm.
Qed.
(** What the decoder of a table (defaults otherwise) calls an opcode. *)
Definition name_of (r : res info) : res string :=
  match r with Ok v => Ok (d_mnemonic (i_di v)) | Throw e => Throw e | AssertFail => AssertFail | UB => UB end.
Definition names (recs : list irec) (ics : list N) : option (list (res string)) :=
  match make_decoder [] [] 1 [] [] recs with
  | Ok s => Some (map (fun ic => name_of (decode (A := unit) (U := unit) s ic)) ics)
  | _ => None
  end.
Lemma names_ok recs ics l : names recs ics = Some l ->
  exists s, make_decoder [] [] 1 [] [] recs = Ok s /\ map (fun ic => name_of (decode (A := unit) (U := unit) s ic)) ics = l.
Proof.
  unfold names. destruct (make_decoder _ _ _ _ _ _) as [s| | |] eqn:E; try discriminate. intros H. exists s. split; [reflexivity|congruence].
Qed.
Lemma name_ok r n : name_of r = Ok n -> exists v, r = Ok v /\ d_mnemonic (i_di v) = n.
Proof. destruct r; cbn [name_of]; try discriminate. intros H. eexists. split; [reflexivity|congruence]. Qed.
Lemma names_swapped : names small_swapped [0x9086; 0x9082] = Some [Ok "c.jalr"%string; AssertFail].
Proof. vm_compute. reflexivity. Qed.
Lemma names_small : names small [0x9086; 0x9082; 0x13; 0x93; 0x8093; 0x108093; 0x1; 0x85; 0x9002; 0x73] =
  Some [Ok "c.add"; Ok "c.jalr"; Ok "nop"; Ok "li"; Ok "mv"; Ok "addi"; Ok "c.nop"; Ok "c.addi"; Ok "c.ebreak"; Throw EUnknownOpcode]%string.
Proof. vm_compute. reflexivity. Qed.

Lemma C02_refuted_lemma : exists recs s ic v, make_decoder [] [] 1 [] [] recs = Ok s /\
  decode (A := unit) (U := unit) s ic = Ok v /\
  (forall r, In r recs -> r_mn r = Some (d_mnemonic (i_di v)) -> r_overlay r = None) /\
  forall r e, listed recs r e -> en_mn e = d_mnemonic (i_di v) -> ~ matches e ic.
Proof.
  destruct (names_ok _ _ _ names_swapped) as (s & E & Q). cbn [map] in Q. injection Q as Q _.
  apply name_ok in Q as (v & D & M). exists small_swapped, s, 0x9086, v. split; [exact E|]. split; [exact D|]. rewrite M. split.
  - assert (forallb (fun r => match r_mn r with Some n => if String.eqb n "c.jalr" then match r_overlay r with None => true | _ => false end else true | None => true end)
      small_swapped = true) as F by (vm_compute; reflexivity).
    rewrite forallb_forall in F. intros r Hr HM. specialize (F r Hr). rewrite HM, String.eqb_refl in F.
    destruct (r_overlay r); [discriminate|reflexivity].
  - assert (forallb (fun e => if String.eqb (en_mn e) "c.jalr" then (enc_okb e && negb (matchesb e 0x9086))%bool else true) (encodings small_swapped) = true) as F
      by (vm_compute; reflexivity).
    rewrite forallb_forall in F. intros r e L HM. assert (In e (encodings small_swapped)) as He by (apply in_flat_map; exists r; exact L).
    specialize (F e He). rewrite HM, String.eqb_refl in F. apply andb_true_iff in F as [F1 F2].
    apply matchesb_false; [exact F1|]. now apply negb_true_iff.
Qed.
Lemma small_wf : well_formed small.
Proof. apply well_formedb_ok. vm_compute. reflexivity. Qed.
Lemma C05_refuted_lemma : exists recs recs' s s' ic ic' v v', Permutation recs recs' /\ well_formed recs /\
  make_decoder [] [] 1 [] [] recs = Ok s /\ make_decoder [] [] 1 [] [] recs' = Ok s' /\
  decode (A := unit) (U := unit) s ic = Ok v /\ decode (A := unit) (U := unit) s' ic = Ok v' /\
  d_mnemonic (i_di v) = "c.add"%string /\ d_mnemonic (i_di v') = "c.jalr"%string /\
  decode (A := unit) (U := unit) s ic' <> AssertFail /\ decode (A := unit) (U := unit) s' ic' = AssertFail.
Proof.
  destruct (names_ok _ _ _ names_small) as (s & E & Q). cbn [map] in Q. injection Q as Q Q2 _.
  destruct (names_ok _ _ _ names_swapped) as (s' & E' & Q'). cbn [map] in Q'. injection Q' as Q' Q2'.
  apply name_ok in Q as (v & D & M). apply name_ok in Q' as (v' & D' & M'). apply name_ok in Q2 as (w & D2 & _).
  exists small, small_swapped, s, s', 0x9086, 0x9082, v, v'.
  split; [exact small_perm|]. split; [exact small_wf|]. repeat (split; [assumption|]). split; [rewrite D2; discriminate|].
  destruct (decode s' 0x9082); cbn [name_of] in Q2'; congruence.
Qed.
(** Equal specificity is not reported. *)
Lemma two_ways_names : names two_ways [0x33; 0x100033] = Some [Ok "a"; Ok "a"]%string /\ names two_ways_swapped [0x33; 0x8033] = Some [Ok "b"; Ok "b"]%string.
Proof. split; vm_compute; reflexivity. Qed.
Lemma two_ways_unamb : unambiguous (encodings two_ways).
Proof. apply unambiguousb_ok. vm_compute. reflexivity. Qed.
Lemma C06_tie_lemma : exists recs recs' s s' ic v v', Permutation recs recs' /\ unambiguous (encodings recs) /\
  make_decoder [] [] 1 [] [] recs = Ok s /\ make_decoder [] [] 1 [] [] recs' = Ok s' /\
  (exists e e', In e (encodings recs) /\ In e' (encodings recs) /\ en_mn e <> en_mn e' /\ matches e ic /\ matches e' ic /\
     specified e = specified e' /\ nfixed e = nfixed e') /\
  decode (A := unit) (U := unit) s ic = Ok v /\ decode (A := unit) (U := unit) s' ic = Ok v' /\
  d_mnemonic (i_di v) <> d_mnemonic (i_di v').
Proof.
  destruct two_ways_names as [N1 N2]. destruct (names_ok _ _ _ N1) as (s & E & Q). destruct (names_ok _ _ _ N2) as (s' & E' & Q').
  cbn [map] in Q, Q'. injection Q as Q _. injection Q' as Q' _. apply name_ok in Q as (v & D & M). apply name_ok in Q' as (v' & D' & M').
  exists two_ways, two_ways_swapped, s, s', 0x33, v, v'. split; [apply Permutation_rev|]. split; [exact two_ways_unamb|].
  split; [exact E|]. split; [exact E'|]. split; [|split; [exact D|split; [exact D'|congruence]]].
  assert (F : match encodings two_ways with
              | [e; e'] => (enc_okb e && enc_okb e' && matchesb e 0x33 && matchesb e' 0x33 && negb (String.eqb (en_mn e) (en_mn e')))%bool = true /\
                  all_mask e <> None /\ all_mask e' <> None /\ specified e = specified e' /\ nfixed e = nfixed e'
              | _ => False end).
  { vm_compute. repeat split; discriminate. }
  destruct (encodings two_ways) as [|e [|e' [|? ?]]]; try contradiction. destruct F as (F & G1 & G2 & G3 & G4).
  apply andb_true_iff in F as [F F5]. apply andb_true_iff in F as [F F4]. apply andb_true_iff in F as [F F3]. apply andb_true_iff in F as [F1 F2].
  exists e, e'. split; [now left|]. split; [right; now left|]. split; [apply negb_true_iff, String.eqb_neq in F5; exact F5|].
  split; [apply matchesb_true; auto|]. split; [apply matchesb_true; auto|]. split; assumption.
Qed.
(** The same encoding under two names is accepted. *)
Lemma twice_names : names twice [0x33] = Some [Ok "a"]%string.
Proof. vm_compute. reflexivity. Qed.
Lemma C06_same_lemma : exists recs s e e' v, make_decoder [] [] 1 [] [] recs = Ok s /\ encodings recs = [e; e'] /\ en_mn e <> en_mn e' /\
  (forall ic, matches e ic <-> matches e' ic) /\ decode (A := unit) (U := unit) s (en_stencil e') = Ok v /\ d_mnemonic (i_di v) = en_mn e.
Proof.
  destruct (names_ok _ _ _ twice_names) as (s & E & Q). cbn [map] in Q. injection Q as Q. apply name_ok in Q as (v & D & M).
  assert (F : match encodings twice with
              | [e; e'] => e = mkEnc "a" (en_form e) (en_ign e) 0x33 (en_fixed e) /\ e' = mkEnc "b" (en_form e) (en_ign e) 0x33 (en_fixed e)
              | _ => False end) by (vm_compute; split; reflexivity).
  destruct (encodings twice) as [|e [|e' [|? ?]]] eqn:EE; try contradiction. destruct F as [F1 F2]. exists twice, s, e, e', v.
  split; [exact E|]. split; [exact EE|]. rewrite F2, F1. cbn [en_mn en_stencil]. split; [discriminate|]. split; [|split; [exact D|exact M]].
  intros ic. unfold matches, ignores, fixed_agree. cbn [en_form en_ign en_stencil en_fixed]. reflexivity.
Qed.

(** ** C14: the registry may give a compressed mnemonic another id *)
Definition uid_test : option (N * N * N) :=
  match make_decoder [("c.addi"%string, 77)] [] 1 [] [] small with
  | Ok s => match decode (A := unit) (U := unit) s 0x85 with
            | Ok v => if String.eqb (d_mnemonic (i_di v)) "c.addi" then Some (d_uid (i_di v), lookup_uid s "addi", lookup_uid s "c.addi") else None
            | _ => None
            end
  | _ => None
  end.
Lemma uid_test_val : match uid_test with Some (a, b, c) => (a =? b) && negb (a =? c) | None => false end = true.
Proof. vm_compute. reflexivity. Qed.
Lemma C14_lookup_lemma : exists recs uids s ic v, make_decoder uids [] 1 [] [] recs = Ok s /\
  decode (A := unit) (U := unit) s ic = Ok v /\ d_uid (i_di v) <> lookup_uid s (d_mnemonic (i_di v)).
Proof.
  pose proof uid_test_val as H. unfold uid_test in H.
  destruct (make_decoder [("c.addi"%string, 77)] [] 1 [] [] small) as [s| | |] eqn:E; try discriminate H.
  destruct (decode (A := unit) (U := unit) s 0x85) as [v| | |] eqn:D; try discriminate H.
  destruct (String.eqb_spec (d_mnemonic (i_di v)) "c.addi") as [M|]; [|discriminate H].
  apply andb_true_iff in H as [_ H]. apply negb_true_iff, N.eqb_neq in H.
  exists small, [("c.addi"%string, 77)], s, 0x85, v. split; [exact E|]. split; [exact D|]. rewrite M. exact H.
Qed.

(** ** C38 *)
Lemma shipped_wf T : shipped T -> well_formed T.
Proof. intros []; [exact rv64_wf|exact rv32f_wf|exact rv32p_wf]. Qed.
Lemma shipped_loads T : shipped T -> loadsb T = true.
Proof. intros []; [exact rv64_loads|exact rv32f_loads|exact rv32p_loads]. Qed.
Lemma shipped_swaps T : shipped T -> ForallOrdPairs (swappable "c.jalr" "c.ebreak") (encodings T).
Proof. intros []; apply swapsb_ok; [exact rv64_swaps|exact rv32f_swaps|exact rv32p_swaps]. Qed.
Lemma kept_sub incl excl recs T : subseq recs T -> subseq (kept incl excl recs) T.
Proof. intros H. eapply subseq_trans; [exact H|apply subseq_filter]. Qed.
Lemma kept_all recs : kept [] [] recs = recs.
Proof.
  unfold kept. induction recs as [|r l IH]; [reflexivity|]. cbn [filter].
  assert (wantedb [] [] (r_tags r) = true) as -> by (unfold wantedb, hits; cbn; induction (r_tags r); auto). now rewrite IH.
Qed.
Lemma shipped_kept_wf incl excl recs T : shipped T -> subseq recs T -> well_formed (kept incl excl recs).
Proof. intros H S. eapply well_formed_sub; [apply kept_sub, S|now apply shipped_wf]. Qed.
Lemma C38_loads_lemma T : shipped T -> exists s, make_decoder [] [] 1 [] [] T = Ok s.
Proof. intros H. destruct (loadsb_ok T (shipped_loads T H)) as (s & E & _). eauto. Qed.
Lemma C38_reaches_lemma T uids annos nu s : shipped T -> 0 < nu < w32 -> make_decoder uids annos nu [] [] T = Ok s ->
  forall A U r mn, In r T -> r_mn r = Some mn -> exists ic v, decode (A := A) (U := U) s ic = Ok v /\ d_mnemonic (i_di v) = mn.
Proof.
  intros H HN HD A U r mn Hr HM. destruct (loadsb_ok T (shipped_loads T H)) as (s0 & E & Q).
  destruct (Q A U r mn Hr HM) as (ic & v & D & M). assert (H0 : 0 < 1 < w32) by (split; reflexivity).
  assert (WF : well_formed (kept [] [] T)) by (rewrite kept_all; now apply shipped_wf).
  pose proof (order _ _ _ _ _ _ _ _ _ _ _ _ H0 HN E HD (Permutation_refl T) WF (wf_cells _ WF) (A := A) (U := U) ic) as SA.
  rewrite D in SA. destruct (decode s ic) as [v'| | |] eqn:D'; cbn [same_answer] in SA; try contradiction.
  exists ic, v'. split; [exact D'|]. destruct SA as (_ & SA & _). apply (f_equal d_mnemonic) in SA. cbn [but_uid d_mnemonic] in SA. congruence.
Qed.
Lemma C38_decodes_lemma T recs uids annos nu incl excl s : shipped T -> subseq recs T -> 0 < nu < w32 ->
  make_decoder uids annos nu incl excl recs = Ok s ->
  forall A U ic, decodes (kept incl excl recs) (lookup_uid s) ic (decode (A := A) (U := U) s ic).
Proof. intros H S HN HD A U ic. exact (outcome _ _ _ _ _ _ _ HN HD (shipped_kept_wf incl excl recs T H S) ic). Qed.
Lemma shipped_readable T recs incl excl ic : shipped T -> subseq recs T -> (T = rv32p -> slice 2 5 ic <> 0) ->
  readable (kept incl excl recs) ic.
Proof.
  intros H S. pose proof (subseq_in _ _ (kept_sub incl excl recs T S)) as I. destruct H; intros HP.
  - exact (readable_sub always _ rv64 ic (fun c ffm m q => always_ok c ffm m ic q) I rv64_readable).
  - exact (readable_sub always _ rv32f ic (fun c ffm m q => always_ok c ffm m ic q) I rv32f_readable).
  - exact (readable_sub mostly _ rv32p ic (fun c ffm m q => mostly_ok c ffm m ic (HP eq_refl) q) I rv32p_readable).
Qed.
Lemma C38_order_lemma T recs uids annos nu uids' annos' nu' s s' : shipped T -> Permutation T recs ->
  ForallOrdPairs (fun e e' => ~ (en_mn e = "c.ebreak"%string /\ en_mn e' = "c.jalr"%string)) (encodings recs) ->
  0 < nu < w32 -> 0 < nu' < w32 ->
  make_decoder uids annos nu [] [] T = Ok s -> make_decoder uids' annos' nu' [] [] recs = Ok s' ->
  forall A U ic, same_answer (decode (A := A) (U := U) s ic) (decode (A := A) (U := U) s' ic).
Proof.
  intros H HP HO HN HN' HD HD' A U ic.
  assert (WF : well_formed (kept [] [] T)) by (rewrite kept_all; now apply shipped_wf).
  assert (SP : separated (encodings (kept [] [] recs))).
  { rewrite kept_all. exact (swaps_separated _ _ _ _ (encodings_perm _ _ HP) (shipped_swaps T H) HO). }
  exact (order _ _ _ _ _ _ _ _ _ _ _ _ HN HN' HD HD' HP WF SP ic).
Qed.
Lemma rv64_names : names rv64 [0x9002] = Some [Ok "c.ebreak"%string].
Proof. vm_compute. reflexivity. Qed.
Lemma rv32p_names : names rv32p [0xE002] = Some [AssertFail].
Proof. vm_compute. reflexivity. Qed.
Lemma C38_own_lemma : exists s v, make_decoder [] [] 1 [] [] rv64 = Ok s /\
  (exists r, In r rv64 /\ is_inst r "c.jalr" /\ decode (A := unit) (U := unit) s (r_stencil r) = Ok v) /\
  d_mnemonic (i_di v) = "c.ebreak"%string /\ exists r', In r' rv64 /\ is_inst r' "c.ebreak".
Proof.
  destruct (names_ok _ _ _ rv64_names) as (s & E & Q). cbn [map] in Q. injection Q as Q. apply name_ok in Q as (v & D & M).
  assert (X : forall n st, existsb (fun r => match r_mn r, r_overlay r with Some m, None => String.eqb m n && (r_stencil r =? st) | _, _ => false end) rv64 = true ->
              exists r, In r rv64 /\ is_inst r n /\ r_stencil r = st).
  { intros n st H. apply existsb_exists in H as (r & Hr & H). exists r. split; [exact Hr|]. unfold is_inst.
    destruct (r_mn r) as [m|]; [|discriminate]. destruct (r_overlay r); [discriminate|]. apply andb_true_iff in H as [H1 H2].
    apply String.eqb_eq in H1. apply N.eqb_eq in H2. subst m. auto. }
  exists s, v. split; [exact E|]. split; [|split; [exact M|]].
  - destruct (X "c.jalr"%string 0x9002) as (r & Hr & Hi & Hs); [vm_compute; reflexivity|]. exists r. rewrite Hs. auto.
  - destruct (X "c.ebreak"%string 0x9002) as (r & Hr & Hi & Hs); [vm_compute; reflexivity|]. eauto.
Qed.
Lemma C38_pair_lemma : exists s, make_decoder [] [] 1 [] [] rv32p = Ok s /\ decode (A := unit) (U := unit) s 0xE002 = AssertFail.
Proof.
  destruct (names_ok _ _ _ rv32p_names) as (s & E & Q). cbn [map] in Q. injection Q as Q. exists s. split; [exact E|].
  destruct (decode s 0xE002); cbn [name_of] in Q; congruence.
Qed.
(** Both files that use 0x6000. *)
Lemma both_names : names rv32_both [0x6000] = Some [Ok "c.flw"]%string /\ names rv32_both_swapped [0x6000] = Some [Ok "c.ld"]%string.
Proof. split; vm_compute; reflexivity. Qed.
Lemma C38_both_lemma : exists s s' v v', make_decoder [] [] 1 [] [] rv32_both = Ok s /\ make_decoder [] [] 1 [] [] rv32_both_swapped = Ok s' /\
  decode (A := unit) (U := unit) s 0x6000 = Ok v /\ d_mnemonic (i_di v) = "c.flw"%string /\
  decode (A := unit) (U := unit) s' 0x6000 = Ok v' /\ d_mnemonic (i_di v') = "c.ld"%string.
Proof.
  destruct both_names as [N1 N2]. destruct (names_ok _ _ _ N1) as (s & E & Q). destruct (names_ok _ _ _ N2) as (s' & E' & Q').
  cbn [map] in Q, Q'. injection Q as Q. injection Q' as Q'. apply name_ok in Q as (v & D & M). apply name_ok in Q' as (v' & D' & M').
  exists s, s', v, v'. auto 8.
Qed.

(** ** Concrete cases for P_Decode *)
Lemma small_decoder : exists s, make_decoder [] [] 1 [] [] small = Ok s /\ 0 < 1 < w32 /\ well_formed (kept [] [] small) /\
  map (fun ic => name_of (decode (A := unit) (U := unit) s ic)) [0x9086; 0x9082; 0x13; 0x93; 0x8093; 0x108093; 0x1; 0x85; 0x9002; 0x73] =
  [Ok "c.add"; Ok "c.jalr"; Ok "nop"; Ok "li"; Ok "mv"; Ok "addi"; Ok "c.nop"; Ok "c.addi"; Ok "c.ebreak"; Throw EUnknownOpcode]%string.
Proof.
  destruct (names_ok _ _ _ names_small) as (s & E & Q). exists s. split; [exact E|]. split; [split; reflexivity|].
  split; [rewrite kept_all; exact small_wf|exact Q].
Qed.
(** The record and the encoding behind an answer. *)
Lemma small_case s ic n : make_decoder [] [] 1 [] [] small = Ok s -> name_of (decode (A := unit) (U := unit) s ic) = Ok n ->
  (forall r, In r small -> r_mn r = Some n -> r_overlay r = None) ->
  exists v r e, decode (A := unit) (U := unit) s ic = Ok v /\ d_mnemonic (i_di v) = n /\ listed (kept [] [] small) r e /\
    selected (encodings (kept [] [] small)) e ic /\ en_mn e = n /\ In r small /\ r_mn r = Some n.
Proof.
  intros HD HN HO. apply name_ok in HN as (v & D & M). assert (WF : well_formed (kept [] [] small)) by (rewrite kept_all; exact small_wf).
  destruct (C02_lemma _ _ _ _ _ _ _ HD (wf_cells _ WF) ic v D) as (r & e & L & _ & S & _ & R).
  exists v, r, e. assert (EM : en_mn e = n).
  { destruct R as [R|(mask & ro & R1 & R2 & jo & R3 & _)]; [congruence|]. exfalso. rewrite kept_all in R1. rewrite M in R2.
    rewrite (HO _ R1 R2) in R3. discriminate. }
  destruct (listed_mn _ _ (proj2 L)) as [[HI _] _]. rewrite EM in HI.
  split; [exact D|]. split; [exact M|]. split; [exact L|]. split; [exact S|]. split; [exact EM|].
  split; [|exact HI]. destruct L as [L _]. rewrite kept_all in L. exact L.
Qed.
Definition plain_names (n : string) (l : list irec) : bool :=
  forallb (fun r => match r_mn r with Some m => if String.eqb m n then match r_overlay r with None => true | _ => false end else true | None => true end) l.
Lemma plain_names_ok n l : plain_names n l = true -> forall r, In r l -> r_mn r = Some n -> r_overlay r = None.
Proof.
  unfold plain_names. rewrite forallb_forall. intros F r Hr HM. specialize (F r Hr). rewrite HM, String.eqb_refl in F.
  destruct (r_overlay r); [discriminate|reflexivity].
Qed.
Lemma C14_case : exists s v r e, make_decoder [] [] 1 [] [] small = Ok s /\ 0 < 1 < w32 /\ well_formed (kept [] [] small) /\
  decode (A := unit) (U := unit) s 0x85 = Ok v /\ listed (kept [] [] small) r e /\ selected (encodings (kept [] [] small)) e 0x85 /\
  r_expand r = "addi"%string /\ en_mn e = "c.addi"%string.
Proof.
  destruct small_decoder as (s & E & HN & WF & Q). cbn [map] in Q. injection Q as _ _ _ _ _ _ _ Q _ _.
  destruct (small_case s 0x85 "c.addi" E Q) as (v & r & e & D & _ & L & S & EM & Hr & HM).
  { apply plain_names_ok. vm_compute. reflexivity. }
  exists s, v, r, e. repeat (split; [assumption|]). split; [|exact EM].
  assert (F : forallb (fun r => match r_mn r with Some m => if String.eqb m "c.addi" then String.eqb (r_expand r) "addi" else true | None => true end) small = true)
    by (vm_compute; reflexivity).
  rewrite forallb_forall in F. specialize (F r Hr). rewrite HM in F. cbn in F. now apply String.eqb_eq.
Qed.
Lemma small_readable ic : readable (kept [] [] small) ic.
Proof.
  rewrite kept_all. apply (readable_sub always small small ic); [intros c ffm m; apply always_ok|auto|vm_compute; reflexivity].
Qed.
Lemma C05_unamb_lemma uids uids' annos annos' nu nu' incl excl recs recs' s s' : 0 < nu < w32 -> 0 < nu' < w32 ->
  make_decoder uids annos nu incl excl recs = Ok s -> make_decoder uids' annos' nu' incl excl recs' = Ok s' ->
  Permutation recs recs' -> well_formed (kept incl excl recs) -> unambiguous (encodings (kept incl excl recs)) ->
  forall A U ic, same_answer (decode (A := A) (U := U) s ic) (decode (A := A) (U := U) s' ic).
Proof.
  intros HN HN' HD HD' HP WF UN A U ic.
  exact (order _ _ _ _ _ _ _ _ _ _ _ _ HN HN' HD HD' HP WF (unamb_separated _ _ (encodings_perm _ _ (kept_perm incl excl _ _ HP)) UN) ic).
Qed.
Lemma C18_case : exists excl : list pattern, kept [] excl small <> small /\ kept [] excl small <> [] /\
  exists s, make_decoder [] [] 1 [] excl small = Ok s.
Proof.
  exists [fun t => String.eqb t "c"]. 
  assert (H : match make_decoder [] [] 1 [] [fun t => String.eqb t "c"] small with Ok _ => true | _ => false end = true) by (vm_compute; reflexivity).
  assert (H2 : List.length (kept [] [fun t => String.eqb t "c"] small) <> List.length small) by (vm_compute; discriminate).
  assert (H3 : List.length (kept [] [fun t => String.eqb t "c"] small) <> 0%nat) by (vm_compute; discriminate).
  split; [intros Q; apply H2; now rewrite Q|]. split; [intros Q; apply H3; now rewrite Q|].
  destruct (make_decoder [] [] 1 [] [fun t => String.eqb t "c"] small) as [s| | |]; try discriminate H. eauto.
Qed.
Lemma C07_only_lemma uids annos nu incl excl recs s :
  make_decoder uids annos nu incl excl recs = Ok s -> separated (encodings (kept incl excl recs)) ->
  forall A U ic, decode (A := A) (U := U) s ic = Throw EIllegalOpcode ->
  exists r e x, listed (kept incl excl recs) r e /\ selected (encodings (kept incl excl recs)) e ic /\ extractor_of r e x /\ reserved x ic.
Proof.
  intros HD HS A U ic H. destruct (C07_lemma _ _ _ _ _ _ _ HD HS (A := A) (U := U) ic) as [[_ N1]|(r & e & x & L & S & X & Q & _)]; [contradiction|].
  exists r, e, x. repeat (split; [assumption|]). apply Q, H.
Qed.
Lemma C07_case : exists s r e x, make_decoder [] [] 1 [] [] small = Ok s /\ 0 < 1 < w32 /\ well_formed (kept [] [] small) /\
  listed (kept [] [] small) r e /\ selected (encodings (kept [] [] small)) e 0x85 /\ extractor_of r e x /\ ~ reserved x 0x85.
Proof.
  destruct C14_case as (s & v & r & e & E & HN & WF & D & L & S & _). 
  destruct (decodes_sel _ _ _ _ _ _ _ HN E WF (A := unit) (U := unit) 0x85 r e L S) as (x & X & [[_ Q]|(Q & _)]); [congruence|].
  exists s, r, e, x. repeat (split; [assumption|]). exact Q.
Qed.
Lemma C07_illegal_case : exists s, make_decoder [] [] 1 [] [] lwsp = Ok s /\ separated (encodings (kept [] [] lwsp)) /\
  decode (A := unit) (U := unit) s 0x4002 = Throw EIllegalOpcode /\
  exists v, decode (A := unit) (U := unit) s 0x4082 = Ok v.
Proof.
  assert (H : names lwsp [0x4002; 0x4082] = Some [Throw EIllegalOpcode; Ok "c.lwsp"%string]) by (vm_compute; reflexivity).
  destruct (names_ok _ _ _ H) as (s & E & Q). cbn [map] in Q. injection Q as Q Q'. exists s. split; [exact E|]. split.
  - rewrite kept_all. apply separatedb_ok. vm_compute. reflexivity.
  - apply name_ok in Q' as (v & D & _). split; [|eauto]. destruct (decode s 0x4002); cbn [name_of] in Q; congruence.
Qed.
Lemma C06_case : exists s r e, make_decoder [] [] 1 [] [] small = Ok s /\ 0 < 1 < w32 /\ well_formed (kept [] [] small) /\
  listed (kept [] [] small) r e /\ en_mn e = "c.ebreak"%string /\
  (forall e', In e' (encodings (kept [] [] small)) -> matches e' (en_stencil e) -> ~ more_specific e' e).
Proof.
  destruct small_decoder as (s & E & HN & WF & Q). cbn [map] in Q. injection Q as _ _ _ _ _ _ _ _ Q _.
  destruct (small_case s 0x9002 "c.ebreak" E Q) as (v & r & e & D & _ & L & S & EM & Hr & HM).
  { apply plain_names_ok. vm_compute. reflexivity. }
  exists s, r, e. repeat (split; [assumption|]).
  assert (ES : en_stencil e = 0x9002); [|rewrite ES; apply S].
  assert (F : forallb (fun e => if String.eqb (en_mn e) "c.ebreak" then en_stencil e =? 0x9002 else true) (encodings (kept [] [] small)) = true)
    by (vm_compute; reflexivity).
  rewrite forallb_forall in F. specialize (F e (proj1 S)). rewrite EM in F. cbn in F. now apply N.eqb_eq.
Qed.
Definition raw_plain : list raw := pick ["addi"; "add"; "lw"; "jal"; "vadd.vv"]%string raw_rv64.
Definition plain : list irec := map rec_of raw_plain.
Lemma built_ok uids annos nu incl excl recs :
  match make_decoder uids annos nu incl excl recs with Ok _ => true | _ => false end = true -> exists s, make_decoder uids annos nu incl excl recs = Ok s.
Proof. destruct (make_decoder _ _ _ _ _ _); try discriminate. eauto. Qed.
Lemma C05_case : exists recs s s', recs <> rev recs /\ make_decoder [] [] 1 [] [] recs = Ok s /\
  make_decoder [] [] 7 [] [] (rev recs) = Ok s' /\ Permutation recs (rev recs) /\ well_formed (kept [] [] recs) /\
  unambiguous (encodings (kept [] [] recs)).
Proof.
  destruct (built_ok [] [] 1 [] [] plain) as (s & E); [vm_compute; reflexivity|].
  destruct (built_ok [] [] 7 [] [] (rev plain)) as (s' & E'); [vm_compute; reflexivity|].
  assert (NE : plain <> rev plain).
  { intros Q. apply (f_equal (map r_mn)) in Q. vm_compute in Q. discriminate Q. }
  assert (WF : well_formed plain) by (apply well_formedb_ok; vm_compute; reflexivity).
  assert (UN : unambiguous (encodings plain)) by (apply unambiguousb_ok; vm_compute; reflexivity).
  exists plain, s, s'. rewrite kept_all. split; [exact NE|]. split; [exact E|]. split; [exact E'|]. split; [apply Permutation_rev|auto].
Qed.
Lemma C43_case : exists r, In r (kept [] [] small) /\ is_inst r "addi" /\ r_expand r = ""%string /\ sole (kept [] [] small) "addi".
Proof.
  rewrite kept_all.
  assert (F : match small with r :: _ => r_mn r = Some "addi"%string /\ r_overlay r = None /\ r_expand r = ""%string | _ => False end) by (vm_compute; auto).
  assert (G : forallb (fun r => (match r_factory r with Some f => if String.eqb f "addi" then match r_mn r with Some m => String.eqb m "addi" | None => false end else true | None => true end)
                     && (match r_mn r with Some m => if String.eqb m "addi" then match r_factory r with None => true | Some f => String.eqb f "addi" end else true | None => true end))%bool small = true)
    by (vm_compute; reflexivity).
  destruct small as [|r l]; [contradiction|]. destruct F as (F1 & F2 & F3). exists r. split; [now left|]. split; [split; assumption|]. split; [exact F3|].
  rewrite forallb_forall in G. split; [intros [?|?]; discriminate|]. split; intros r0 Hr Q; specialize (G r0 Hr); apply andb_true_iff in G as [G1 G2].
  - rewrite Q, String.eqb_refl in G1. destruct (r_mn r0); [|discriminate]. apply String.eqb_eq in G1. now subst.
  - rewrite Q, String.eqb_refl in G2. destruct (r_factory r0); [right|now left]. apply String.eqb_eq in G2. now subst.
Qed.
Lemma C38_total_lemma T recs uids annos nu incl excl s : shipped T -> subseq recs T -> 0 < nu < w32 ->
  make_decoder uids annos nu incl excl recs = Ok s ->
  forall A U ic, ic < 2 ^ 64 -> (T = rv32p -> slice 2 5 ic <> 0) ->
  match decode (A := A) (U := U) s ic with
  | Ok v => lists_agree (oi_elems (d_src_oi (i_di v))) (d_sources (i_di v)) (d_srcT (i_di v)) /\
            lists_agree (oi_elems (d_dst_oi (i_di v))) (d_dests (i_di v)) (d_dstT (i_di v))
  | Throw e => e = EUnknownOpcode \/ e = EIllegalOpcode
  | AssertFail | UB => False
  end.
Proof.
  intros H S HN HD A U ic LT HP.
  exact (total _ _ _ _ _ _ _ HN HD (shipped_kept_wf incl excl recs T H S) ic LT (shipped_readable T recs incl excl ic H S HP)).
Qed.
Definition raw_im : list raw := (isa_rv64i ++ isa_rv64m)%list.
Lemma subseq_skip {T} (a l l' : list T) : subseq l l' -> subseq l (a ++ l').
Proof. intros H. induction a; cbn; [exact H|now constructor]. Qed.
Lemma C38_part_case : exists recs excl s, subseq recs rv64 /\ kept [] excl recs <> recs /\ kept [] excl recs <> [] /\
  make_decoder [] [] 1 [] excl recs = Ok s.
Proof.
  exists (map rec_of raw_im), [fun t => String.eqb t "m"].
  destruct (built_ok [] [] 1 [] [fun t => String.eqb t "m"] (map rec_of raw_im)) as (s & E); [vm_compute; reflexivity|]. exists s. split; [|split; [|split; [|exact E]]].
  - unfold rv64, raw_rv64, raw_im. cbn [List.concat]. rewrite !map_app. apply subseq_app; [apply subseq_refl|]. apply subseq_skip.
    rewrite <- (app_nil_r (map rec_of isa_rv64m)) at 1. apply subseq_app; [apply subseq_refl|apply subseq_nil].
  - intros Q. apply (f_equal (@List.length _)) in Q. vm_compute in Q. discriminate Q.
  - intros Q. apply (f_equal (@List.length _)) in Q. vm_compute in Q. discriminate Q.
Qed.
Definition raw_moved : list raw := (isa_rv64i ++ isa_rv64m ++ isa_rv64f ++ skipn (List.length (isa_rv64i ++ isa_rv64f ++ isa_rv64m)) raw_rv64)%list.
Lemma C38_order_case : exists recs s', recs <> rv64 /\ Permutation rv64 recs /\
  ForallOrdPairs (fun e e' => ~ (en_mn e = "c.ebreak"%string /\ en_mn e' = "c.jalr"%string)) (encodings recs) /\
  make_decoder [] [] 1 [] [] recs = Ok s'.
Proof.
  exists (map rec_of raw_moved). destruct (built_ok [] [] 1 [] [] (map rec_of raw_moved)) as (s & E); [vm_compute; reflexivity|]. exists s.
  split; [|split; [|split; [|exact E]]].
  - intros Q. apply (f_equal (fun l => match nth_error l (List.length isa_rv64i) with Some r => r_mn r | _ => None end)) in Q. vm_compute in Q. discriminate Q.
  - apply Permutation_map. unfold raw_moved.
    assert (raw_rv64 = (isa_rv64i ++ isa_rv64f ++ isa_rv64m) ++ skipn (List.length (isa_rv64i ++ isa_rv64f ++ isa_rv64m)) raw_rv64)%list as Q by (vm_compute; reflexivity).
    rewrite Q at 1. rewrite <- !app_assoc. apply Permutation_app_head. rewrite !app_assoc. apply Permutation_app_tail, Permutation_app_comm.
  - apply (fop_ok (fun e e' => if String.eqb (en_mn e) "c.ebreak" then negb (String.eqb (en_mn e') "c.jalr") else true) _ (fun _ => True)).
    + intros a b _ _ Q [Q1 Q2]. rewrite Q1, Q2 in Q. discriminate.
    + apply Forall_forall. auto.
    + vm_compute. reflexivity.
Qed.
Lemma tsel_throws : forall n ic ex, tsel n ic = Throw ex -> ex = EUnknownOpcode.
Proof.
  fix IH 1. intros [f tab d|tab d] ic ex; cbn [tsel].
  - assert (D : forall ex, match d with Some dn => tsel dn ic | None => Throw EUnknownOpcode end = Throw ex -> ex = EUnknownOpcode).
    { intros ex'. destruct d as [dn|]; [exact (IH dn ic ex')|congruence]. }
    destruct (tab (f_extract f ic)) as [c|]; [|apply D].
    pose proof (IH c ic) as Q. destruct (tsel c ic) as [?|ex'| |]; try discriminate.
    specialize (Q ex' eq_refl). subst ex'. apply D.
  - destruct (find _ _) as [e|]; [destruct (se_pay e); discriminate|]. destruct d; congruence.
Qed.
Lemma C07_any_lemma : forall (s : builder * tree) A U ic, decode (A := A) (U := U) s ic = Throw EIllegalOpcode <->
  exists mn p, tree_sel (snd s) ic = Ok (mn, p) /\ reserved (ext (pay_cls p) (pay_ffm p)) ic.
Proof.
  intros s A U ic. rewrite decode_pure. unfold pure_info.
  assert (T : forall ex, tree_sel (snd s) ic = Throw ex -> ex = EUnknownOpcode).
  { unfold tree_sel. intros ex. destruct (root_class ic); [|congruence]. destruct (snd s n); [apply tsel_throws|congruence]. }
  destruct (tree_sel (snd s) ic) as [[mn p]|ex| |] eqn:ET; cbn [rbind].
  - unfold reserved. destruct (illop_total (pay_cls p) (pay_ffm p) ic) as [bb IL]. rewrite IL. cbn [rbind]. destruct bb.
    + split; [|reflexivity]. intros _. exists mn, p. auto.
    + split.
      * unfold get_fact. destruct (nth_error _ _) as [f|]; cbn [rbind]; [|discriminate]. intros H.
        pose proof (leaf_calm f mn ic _ (ext_calm (pay_cls p) (pay_ffm p))) as C. rewrite H in C. destruct C.
      * intros (mn' & p' & Q1 & Q2). assert (p' = p) as -> by congruence. congruence.
  - specialize (T ex eq_refl). subst ex. split; [discriminate|]. intros (? & ? & ? & _). discriminate.
  - split; [discriminate|]. intros (? & ? & ? & _). discriminate.
  - split; [discriminate|]. intros (? & ? & ? & _). discriminate.
Qed.
