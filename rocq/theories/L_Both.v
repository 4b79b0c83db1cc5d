(** Two decoders that define an instruction alike report it alike (C71). *)
From Coq Require Import NArith List Bool String Lia.
From Verif Require Import M_Base M_Field M_Forms M_Meta M_OperandInfo M_Extract M_Decoded M_Cache M_Registry M_Trie M_Builder M_DTable.
From Verif Require Import S_Bits L_Bits S_Trie S_Agree S_Table S_Both L_Trie L_Table L_Decoded L_Decode L_Ids L_Total.
Import ListNotations.
Local Open Scope N_scope.

Lemma info_name n u x m ic d : decode_info n u x m ic = Ok d -> d_mnemonic d = n.
Proof. intros H. apply decode_inv in H. tauto. Qed.
Lemma rec_encs_alike r e e' : In e (rec_encs r) -> In e' (rec_encs r) -> en_mn e = en_mn e' /\ en_form e = en_form e' /\ en_fixed e = en_fixed e'.
Proof.
  unfold rec_encs. destruct (r_mn r) as [mn|]; [|intros []]. destruct (r_overlay r); [intros []|]. destruct (r_form r); [|intros []].
  destruct (get_form _); [|intros []..]. intros H H'. apply in_map_iff in H as (? & <- & _). apply in_map_iff in H' as (? & <- & _). auto.
Qed.
Lemma extractor_alike r e e' x x' : In e (rec_encs r) -> In e' (rec_encs r) -> extractor_of r e x -> extractor_of r e' x' -> x = x'.
Proof.
  intros H H' X X'. destruct (rec_encs_alike r e e' H H') as (E1 & E2 & E3). apply (extractor_of_fun r e); [exact X|].
  unfold extractor_of, fixed_bits in *. now rewrite E2, E3.
Qed.

Section Both.
Context (uids uids' : list (string * N)) (annos annos' : list (string * anno)) (nu nu' : N)
  (incl excl incl' excl' : list pattern) (recs recs' : list irec) (s s' : builder * tree) (ic : N).
Context (HN : 0 < nu < w32) (HN' : 0 < nu' < w32)
  (HD : make_decoder uids annos nu incl excl recs = Ok s)
  (HD' : make_decoder uids' annos' nu' incl' excl' recs' = Ok s').
Let K := kept incl excl recs.
Let K' := kept incl' excl' recs'.
Context (WF : well_formed K) (WF' : well_formed K').

Lemma defined_reads r r' e e' y y' : defined_alike K K' (rd_mn y) -> rd_mn y' = rd_mn y ->
  listed K r e -> listed K' r' e' -> reads K r e ic y -> reads K' r' e' ic y' -> y = y'.
Proof.
  intros [OR DA] EM L L' R R'. pose proof (listed_mn r e (proj2 L)) as ([J1 J2] & _). pose proof (listed_mn r' e' (proj2 L')) as ([J1' J2'] & _).
  destruct y as [n m x], y' as [n' m' x']. cbn [rd_mn] in *. subst n'.
  destruct R as [((D1 & D2 & D3) & D4)|(ro & mask & D1 & (D2 & (m0 & D3 & D3') & x0 & D4 & D5) & D6)];
  destruct R' as [((B1 & B2 & B3) & B4)|(ro' & mask' & B1 & (B2 & (m0' & B3 & B3') & x0' & B4 & B5) & B6)]; cbn [rd_mn rd_meta rd_x] in *.
  - assert (r = r') as <- by (apply OR; [apply L|apply L'|congruence|congruence]).
    assert (x' = x) as -> by (apply (extractor_alike r e' e x' x); [apply L'|apply L|exact B3|exact D3]). f_equal.
    destruct D2 as [[Q1 Q2]|(Q1 & m0 & m1 & Q2 & Q3 & ->)], B2 as [[Q1' Q2']|(Q1' & m0' & m1' & Q2' & Q3' & ->)]; try congruence.
    assert (m0 = m0') as <-; [|congruence]. destruct (DA r (proj1 L)) as [XA _]; [congruence|]. destruct (XA Q1) as [XM XC]. clear XA DA OR.
    destruct Q2 as [(r0 & P1 & P2 & P3)|(P1 & P2)], Q2' as [(r0' & P1' & P2' & P3')|(P1' & P2')].
    + specialize (XM r0 r0' P1 P1' P2 P2'). congruence.
    + exfalso. destruct P1' as [C P1']. destruct (proj1 (XC C)) as (r1 & H1 & H2 & H3); [eauto|]. now apply (P1' r1 H1 H2).
    + exfalso. destruct P1 as [C P1]. destruct (proj2 (XC C)) as (r1 & H1 & H2 & H3); [eauto|]. now apply (P1 r1 H1 H2).
    + unfold built_in in P2, P2'. destruct P2 as [[X1 ->]|[X1 ->]], P2' as [[X2 ->]|[X2 ->]]; auto; rewrite X1 in X2; discriminate.
  - exfalso. destruct B2 as (B2 & jo & B2' & _). assert (r = ro') as <-; [|congruence]. apply OR; [apply L|exact B1|congruence|exact B2].
  - exfalso. destruct D2 as (D2 & jo & D2' & _). assert (ro = r') as <-; [|congruence]. apply OR; [exact D1|apply L'|exact D2|congruence].
  - assert (ro = ro') as <- by (apply OR; [exact D1|exact B1|apply D2|apply B2]).
    assert (en_mn e' = en_mn e) as EN by (destruct B2 as (_ & j & U1 & U2 & _), D2 as (_ & j' & U1' & U2' & _); congruence).
    assert (r = r') as <-.
    { destruct (DA ro D1 (proj1 D2)) as [_ XB]. apply (XB _ _ _ D2); [apply L|apply L'|exact J1|congruence]. }
    assert (x0' = x0) as -> by (apply (extractor_alike r e' e x0' x0); [apply L'|apply L|exact B4|exact D4]).
    assert (m' = m) as -> by congruence. f_equal.
    unfold overlay_extractor in D5, B5. destruct (r_xform ro); [|congruence].
    destruct D5 as (c & C1 & ->), B5 as (c' & C1' & ->). congruence.
Qed.
Lemma both_alike {A U} v v' : decode (A := A) (U := U) s ic = Ok v -> decode (A := A) (U := U) s' ic = Ok v' ->
  d_mnemonic (i_di v) = d_mnemonic (i_di v') -> defined_alike K K' (d_mnemonic (i_di v)) -> same_answer (Ok v) (Ok v').
Proof.
  intros H H' EM DA.
  destruct (outcome _ _ _ _ _ _ _ HN HD WF (A := A) (U := U) ic) as [[N1 Q1]|(r & e & x & L & S & X & [[D Q1]|(D & y & u & RY & AN & _)])]; try congruence.
  destruct (outcome _ _ _ _ _ _ _ HN' HD' WF' (A := A) (U := U) ic) as [[N2 Q2]|(r' & e' & x' & L' & S' & X' & [[D' Q2]|(D' & y' & u' & RY' & AN' & _)])]; try congruence.
  rewrite H in AN. rewrite H' in AN'.
  assert (NM : d_mnemonic (i_di v) = rd_mn y).
  { unfold answers in AN. destruct (decode_info _ _ _ _ _) as [d| | |] eqn:E; try discriminate. destruct AN as [a [= ->]]. cbn [i_di]. eapply info_name, E. }
  assert (NM' : d_mnemonic (i_di v') = rd_mn y').
  { unfold answers in AN'. destruct (decode_info (rd_mn y') _ _ _ _) as [d| | |] eqn:E; try discriminate. destruct AN' as [a [= ->]]. cbn [i_di]. eapply info_name, E. }
  assert (y = y') as ->.
  { apply (defined_reads r r' e e'); auto; [now rewrite <- NM|congruence]. }
  eapply answers_same; eauto.
Qed.
End Both.
