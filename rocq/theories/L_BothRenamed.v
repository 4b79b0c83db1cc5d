(** The claims about names and known opcodes (C71). *)
From Coq Require Import NArith List Bool String Lia.
From Verif Require Import M_Base M_Meta M_OperandInfo M_Extract M_Decoded M_Builder M_DTable M_Raw G_Tables.
From Verif Require Import S_Bits S_Trie S_Table S_Shipped S_Both S_BothNames L_Check L_Decode L_Total L_Shipped L_Claims L_Manual L_Both L_BothShipped L_BothNames.
Import ListNotations.
Local Open Scope N_scope.

Lemma shipped_names T uids uids' annos annos' nu nu' s s' : T = rv32f \/ T = rv32p -> 0 < nu < w32 -> 0 < nu' < w32 ->
  make_decoder uids annos nu [] [] rv64 = Ok s -> make_decoder uids' annos' nu' [] [] T = Ok s' ->
  forall A U ic v v', decode (A := A) (U := U) s ic = Ok v -> decode (A := A) (U := U) s' ic = Ok v' ->
  d_mnemonic (i_di v) = d_mnemonic (i_di v') \/ In (d_mnemonic (i_di v), d_mnemonic (i_di v')) renamed.
Proof.
  intros HT HN HN' HD HD' A U ic v v' D D'.
  assert (NB : namesb rv64 T renamed = true) by (destruct HT as [->| ->]; [exact names32f|exact names32p]).
  assert (SH : shipped T) by (destruct HT as [->| ->]; constructor).
  pose proof (outcome _ _ _ _ _ _ _ HN HD (shipped_kept_wf [] [] rv64 rv64 sh_rv64 (subseq_refl _)) (A := A) (U := U) ic) as Q.
  pose proof (outcome _ _ _ _ _ _ _ HN' HD' (shipped_kept_wf [] [] T T SH (subseq_refl _)) (A := A) (U := U) ic) as Q'.
  rewrite kept_all in Q, Q'. rewrite D in Q. rewrite D' in Q'.
  apply decodes_reads in Q as (r & e & y & L & _ & S & R & N & _). apply decodes_reads in Q' as (r' & e' & y' & L' & _ & S' & R' & N' & _).
  rewrite N, N'. exact (L_BothNames.names_ok rv64 T renamed ic r e y r' e' y' NB (shipped_wf _ sh_rv64) L S R L' S' R').
Qed.
Lemma shipped_known T recs uids uids' annos annos' nu nu' incl excl s s' : shipped T -> subseq recs T ->
  make_decoder uids annos nu [] [] rv64 = Ok s -> make_decoder uids' annos' nu' incl excl recs = Ok s' ->
  forall A U ic, decode (A := A) (U := U) s ic = Throw EUnknownOpcode -> decode (A := A) (U := U) s' ic = Throw EUnknownOpcode.
Proof.
  intros HT HS HD HD' A U ic D.
  pose proof (wf_cells _ (shipped_kept_wf [] [] rv64 rv64 sh_rv64 (subseq_refl _))) as W.
  pose proof (wf_cells _ (shipped_kept_wf incl excl recs T HT HS)) as W'.
  pose proof (proj1 (C03_lemma _ _ _ _ _ _ _ HD W (A := A) (U := U) ic) D) as D0.
  apply (proj2 (C03_lemma _ _ _ _ _ _ _ HD' W' (A := A) (U := U) ic)). clear D. rename D0 into D. rewrite kept_all in D.
  intros e' I' M'. assert (J : In e' (encodings T)).
  { unfold encodings in *. apply in_flat_map in I' as (r & I & E). apply in_flat_map. exists r. split; [|exact E].
    exact (subseq_in _ _ (kept_sub incl excl recs T HS) r I). }
  assert (X : exists e, In e (encodings rv64) /\ matches e ic).
  { destruct HT; [eauto|exact (covers_ok _ _ _ _ covers32f J M')|exact (covers_ok _ _ _ _ covers32p J M')]. }
  destruct X as (e & I & M). exact (D e I M).
Qed.

(** For each opcode: the names that the two tables give it. *)
Definition called_as (T T' : list irec) (ics : list N) : option (list (option string * option string)) :=
  match make_decoder [] [] 1 [] [] T, make_decoder [] [] 1 [] [] T' with
  | Ok s, Ok s' =>
      let nm t ic := match decode (A := unit) (U := unit) t ic with Ok v => Some (d_mnemonic (i_di v)) | _ => None end in
      Some (map (fun ic => (nm s ic, nm s' ic)) ics)
  | _, _ => None
  end.
Definition twos : list N :=
  [0x2085; 0x6000; 0xe000; 0x6082; 0xe002; 0x200033; 0x300033; 0x400033; 0x500033; 0x900a; 0x900e; 0x9012; 0x9016; 0x6013; 0x106013; 0x306013].
Lemma called_twos : called_as rv64 rv32f twos = Some (map (fun p => (Some (fst p), Some (snd p))) renamed).
Proof. vm_compute. reflexivity. Qed.
Lemma called_ok T T' ics ps : called_as T T' ics = Some (map (fun p => (Some (fst p), Some (snd p))) ps) ->
  exists s s', make_decoder [] [] 1 [] [] T = Ok s /\ make_decoder [] [] 1 [] [] T' = Ok s' /\
  forall n m, In (n, m) ps -> exists ic v v', decode (A := unit) (U := unit) s ic = Ok v /\ decode (A := unit) (U := unit) s' ic = Ok v' /\
    d_mnemonic (i_di v) = n /\ d_mnemonic (i_di v') = m.
Proof.
  unfold called_as. destruct (make_decoder _ _ _ _ _ T) as [s| | |]; try discriminate. destruct (make_decoder _ _ _ _ _ T') as [s'| | |]; try discriminate.
  cbv zeta. intros H. exists s, s'. split; [reflexivity|]. split; [reflexivity|]. intros n m I.
  apply (f_equal (fun o => match o with Some l => l | None => [] end)) in H. cbv beta iota in H.
  assert (J : In (Some n, Some m) (map (fun p : string * string => (Some (fst p), Some (snd p))) ps)) by (apply in_map_iff; exists (n, m); auto).
  rewrite <- H in J. apply in_map_iff in J as (ic & J & _).
  exists ic. destruct (decode s ic) as [v| | |]; try discriminate. destruct (decode s' ic) as [v'| | |]; try discriminate.
  exists v, v'. injection J as <- <-. auto.
Qed.
Lemma shipped_renamed : exists s s', make_decoder [] [] 1 [] [] rv64 = Ok s /\ make_decoder [] [] 1 [] [] rv32f = Ok s' /\
  forall n m, In (n, m) renamed -> exists ic v v', decode (A := unit) (U := unit) s ic = Ok v /\ decode (A := unit) (U := unit) s' ic = Ok v' /\
    d_mnemonic (i_di v) = n /\ d_mnemonic (i_di v') = m.
Proof. exact (called_ok rv64 rv32f _ _ called_twos). Qed.


(** For each opcode: does each of the tables know it? *)
Definition unknown (r : res info) : bool := match r with Throw EUnknownOpcode => true | _ => false end.
Lemma unknown_ok r : unknown r = true -> r = Throw EUnknownOpcode.
Proof. destruct r as [|[]| |]; cbn [unknown]; intros H; try discriminate; reflexivity. Qed.
Definition known_by (T T' : list irec) (ics : list N) : option (list (bool * bool)) :=
  match make_decoder [] [] 1 [] [] T, make_decoder [] [] 1 [] [] T' with
  | Ok s, Ok s' => Some (map (fun ic => (unknown (decode (A := unit) (U := unit) s ic), unknown (decode (A := unit) (U := unit) s' ic))) ics)
  | _, _ => None
  end.
Lemma known_ok T T' ic ic' : known_by T T' [ic; ic'] = Some [(true, true); (false, true)] ->
  exists s s', make_decoder [] [] 1 [] [] T = Ok s /\ make_decoder [] [] 1 [] [] T' = Ok s' /\
  decode (A := unit) (U := unit) s ic = Throw EUnknownOpcode /\ decode (A := unit) (U := unit) s' ic = Throw EUnknownOpcode /\
  decode (A := unit) (U := unit) s ic' <> Throw EUnknownOpcode /\ decode (A := unit) (U := unit) s' ic' = Throw EUnknownOpcode.
Proof.
  unfold known_by. destruct (make_decoder _ _ _ _ _ T) as [s| | |]; try discriminate. destruct (make_decoder _ _ _ _ _ T') as [s'| | |]; try discriminate.
  intros H. exists s, s'. split; [reflexivity|]. split; [reflexivity|]. cbn [map] in H. injection H as H1 H2 H3 H4.
  split; [now apply unknown_ok|]. split; [now apply unknown_ok|]. split; [|now apply unknown_ok]. intros E. rewrite E in H3. discriminate H3.
Qed.
Lemma known_codes : known_by rv64 rv32p [0x0b; 0x1080bb] = Some [(true, true); (false, true)].
Proof. vm_compute. reflexivity. Qed.
Lemma shipped_known_case : exists s s', make_decoder [] [] 1 [] [] rv64 = Ok s /\ make_decoder [] [] 1 [] [] rv32p = Ok s' /\
  decode (A := unit) (U := unit) s 0x0b = Throw EUnknownOpcode /\ decode (A := unit) (U := unit) s' 0x0b = Throw EUnknownOpcode /\
  decode (A := unit) (U := unit) s 0x1080bb <> Throw EUnknownOpcode /\ decode (A := unit) (U := unit) s' 0x1080bb = Throw EUnknownOpcode.
Proof. exact (known_ok rv64 rv32p _ _ known_codes). Qed.
