(** Concrete tables for C61: extensions that leave other opcodes alone, and one that does not. *)
From Coq Require Import NArith List Bool String.
From Verif Require Import M_Base M_Field M_Forms M_Extract M_Decoded M_Builder M_DTable M_Raw.
From Verif Require Import S_Bits S_Trie S_Agree S_Table S_Shipped S_Local L_Table L_Decode L_Check L_Claims L_Local.
Import ListNotations.
Local Open Scope N_scope.

(** A table, and two extensions of it. *)
Definition raw_start : list raw := pick ["addi"; "add"; "jalr"; "ebreak"; "mv"; "c.addi"; "c.ebreak"]%string raw_rv64.
Definition raw_more : list raw := pick ["lw"; "li"; "nop"; "c.lw"]%string raw_rv64.
Definition start : list irec := map rec_of raw_start.
Definition more : list irec := map rec_of raw_more.
Definition cjalr : list irec := map rec_of (pick ["c.jalr"%string] raw_rv64).

Definition unconcernedb (recs : list irec) (ic : N) : bool :=
  forallb (fun e => if enc_okb e then negb (matchesb e ic) else false) (encodings recs) &&
  forallb (fun r => match r_overlay r with
                    | None => true
                    | Some jo => match jo_match jo with
                                 | Some [m; v] => negb (N.eqb (N.land ic m) v)
                                 | _ => true
                                 end
                    end) recs.
Lemma unconcernedb_ok recs ic : unconcernedb recs ic = true -> unconcerned recs ic.
Proof.
  unfold unconcernedb. intros H. apply andb_true_iff in H as [H1 H2]. rewrite forallb_forall in H1, H2. split.
  - intros e He. specialize (H1 e He). destruct (enc_okb e) eqn:E; [|discriminate]. apply matchesb_false; [exact E|]. now apply negb_true_iff.
  - intros mn base mask (r & Q1 & (_ & jo & Q2 & _ & Q3)). specialize (H2 r Q1). rewrite Q2, Q3, N.eqb_refl in H2. discriminate.
Qed.
Lemma concerns_app recs more ic : unconcerned more ic ->
  (forall r r0, In r more -> In r0 recs -> r_mn r <> Some (r_expand r0)) ->
  forall r, concerns recs ic r <-> concerns (recs ++ more) ic r.
Proof.
  intros [U1 U2] NX r.
  assert (L : forall r0 e0, matches e0 ic -> listed recs r0 e0 <-> listed (recs ++ more) r0 e0).
  { intros r0 e0 M. unfold listed. rewrite in_app_iff. split; [tauto|]. intros [[H|H] H2]; [auto|].
    destruct (U1 e0); [apply in_flat_map; eauto|exact M]. }
  split.
  - intros [H D]. split; [apply in_or_app; auto|].
    destruct D as [D|[(r0 & e0 & D1 & D2 & D3)|(r0 & e0 & D1 & D2 & D3)]]; [left; exact D|right; left|right; right]; exists r0, e0;
      (split; [now apply L|auto]).
  - intros [H D]. assert (In r recs) as H'.
    { apply in_app_or in H as [H|H]; [exact H|]. exfalso. destruct D as [(e & D1 & D2)|[(r0 & e0 & D1 & D2 & mn & mask & D3)|(r0 & e0 & D1 & D2 & D3)]].
      - destruct (U1 e); [apply in_flat_map; eauto|exact D2].
      - apply (U2 mn (en_mn e0) mask). exists r. auto.
      - apply (L _ _ D2) in D1 as [D1 _]. exact (NX r r0 H D1 D3). }
    split; [exact H'|].
    destruct D as [D|[(r0 & e0 & D1 & D2 & D3)|(r0 & e0 & D1 & D2 & D3)]]; [left; exact D|right; left|right; right]; exists r0, e0;
      (split; [now apply L|auto]).
Qed.

Lemma start_wf : well_formed (kept [] [] start).
Proof. rewrite kept_all. apply well_formedb_ok. vm_compute. reflexivity. Qed.
Lemma longer_wf : well_formed (kept [] [] (start ++ more)).
Proof. rewrite kept_all. unfold start, more. rewrite <- map_app. apply well_formedb_ok. vm_compute. reflexivity. Qed.
Lemma start_names : names start [0x8093; 0x13; 0x85; 0x9086] = Some [Ok "mv"; Ok "mv"; Ok "c.addi"; Throw EUnknownOpcode]%string.
Proof. vm_compute. reflexivity. Qed.
Lemma longer_names : names (start ++ more) [0x8093; 0x13; 0x85] = Some [Ok "mv"; Ok "nop"; Ok "c.addi"]%string.
Proof. vm_compute. reflexivity. Qed.
Lemma cjalr_names : names (start ++ cjalr) [0x9086] = Some [Ok "c.jalr"%string].
Proof. vm_compute. reflexivity. Qed.
Lemma more_unconcerned ic : In ic [0x8093; 0x85] -> unconcerned (kept [] [] more) ic.
Proof.
  rewrite kept_all. intros H. apply unconcernedb_ok.
  assert (F : forallb (unconcernedb more) [0x8093; 0x85] = true) by (vm_compute; reflexivity).
  rewrite forallb_forall in F. now apply F.
Qed.
Lemma more_concerns r : concerns (kept [] [] start) 0x85 r <-> concerns (kept [] [] (start ++ more)) 0x85 r.
Proof.
  rewrite !kept_all. apply concerns_app.
  - pose proof (more_unconcerned 0x85) as H. rewrite kept_all in H. apply H. cbn [In]. auto.
  - assert (F : forallb (fun r => forallb (fun r0 => match r_mn r with Some n => negb (String.eqb n (r_expand r0)) | None => true end) start) more = true)
      by (vm_compute; reflexivity).
    rewrite forallb_forall in F. intros r1 r0 H1 H0 Q. specialize (F r1 H1). rewrite forallb_forall in F. specialize (F r0 H0).
    rewrite Q, String.eqb_refl in F. discriminate.
Qed.
Lemma local_case : exists s s', make_decoder [] [] 1 [] [] start = Ok s /\ make_decoder [] [] 9 [] [] (start ++ more) = Ok s' /\
  well_formed (kept [] [] start) /\ well_formed (kept [] [] (start ++ more)) /\
  (forall r, concerns (kept [] [] start) 0x85 r <-> concerns (kept [] [] (start ++ more)) 0x85 r) /\
  exists v, decode (A := unit) (U := unit) s 0x85 = Ok v /\ d_mnemonic (i_di v) = "c.addi"%string.
Proof.
  destruct (names_ok _ _ _ start_names) as (s & E & Q). cbn [map] in Q. injection Q as _ _ Q _.
  assert (F : match make_decoder [] [] 9 [] [] (start ++ more) with Ok _ => true | _ => false end = true) by (vm_compute; reflexivity).
  destruct (make_decoder [] [] 9 [] [] (start ++ more)) as [s'| | |] eqn:E'; try discriminate F.
  exists s, s'. split; [exact E|]. split; [reflexivity|]. split; [exact start_wf|]. split; [exact longer_wf|].
  split; [exact more_concerns|]. exact (name_ok _ _ Q).
Qed.
Lemma extend_case : exists s s', make_decoder [] [] 1 [] [] start = Ok s /\ make_decoder [] [] 1 [] [] (start ++ more) = Ok s' /\
  well_formed (kept [] [] start) /\ well_formed (kept [] [] (start ++ more)) /\
  unconcerned (kept [] [] more) 0x8093 /\ unconcerned (kept [] [] more) 0x85 /\
  (exists v, decode (A := unit) (U := unit) s 0x8093 = Ok v /\ d_mnemonic (i_di v) = "mv"%string) /\
  (exists v v', decode (A := unit) (U := unit) s 0x13 = Ok v /\ decode (A := unit) (U := unit) s' 0x13 = Ok v' /\
     d_mnemonic (i_di v) = "mv"%string /\ d_mnemonic (i_di v') = "nop"%string).
Proof.
  destruct (names_ok _ _ _ start_names) as (s & E & Q). cbn [map] in Q. injection Q as Q1 Q2 _ _.
  destruct (names_ok _ _ _ longer_names) as (s' & E' & Q). cbn [map] in Q. injection Q as _ Q2' _.
  exists s, s'. split; [exact E|]. split; [exact E'|]. split; [exact start_wf|]. split; [exact longer_wf|].
  split; [apply more_unconcerned; cbn [In]; auto|]. split; [apply more_unconcerned; cbn [In]; auto|].
  split; [exact (name_ok _ _ Q1)|].
  apply name_ok in Q2 as (v & D & M). apply name_ok in Q2' as (v' & D' & M'). exists v, v'. auto.
Qed.
Lemma extend_refuted_lemma : exists recs more s s' ic v, make_decoder [] [] 1 [] [] recs = Ok s /\
  make_decoder [] [] 1 [] [] (recs ++ more) = Ok s' /\ well_formed recs /\ unconcerned more ic /\
  decode (A := unit) (U := unit) s ic = Throw EUnknownOpcode /\
  decode (A := unit) (U := unit) s' ic = Ok v /\ exists r, In r more /\ is_inst r (d_mnemonic (i_di v)).
Proof.
  destruct (names_ok _ _ _ start_names) as (s & E & Q). cbn [map] in Q. injection Q as _ _ _ Q.
  destruct (names_ok _ _ _ cjalr_names) as (s' & E' & Q'). cbn [map] in Q'. injection Q' as Q'.
  apply name_ok in Q' as (v & D & M).
  exists start, cjalr, s, s', 0x9086, v. split; [exact E|]. split; [exact E'|].
  split; [rewrite <- (kept_all start); exact start_wf|]. split; [apply unconcernedb_ok; vm_compute; reflexivity|].
  split; [destruct (decode s 0x9086); cbn [name_of] in Q; congruence|]. split; [exact D|]. rewrite M.
  assert (F : match cjalr with r :: _ => match r_mn r, r_overlay r with Some n, None => String.eqb n "c.jalr" | _, _ => false end | _ => false end = true)
    by (vm_compute; reflexivity).
  destruct cjalr as [|r l]; [discriminate|]. exists r. split; [now left|].
  destruct (r_mn r) as [n|] eqn:E1; [|discriminate]. destruct (r_overlay r) eqn:E2; [discriminate|]. apply String.eqb_eq in F. subst n. split; auto.
Qed.
Lemma ids_case : exists s s', make_decoder [] [] 1 [] [] start = Ok s /\ make_decoder [] [] 1 [] [] (start ++ more) = Ok s' /\
  lookup_uid s "c.addi" <> 0 /\ lookup_uid s "lw" = 0 /\ lookup_uid s' "lw" <> 0.
Proof.
  destruct (names_ok _ _ _ start_names) as (s & E & _). destruct (names_ok _ _ _ longer_names) as (s' & E' & _).
  exists s, s'. split; [exact E|]. split; [exact E'|].
  assert (F : match make_decoder [] [] 1 [] [] start, make_decoder [] [] 1 [] [] (start ++ more) with
              | Ok s, Ok s' => (negb (N.eqb (lookup_uid s "c.addi") 0) && N.eqb (lookup_uid s "lw") 0 && negb (N.eqb (lookup_uid s' "lw") 0))%bool
              | _, _ => false end = true) by (vm_compute; reflexivity).
  rewrite E, E' in F. apply andb_true_iff in F as [F F3]. apply andb_true_iff in F as [F1 F2].
  apply negb_true_iff in F1, F3. apply N.eqb_neq in F1, F3. apply N.eqb_eq in F2. auto.
Qed.
