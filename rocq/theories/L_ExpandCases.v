(** Claim C69: the list is complete, the exceptions are real, concrete cases. *)
From Coq Require Import Ascii NArith ZArith Arith List Bool String Lia.
From Verif Require Import M_Base M_Field M_Forms M_Meta M_OperandInfo M_Extract M_Decoded M_Trie M_Builder M_DTable M_Raw.
From Verif Require Import S_Bits L_Bits S_Trie S_Slots S_Imm S_Table S_Shipped S_Manual S_Manual32 S_Expand.
From Verif Require Import L_Check L_Decode L_Claims L_Shipped L_Manual L_ManualFull L_ManualClaims L_Symbolic L_Expand.
Import ListNotations.
Local Open Scope N_scope.

(** ** Every compressed instruction is listed *)
Definition listed_check (T : list irec) (l : list (string * list piece)) (pairs : list string) : bool :=
  forallb (fun o => if N.testbit (o_mk o) 0 then if N.testbit (o_mk o) 1 then if N.testbit (o_v o) 0 then if N.testbit (o_v o) 1 then true
      else mem (o_n o) (map fst l) || mem (o_n o) pairs else mem (o_n o) (map fst l) || mem (o_n o) pairs else false else false) (rows T).
Lemma listed_check_ok T l : expansions_of T l -> exists pairs, listed_check T l pairs = true /\ (pairs <> [] -> T = rv32p /\ pairs = zclsd).
Proof.
  intros [].
  - exists []. split; [vm_compute; reflexivity|contradiction].
  - exists []. split; [vm_compute; reflexivity|contradiction].
  - exists zclsd. split; [vm_compute; reflexivity|auto].
Qed.
Lemma C69_listed_lemma T l uids annos nu s : expansions_of T l -> 0 < nu < w32 -> make_decoder uids annos nu [] [] T = Ok s ->
  forall A U ic v, decode (A := A) (U := U) s ic = Ok v -> slice 0 2 ic <> 3 ->
  (exists ps, In (d_mnemonic (i_di v), ps) l) \/ (T = rv32p /\ In (d_mnemonic (i_di v)) zclsd).
Proof.
  intros EX HN HD A U ic v E N3. destruct (expansions_book T l EX) as (BK & BO). destruct (listed_check_ok T l EX) as (pairs & CK & PP).
  pose proof (C38_decodes_lemma T T uids annos nu [] [] s (book_shipped T BK BO) (subseq_refl T) HN HD A U ic) as D. rewrite kept_all, E in D.
  pose proof (book_ok T BK BO) as C0. unfold bookb in C0. cbv zeta in C0. repeat (apply andb_true_iff in C0 as [C0 ?]).
  destruct (part_row T ltac:(assumption) T (fun r H => H) (lookup_uid s) ic v D) as (o & e & y & IO & _ & (Q1 & _ & Q3 & _) & Q4 & _).
  unfold listed_check in CK. rewrite forallb_forall in CK. specialize (CK _ IO). cbv beta in CK. rewrite Q1, <- Q4 in CK.
  assert (R : mem (d_mnemonic (i_di v)) (map fst l) || mem (d_mnemonic (i_di v)) pairs = true ->
    (exists ps, In (d_mnemonic (i_di v), ps) l) \/ (T = rv32p /\ In (d_mnemonic (i_di v)) zclsd)).
  { intros R. apply orb_true_iff in R as [R|R]; apply mem_in in R.
    - left. apply in_map_iff in R as ((n & ps) & R1 & R2). exists ps. cbn [fst] in R1. now subst n.
    - right. destruct PP as [PT ->]; [intros Z; rewrite Z in R; destruct R|]. auto. }
  destruct (N.testbit (o_mk o) 0) eqn:M0; [|discriminate]. destruct (N.testbit (o_mk o) 1) eqn:M1; [|discriminate].
  destruct (N.testbit (o_v o) 0) eqn:V0; [|exact (R CK)]. destruct (N.testbit (o_v o) 1) eqn:V1; [|exact (R CK)].
  exfalso. apply N3. pose proof (f_equal (fun x => N.testbit x 0) Q3) as Z0. pose proof (f_equal (fun x => N.testbit x 1) Q3) as Z1. cbv beta in Z0, Z1. rewrite N.land_spec, M0, V0, andb_true_r in Z0.
  rewrite N.land_spec, M1, V1, andb_true_r in Z1. rewrite (slice_number 0 2 ic : slice 0 2 ic = _). cbn [seq map ev number]. change (N.of_nat (N.to_nat 0 + 0)) with 0. change (N.of_nat (N.to_nat 0 + 1)) with 1.
  rewrite Z0, Z1. reflexivity.
Qed.

(** ** The exceptions *)
Definition view (r : res info) : option (string * list (option bank * N * bool * bool) * list (option bank * N * bool * bool) * Z * N) :=
  match r with
  | Ok v => Some (d_mnemonic (i_di v), map shown (oi_elems (d_dst_oi (i_di v))), map shown (oi_elems (d_src_oi (i_di v))), d_soff (i_di v), d_imm (i_di v))
  | _ => None
  end.
Lemma view_ok r n a b z i : view r = Some (n, a, b, z, i) -> exists v, r = Ok v /\ d_mnemonic (i_di v) = n /\
  map shown (oi_elems (d_dst_oi (i_di v))) = a /\ map shown (oi_elems (d_src_oi (i_di v))) = b /\ d_soff (i_di v) = z /\ d_imm (i_di v) = i.
Proof. destruct r as [v| | |]; cbn [view]; try discriminate. intros H. exists v. injection H as -> -> -> -> ->. auto 10. Qed.
(** For each (pattern, compressed opcode): fits, decodes, and so does its expansion, with other operands. *)
Definition sh_eqb' (a b : option bank * N * bool * bool) : bool :=
  match a, b with
  | (Some x, n, p, q), (Some y, m, p', q') => bank_eqb x y && (n =? m) && Bool.eqb p p' && Bool.eqb q q'
  | _, _ => false
  end.
Lemma sh_refl a : sh_eqb' a a = false -> fst (fst (fst a)) = None.
Proof.
  destruct a as [[[[x|] n] p] q]; cbn; [|reflexivity]. replace (bank_eqb x x) with true by (destruct x; reflexivity). now rewrite N.eqb_refl, !eqb_reflx.
Qed.
Definition opers_eqb := all2 sh_eqb'.
Lemma opers_neq a b : forallb (fun x => match fst (fst (fst x)) with Some _ => true | None => false end) a = true -> opers_eqb a b = false -> b <> a.
Proof.
  intros F H ->. revert H F. induction a as [|x a IH]; cbn; [discriminate|]. destruct (sh_eqb' x x) eqn:E.
  - intros H F. apply andb_true_iff in F as [_ F]. auto.
  - intros _ F. apply sh_refl in E. rewrite E in F. discriminate F.
Qed.
Definition differ1 (s : builder * tree) (l : list (string * list piece)) (p : string) (ic : N) : bool :=
  if fitsb p ic then
    match view (decode (A := unit) (U := unit) s ic) with
    | Some (n, a, b, z, _) =>
        match find (fun e => String.eqb (fst e) n) l with
        | Some e =>
            match view (decode (A := unit) (U := unit) s (expanded (snd e) ic)) with
            | Some (_, a', b', z', _) =>
                if forallb (fun x => match fst (fst (fst x)) with Some _ => true | None => false end) (a ++ b) then
                  negb (if opers_eqb a a' then if opers_eqb b b' then Z.eqb z z' else false else false)
                else false
            | None => false
            end
        | None => false
        end
    | None => false
    end
  else false.
Definition differs_all (T : list irec) (l : list (string * list piece)) (ics : list N) : bool :=
  match make_decoder [] [] 1 [] [] T with
  | Ok s => all2 (differ1 s l) unlike ics
  | _ => false
  end.
Lemma all2_in {X Y} (f : X -> Y -> bool) : forall l m, all2 f l m = true -> forall x, In x l -> exists y, f x y = true.
Proof.
  induction l as [|x l IH]; intros [|y m] H; try discriminate; [intros ? []|]. cbn in H. destruct (f x y) eqn:E; [|discriminate]. intros z [<-|I]; [eauto|eauto].
Qed.
Lemma differ1_ok s l p ic : differ1 s l p ic = true -> fits p ic /\ exists v ps w, decode (A := unit) (U := unit) s ic = Ok v /\ In (d_mnemonic (i_di v), ps) l /\
  decode (A := unit) (U := unit) s (expanded ps ic) = Ok w /\ ~ alike v w.
Proof.
  unfold differ1. destruct (fitsb p ic) eqn:F; [|discriminate]. destruct (view (decode s ic)) as [[[[[n a] b] z] i]|] eqn:V; [|discriminate].
  destruct (find _ l) as [e|] eqn:FE; [|discriminate]. destruct (view (decode s (expanded (snd e) ic))) as [[[[[n' a'] b'] z'] i']|] eqn:V'; [|discriminate].
  destruct (forallb _ (a ++ b)) eqn:TY; [|discriminate]. intros H. apply negb_true_iff in H. split; [now apply fitsb_ok|].
  apply view_ok in V as (v & E & EN & E1 & E2 & E3 & _), V' as (w & E' & _ & E1' & E2' & E3' & _). apply find_some in FE as [I Q]. apply String.eqb_eq in Q.
  exists v, (snd e), w. split; [exact E|]. split; [rewrite EN, <- Q; now destruct e|]. split; [exact E'|]. intros (A1 & A2 & A3). rewrite E1, E1' in A1. rewrite E2, E2' in A2. rewrite E3, E3' in A3.
  rewrite forallb_app in TY. apply andb_true_iff in TY as [T1 T2].
  destruct (opers_eqb a a') eqn:O1; [|exact (opers_neq _ _ T1 O1 A1)]. destruct (opers_eqb b b') eqn:O2; [|exact (opers_neq _ _ T2 O2 A2)]. rewrite A3, Z.eqb_refl in H. discriminate H.
Qed.
Lemma differs64 : differs_all rv64 (S_Expand.both ++ only64) [0x0001; 0x4085; 0x9C65; 0x9C6D; 0x800A] = true.
Proof. vm_compute. reflexivity. Qed.
Lemma C69_unlike_lemma : exists s, make_decoder [] [] 1 [] [] rv64 = Ok s /\
  forall p, In p unlike -> exists ic v ps w, fits p ic /\ decode (A := unit) (U := unit) s ic = Ok v /\ In (d_mnemonic (i_di v), ps) (S_Expand.both ++ only64) /\
    decode (A := unit) (U := unit) s (expanded ps ic) = Ok w /\ ~ alike v w.
Proof.
  pose proof differs64 as H. unfold differs_all in H. destruct (make_decoder [] [] 1 [] [] rv64) as [s| | |]; try discriminate. exists s. split; [reflexivity|].
  intros p I. destruct (all2_in _ _ _ H p I) as (ic & Q). apply differ1_ok in Q as (F & v & ps & w & Q). exists ic, v, ps, w. auto.
Qed.
(** RV32: a shift by 32. *)
Definition shift32 : list piece := (shamt "000000" ++ [rd5; K "001"; rd5; OP_IMM])%list.
Lemma shift_names : names rv32f [0x1082; expanded shift32 0x1082] = Some [Ok "c.slli"%string; Throw EUnknownOpcode].
Proof. vm_compute. reflexivity. Qed.
Lemma shift_in : In ("c.slli"%string, shift32) (S_Expand.both ++ only32 ++ only32f).
Proof. apply in_or_app. left. unfold S_Expand.both. repeat (first [left; reflexivity|right]). Qed.
Lemma C69_shift_lemma : exists s ic v ps, make_decoder [] [] 1 [] [] rv32f = Ok s /\ decode (A := unit) (U := unit) s ic = Ok v /\
  In (d_mnemonic (i_di v), ps) (S_Expand.both ++ only32 ++ only32f) /\ decode (A := unit) (U := unit) s (expanded ps ic) = Throw EUnknownOpcode.
Proof.
  destruct (names_ok _ _ _ shift_names) as (s & E & Q). cbn [map] in Q. injection Q as Q Q'. apply name_ok in Q as (v & D & M). exists s, 0x1082, v, shift32.
  split; [exact E|]. split; [exact D|]. split; [rewrite M; exact shift_in|]. destruct (decode s (expanded shift32 4226)); cbn [name_of] in Q'; congruence.
Qed.
(** ** A case *)
Definition views (T : list irec) (ics : list N) :=
  match make_decoder [] [] 1 [] [] T with Ok s => Some (map (fun ic => view (decode (A := unit) (U := unit) s ic)) ics) | _ => None end.
Lemma views_ok T ics l : views T ics = Some l -> exists s, make_decoder [] [] 1 [] [] T = Ok s /\ map (fun ic => view (decode (A := unit) (U := unit) s ic)) ics = l.
Proof. unfold views. destruct (make_decoder _ _ _ _ _ _) as [s| | |] eqn:E; try discriminate. intros H. exists s. split; [reflexivity|congruence]. Qed.
Definition addi_ps : list piece := (simm ++ [rd5; K "000"; rd5; OP_IMM])%list.
Lemma addi_in : In ("c.addi"%string, addi_ps) (S_Expand.both ++ only64).
Proof. apply in_or_app. left. unfold S_Expand.both. repeat (first [left; reflexivity|right]). Qed.
Lemma addi_views : views rv64 [0x10FD; expanded addi_ps 0x10FD] =
  Some [Some ("c.addi"%string, [(Some BX, 1, false, false)], [(Some BX, 1, false, false)], (-1)%Z, 0x3F);
        Some ("addi"%string, [(Some BX, 1, false, false)], [(Some BX, 1, false, false)], (-1)%Z, 0xFFF)].
Proof. vm_compute. reflexivity. Qed.
Lemma C69_case : exists s v w, make_decoder [] [] 1 [] [] rv64 = Ok s /\ expansions_of rv64 (S_Expand.both ++ only64) /\
  decode (A := unit) (U := unit) s 0x10FD = Ok v /\ d_mnemonic (i_di v) = "c.addi"%string /\ In ("c.addi"%string, addi_ps) (S_Expand.both ++ only64) /\
  slice 0 2 0x10FD <> 3 /\ (forall p, In p unlike -> ~ fits p 0x10FD) /\ expanded addi_ps 0x10FD = 0xFFF08093 /\
  decode (A := unit) (U := unit) s 0xFFF08093 = Ok w /\ d_mnemonic (i_di w) = "addi"%string /\ alike v w.
Proof.
  destruct (views_ok _ _ _ addi_views) as (s & E & Q). cbn [map] in Q. injection Q as Q Q'. apply view_ok in Q as (v & D & N & Q1 & Q2 & Q3 & _), Q' as (w & D' & N' & Q1' & Q2' & Q3' & _).
  exists s, v, w. split; [exact E|]. split; [constructor|]. split; [exact D|]. split; [exact N|]. split; [exact addi_in|]. split; [vm_compute; discriminate|].
  split; [|split; [reflexivity|split; [exact D'|split; [exact N'|]]]].
  - assert (X : forallb (fun p => negb (fitsb p 0x10FD)) unlike = true) by (vm_compute; reflexivity). rewrite forallb_forall in X. intros p I F. specialize (X p I). apply fitsb_ok in F. rewrite F in X. discriminate X.
  - unfold alike. rewrite Q1, Q1', Q2, Q2', Q3, Q3'. auto.
Qed.
Lemma C69_raw_lemma : exists s ic v ps w, make_decoder [] [] 1 [] [] rv64 = Ok s /\ decode (A := unit) (U := unit) s ic = Ok v /\
  In (d_mnemonic (i_di v), ps) (S_Expand.both ++ only64) /\ decode (A := unit) (U := unit) s (expanded ps ic) = Ok w /\ alike v w /\
  d_imm (i_di v) = 0x3F /\ d_imm (i_di w) = 0xFFF.
Proof.
  destruct (views_ok _ _ _ addi_views) as (s & E & Q). cbn [map] in Q. injection Q as Q Q'. apply view_ok in Q as (v & D & N & Q1 & Q2 & Q3 & Q4), Q' as (w & D' & N' & Q1' & Q2' & Q3' & Q4').
  exists s, 0x10FD, v, addi_ps, w. split; [exact E|]. split; [exact D|]. split; [rewrite N; exact addi_in|]. split; [exact D'|]. split; [|auto].
  unfold alike. rewrite Q1, Q1', Q2, Q2', Q3, Q3'. auto.
Qed.
