(** Lemmas: concrete cases of what decoded instructions say (C68). *)
From Coq Require Import NArith List Bool String.
From Verif Require Import M_Base M_Field M_Meta M_OperandInfo M_Extract M_Decoded M_Builder M_Raw M_DTable.
From Verif Require Import S_Meta S_Trie S_Table S_Widths S_Shipped S_Says L_Check L_Decode L_Claims.
Import ListNotations.
Local Open Scope N_scope.

(** Shipped records with a "data" clause, and with other clauses for the operands. *)
Definition with_data (n : N) (w : raw) : raw :=
  mkRaw (w_mn w) (w_pseudo w) (w_form w) (w_xform w) (w_stencil w) (w_fixed w) (w_ignore w) (w_alias w) (w_factory w) (w_expand w)
    (w_overlay w) (w_tags w) (w_type w) (Some n) (w_oper w) (w_isa w).
Definition with_opers (l : list (kind * oper_clause)) (w : raw) : raw :=
  mkRaw (w_mn w) (w_pseudo w) (w_form w) (w_xform w) (w_stencil w) (w_fixed w) (w_ignore w) (w_alias w) (w_factory w) (w_expand w)
    (w_overlay w) (w_tags w) (w_type w) (w_data w) l (w_isa w).
Definition raw_sized : list raw := (pick ["addi"] raw_rv64 ++ map (with_data 32) (pick ["c.addi"] raw_rv64))%list%string.
Definition raw_words : list raw := (map (with_opers [(KWord, OperAll); (KLong, OperList ["rs1"])]) (pick ["jal"] raw_rv64) ++ pick ["c.j"] raw_rv64)%list%string.
Definition seen (T : Type) (q : info -> T) (ws : list raw) (ic : N) : option T :=
  match make_decoder [] [] 1 [] [] (map rec_of ws) with
  | Ok s => match decode (A := unit) (U := unit) s ic with Ok v => Some (q v) | _ => None end
  | _ => None
  end.
Lemma seen_ok T (q : info -> T) ws ic t : seen T q ws ic = Some t ->
  exists s v, make_decoder [] [] 1 [] [] (map rec_of ws) = Ok s /\ decode (A := unit) (U := unit) s ic = Ok v /\ q v = t.
Proof.
  unfold seen. destruct (make_decoder _ _ _ _ _ _) as [s| | |]; try discriminate. destruct (decode s ic) as [v| | |] eqn:D; try discriminate.
  intros [= <-]. exists s, v. auto.
Qed.
Lemma case_in T (q : info -> T) ws ic t : well_formedb ws = true -> seen T q ws ic = Some t ->
  exists s v, make_decoder [] [] 1 [] [] (map rec_of ws) = Ok s /\ 0 < 1 < w32 /\ well_formed (kept [] [] (map rec_of ws)) /\
    decode (A := unit) (U := unit) s ic = Ok v /\ q v = t.
Proof.
  intros W H. destruct (seen_ok _ _ _ _ _ H) as (s & v & H1 & H2 & H3). exists s, v. split; [exact H1|]. split; [split; reflexivity|].
  split; [rewrite kept_all; now apply well_formedb_ok|auto].
Qed.
Lemma says_case : exists s v, make_decoder [] [] 1 [] [] small = Ok s /\ 0 < 1 < w32 /\ well_formed (kept [] [] small) /\
  decode (A := unit) (U := unit) s 0x85 = Ok v /\
  (d_mnemonic (i_di v), is_inst_type (i_meta v) (2 ^ 0), map e_type (operands_at Dest (i_di v))) = ("c.addi"%string, true, [Some KLong]).
Proof. apply case_in; vm_compute; reflexivity. Qed.
(** The record behind an answer, in a table without overlays. *)
Lemma record_of ws s ic v : make_decoder [] [] 1 [] [] (map rec_of ws) = Ok s -> well_formed (map rec_of ws) ->
  decode (A := unit) (U := unit) s ic = Ok v -> plain_names (d_mnemonic (i_di v)) (map rec_of ws) = true ->
  exists r e, listed (map rec_of ws) r e /\ selected (encodings (map rec_of ws)) e ic /\ d_mnemonic (i_di v) = en_mn e /\ In r (map rec_of ws) /\ r_mn r = Some (en_mn e).
Proof.
  intros HD WF D P. pose proof WF as WF'. rewrite <- (kept_all (map rec_of ws)) in WF.
  destruct (C02_lemma _ _ _ _ _ _ _ HD (wf_cells _ WF) ic v D) as (r & e & L & _ & S & _ & R). rewrite kept_all in *.
  exists r, e. assert (EM : d_mnemonic (i_di v) = en_mn e).
  { destruct R as [R|(mask & ro & R1 & R2 & jo & R3 & _)]; [exact R|]. exfalso. rewrite (plain_names_ok _ _ P _ R1 R2) in R3. discriminate. }
  split; [exact L|]. split; [exact S|]. split; [exact EM|]. split; [exact (proj1 L)|]. destruct (listed_mn _ _ (proj2 L)) as [[HI _] _]. exact HI.
Qed.
Definition all_named (n : string) (p : irec -> bool) (l : list irec) : bool :=
  forallb (fun r => match r_mn r with Some m => if String.eqb m n then p r else true | None => true end) l.
Lemma all_named_ok n p l r : all_named n p l = true -> In r l -> r_mn r = Some n -> p r = true.
Proof. unfold all_named. rewrite forallb_forall. intros F I M. specialize (F r I). now rewrite M, String.eqb_refl in F. Qed.
Lemma compressed_refuted_lemma : exists recs s ic v r e, make_decoder [] [] 1 [] [] recs = Ok s /\ well_formed recs /\
  decode (A := unit) (U := unit) s ic = Ok v /\ listed recs r e /\ selected (encodings recs) e ic /\ d_mnemonic (i_di v) = en_mn e /\
  jm_data (r_meta r) = Some 32 /\ mt_data (i_meta v) = 0.
Proof.
  assert (W : well_formed (map rec_of raw_sized)) by (apply well_formedb_ok; vm_compute; reflexivity).
  destruct (seen_ok _ (fun v => (d_mnemonic (i_di v), mt_data (i_meta v))) raw_sized 0x85 ("c.addi"%string, 0)) as (s & v & HD & D & Q); [vm_compute; reflexivity|].
  assert (Q1 : d_mnemonic (i_di v) = "c.addi"%string) by (apply (f_equal fst) in Q; exact Q). apply (f_equal snd) in Q. cbn [snd] in Q.
  destruct (record_of raw_sized s 0x85 v HD W D) as (r & e & L & S & M & I & N); [rewrite Q1; vm_compute; reflexivity|].
  exists (map rec_of raw_sized), s, 0x85, v, r, e. split; [exact HD|]. split; [exact W|]. split; [exact D|]. split; [exact L|]. split; [exact S|]. split; [exact M|].
  split; [|exact Q]. rewrite <- M, Q1 in N.
  assert (K : (match jm_data (r_meta r) with Some n => n =? 32 | None => false end) = true).
  { refine (all_named_ok "c.addi" (fun r => match jm_data (r_meta r) with Some n => n =? 32 | None => false end) _ r _ I N). vm_compute. reflexivity. }
  destruct (jm_data (r_meta r)) as [n|]; [|discriminate]. apply N.eqb_eq in K. now subst n.
Qed.
Lemma word_typed d : jm_oper (r_meta d) = oper_of [(KWord, OperAll); (KLong, OperList ["rs1"%string])] -> typed_as d RD (Some KWord).
Proof.
  intros D3. unfold typed_as, covers. rewrite D3. split; [exact Logic.I|]. intros [] C; cbn in C |- *; try contradiction; try discriminate.
  exfalso. destruct C as (n & [<-|[]] & X). discriminate X.
Qed.
Lemma borrowed_refuted_lemma : exists recs s ic v r e d el, make_decoder [] [] 1 [] [] recs = Ok s /\ well_formed recs /\
  decode (A := unit) (U := unit) s ic = Ok v /\ listed recs r e /\ selected (encodings recs) e ic /\ d_mnemonic (i_di v) = en_mn e /\
  described_by recs r d /\ In el (operands_at Dest (i_di v)) /\ e_fid el = Some RD /\ typed_as d RD (Some KWord) /\ e_type el = Some KLong.
Proof.
  assert (W : well_formed (map rec_of raw_words)) by (apply well_formedb_ok; vm_compute; reflexivity).
  destruct (seen_ok _ (fun v => (d_mnemonic (i_di v), map (fun e => (e_fid e, e_type e)) (operands_at Dest (i_di v)))) raw_words 0xa001 ("c.j"%string, [(Some RD, Some KLong)])) as (s & v & HD & D & Q); [vm_compute; reflexivity|].
  assert (Q1 : d_mnemonic (i_di v) = "c.j"%string) by (apply (f_equal fst) in Q; exact Q). apply (f_equal snd) in Q. cbn [snd] in Q.
  destruct (record_of raw_words s 0xa001 v HD W D) as (r & e & L & S & M & I & N); [rewrite Q1; vm_compute; reflexivity|].
  rewrite <- M, Q1 in N.
  assert (K : String.eqb (r_expand r) "jal" = true) by (refine (all_named_ok "c.j" (fun r => String.eqb (r_expand r) "jal") _ r _ I N); vm_compute; reflexivity).
  apply String.eqb_eq in K.
  destruct (operands_at Dest (i_di v)) as [|el l] eqn:O; [discriminate Q|]. cbn [map] in Q. injection Q as Q2 Q3 _.
  assert (DX : exists d, In d (map rec_of raw_words) /\ is_inst d "jal" /\ jm_oper (r_meta d) = oper_of [(KWord, OperAll); (KLong, OperList ["rs1"%string])]).
  { assert (J : exists w, pick ["jal"%string] raw_rv64 = [w]) by (vm_compute; eauto). destruct J as [w J].
    exists (rec_of (with_opers [(KWord, OperAll); (KLong, OperList ["rs1"%string])] w)). unfold raw_words. rewrite J. split; [now left|]. split; [|reflexivity].
    assert (X : map (fun w => (w_mn w, w_overlay w, w_pseudo w)) (pick ["jal"%string] raw_rv64) = [(Some "jal"%string, None, None)]) by (vm_compute; reflexivity).
    rewrite J in X. cbn [map] in X. injection X as X1 X2 X3. unfold is_inst. cbn. rewrite X1, X2. auto. }
  destruct DX as (d & D1 & D2 & D3).
  exists (map rec_of raw_words), s, 0xa001, v, r, e, d, el. split; [exact HD|]. split; [exact W|]. split; [exact D|]. split; [exact L|]. split; [exact S|]. split; [exact M|].
  split; [unfold described_by; rewrite K; left; auto|]. rewrite O. split; [now left|]. split; [exact Q2|]. split; [|exact Q3].
  exact (word_typed d D3).
Qed.
