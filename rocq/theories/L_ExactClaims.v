(** Claim C65 for the shipped tables. *)
From Coq Require Import NArith List Bool String Lia.
From Verif Require Import M_Base M_Field M_Forms M_Meta M_OperandInfo M_Extract M_Decoded M_Trie M_Builder M_DTable M_Raw.
From Verif Require Import S_Bits S_Trie S_Agree S_Slots S_Pairs S_Regs S_Table S_Shipped S_Reserved S_Manual S_Manual32 S_Classes S_Widths.
From Verif Require Import L_Trie L_Table L_Check L_Decode L_Readable L_Claims L_Shipped L_Manual L_ManualFull L_ManualClaims L_DasmTables.
From Verif Require Import L_Slots L_Pairs L_Typed L_Dasm L_Classes L_ClassCases L_Widths L_WidthCases L_Exact.
Import ListNotations.
Local Open Scope list_scope.
Local Open Scope N_scope.

Definition cond_okb (m : mode) (n : string) (c : xcls) (ffm : N) (mt : meta) : bool :=
  match c with
  | X_C2_sp => false
  | X_S_pair => if is32 m then if String.eqb n "sd" then conds c ffm mt (2 ^ 20) else false else false
  | X_C2_sp_store_word_pair => if is32 m then if String.eqb n "c.sdsp" then conds c ffm mt 4 else false else false
  | _ => conds c ffm mt 0
  end.
Lemma cond_ok m n c ffm mt ic : cond_okb m n c ffm mt = true -> ~ zero_pair m n ic -> conds c ffm mt ic = true.
Proof.
  intros H NZ. assert (GEN : (match c with X_C2_sp | X_S_pair | X_C2_sp_store_word_pair => False | _ => True end) -> conds c ffm mt ic = conds c ffm mt 0).
  { unfold conds. destruct c; intros Q; try contradiction; reflexivity. }
  destruct c; cbn [cond_okb] in H; try (rewrite GEN by exact I; exact H); try discriminate; clear GEN.
  - destruct (is32 m) eqn:M; [|discriminate]. destruct (String.eqb_spec n "sd"); [|discriminate].
    assert (Z : slice 20 5 ic <> 0) by (intros Z; apply NZ; split; auto). apply N.eqb_neq in Z.
    unfold conds in *. cbn [agree_cond sub_cond list_cond pair_first] in *. rewrite Z. exact H.
  - destruct (is32 m) eqn:M; [|discriminate]. destruct (String.eqb_spec n "c.sdsp"); [|discriminate].
    assert (Z : slice 2 5 ic <> 0) by (intros Z; apply NZ; split; auto). apply N.eqb_neq in Z.
    unfold conds in *. cbn [agree_cond sub_cond list_cond pair_first] in *. rewrite Z. exact H.
Qed.
Definition exact_okb (m : mode) (p : port) (n : string) (c : xcls) (ffm : N) (mt : meta) : bool :=
  if mem n twice_typed then true else
  if irr p c then
    if sp_float c then if forallb (fun k => negb (N.testbit (mt_fset mt k) (fid_idx RS2))) all_kinds then strict mt ffm (src_slots c) else false
    else if uniform p c ffm mt then if typing_okb mt then cond_okb m n c ffm mt else false else false
  else strict mt ffm (slots p c).
Lemma exact_ok m p n c ffm mt ic n' u d : exact_okb m p n c ffm mt = true -> ~ In n twice_typed -> ~ zero_pair m n ic -> ic < 2 ^ 64 ->
  decode_info n' u (ext c ffm) mt ic = Ok d -> masks_exact p d.
Proof.
  unfold exact_okb. intros H NT NZ B D. destruct (mem n twice_typed) eqn:E; [apply mem_in in E; contradiction|].
  destruct (irr p c) eqn:IR; [|eapply regular_exact; eauto using strict_ok]. destruct (sp_float c) eqn:SP.
  - destruct (forallb _ all_kinds) eqn:F; [|discriminate]. destruct p; [destruct c; discriminate|]. eapply sp_float_exact; eauto. exact (strict_ok _ _ Source _ H).
  - destruct (uniform _ _ _ _) eqn:UN; [|discriminate]. destruct (typing_okb mt) eqn:TY; [|discriminate].
    eapply uniform_exact; eauto. eapply cond_ok; eauto.
Qed.
Definition exactsb (m : mode) : bool :=
  let T := table_of m in
  forallb (fun r => forallb (fun y => let '(n, c, ffm, mt) := y in forallb (fun p => exact_okb m p n c ffm mt) [Dest; Source]) (readings T r)) T.
Lemma exacts_ok m : exactsb m = true.
Proof. destruct m; vm_compute; reflexivity. Qed.

Lemma C65_exact_lemma m recs uids annos nu incl excl s : subseq recs (table_of m) -> 0 < nu < w32 -> make_decoder uids annos nu incl excl recs = Ok s ->
  forall A U ic v, ic < 2 ^ 64 -> decode (A := A) (U := U) s ic = Ok v ->
  ~ In (d_mnemonic (i_di v)) twice_typed -> ~ zero_pair m (d_mnemonic (i_di v)) ic -> forall p, masks_exact p (i_di v).
Proof.
  intros SB HN HD A U ic v BD DC NT NZ p. destruct (mode_checks m) as (_ & _ & C3 & _ & C5 & _).
  destruct (read_rows' _ _ _ _ _ C3 C5 (subseq_in _ _ (kept_sub incl excl recs (table_of m) SB)) BD (mode_decodes m recs uids annos nu incl excl s SB HN HD A U ic v DC))
    as (r & c & ffm & o & cf & e0 & y & H1 & H2 & _ & _ & _ & _ & _ & _ & _ & _ & n & w & H8).
  pose proof (exacts_ok m) as W. unfold exactsb in W. cbv zeta in W. rewrite forallb_forall in W. specialize (W _ H1). rewrite forallb_forall in W. specialize (W _ H2).
  cbv beta iota in W. rewrite forallb_forall in W. assert (IP : In p [Dest; Source]) by (destruct p; cbn; auto). specialize (W _ IP).
  eapply exact_ok; eauto.
Qed.

(** ** What goes wrong *)
Definition mask_views (recs : list irec) (ops : list N) : option (list (option (string * (kind -> N) * list elem))) :=
  match make_decoder [] [] 1 [] [] recs with
  | Ok s => Some (map (fun ic => match pure_info (fst s) (snd s) ic with Ok v => Some (d_mnemonic (i_di v), d_srcT (i_di v), oi_elems (d_src_oi (i_di v))) | _ => None end) ops)
  | _ => None
  end.
Definition inexactb (m : mode) (n : string) (ic : N) (k : kind) (r : N) : bool :=
  match mask_views (in_mode m n) [ic] with
  | Some [Some (n', T, l)] => if String.eqb n' n then if N.testbit (T k) r then negb (existsb (fun e => if okind_eqb (e_type e) (Some k) then e_val e =? r else false) l) else false else false
  | _ => false
  end.
Lemma inexact m n ic k r : inexactb m n ic k r = true -> exists recs s v, subseq recs (table_of m) /\ make_decoder [] [] 1 [] [] recs = Ok s /\
  decode (A := unit) (U := unit) s ic = Ok v /\ d_mnemonic (i_di v) = n /\ N.testbit (typed_at Source (i_di v) k) r = true /\
  forall e, In e (operands_at Source (i_di v)) -> e_val e = r -> e_type e <> Some k.
Proof.
  unfold inexactb, mask_views. destruct (make_decoder _ _ _ _ _ (in_mode m n)) as [s| | |] eqn:E; try discriminate. cbn [map].
  destruct (pure_info (fst s) (snd s) ic) as [v| | |] eqn:EP; try discriminate. intros H.
  destruct (String.eqb_spec (d_mnemonic (i_di v)) n) as [EN|]; [|discriminate]. destruct (N.testbit _ r) eqn:TB; [|discriminate].
  exists (in_mode m n), s, v. split; [apply subseq_filter|]. split; [exact E|]. split; [rewrite decode_pure; exact EP|]. split; [exact EN|]. split; [exact TB|].
  intros e IE ER ET. apply negb_true_iff, not_true_iff_false in H. apply H. apply existsb_exists. exists e. split; [exact IE|].
  rewrite ET, ER, N.eqb_refl. now destruct k.
Qed.
Lemma twice_views : inexactb Rv64 "addiw" 0x0015859B KWord 11 = true.
Proof. vm_compute. reflexivity. Qed.
Lemma pair_views : inexactb Rv32f "sd" 0x0005B023 KLong 0 = true /\ inexactb Rv32p "sd" 0x0005B023 KLong 0 = true.
Proof. split; vm_compute; reflexivity. Qed.
Lemma C65_addiw_lemma : exists recs s v, subseq recs rv64 /\ make_decoder [] [] 1 [] [] recs = Ok s /\
  decode (A := unit) (U := unit) s 0x0015859B = Ok v /\ d_mnemonic (i_di v) = "addiw"%string /\ N.testbit (typed_at Source (i_di v) KWord) 11 = true /\
  forall e, In e (operands_at Source (i_di v)) -> e_val e = 11 -> e_type e <> Some KWord.
Proof. exact (inexact _ _ _ _ _ twice_views). Qed.
Lemma C65_pair_lemma m : is32 m = true -> exists recs s v, subseq recs (table_of m) /\ make_decoder [] [] 1 [] [] recs = Ok s /\
  decode (A := unit) (U := unit) s 0x0005B023 = Ok v /\ d_mnemonic (i_di v) = "sd"%string /\ N.testbit (typed_at Source (i_di v) KLong) 0 = true /\
  forall e, In e (operands_at Source (i_di v)) -> e_val e = 0 -> e_type e <> Some KLong.
Proof. destruct pair_views as [P Q]. destruct m; intros H; [discriminate|exact (inexact _ _ _ _ _ P)|exact (inexact _ _ _ _ _ Q)]. Qed.
(** c.fldsp f10, 8(sp), fsd and c.jr *)
Definition masked_recs : list irec := only ["fld"; "c.fldsp"; "fsd"; "jalr"; "c.jr"]%string.
Definition mask_lists (v : info) : list (kind * N * N) := filter (fun x => negb (N.lor (snd (fst x)) (snd x) =? 0)) (map (fun k => (k, typed_at Source (i_di v) k, typed_at Dest (i_di v) k)) all_kinds).
Definition masked_ops : list N := [0x2522; 0x00A53027; 0x8502].
Definition masked_lists : list (string * list (kind * N * N)) := [("c.fldsp", [(KLong, 4, 0); (KDouble, 0, 2 ^ 10)]); ("fsd", [(KLong, 2 ^ 10, 0); (KDouble, 2 ^ 10, 0)]); ("c.jr", [(KLong, 2 ^ 10, 1)])]%string.
Definition mask_case (recs : list irec) (ops : list N) : option (list (option (string * list (kind * N * N)))) :=
  match make_decoder [] [] 1 [] [] recs with
  | Ok s => Some (map (fun ic => match pure_info (fst s) (snd s) ic with Ok v => Some (d_mnemonic (i_di v), mask_lists v) | _ => None end) ops)
  | _ => None
  end.
Lemma mask_cases : mask_case masked_recs masked_ops = Some (map Some masked_lists).
Proof. vm_compute. reflexivity. Qed.
Lemma mask_case_ok recs ops l : mask_case recs ops = Some (map Some l) -> exists s, make_decoder [] [] 1 [] [] recs = Ok s /\
  Forall2 (fun ic x => exists v, decode (A := unit) (U := unit) s ic = Ok v /\ d_mnemonic (i_di v) = fst x /\ mask_lists v = snd x) ops l.
Proof.
  unfold mask_case. intros MC. destruct (make_decoder _ _ _ _ _ _) as [s| | |]; try discriminate. exists s. split; [reflexivity|].
  apply (f_equal (fun o => match o with Some l => l | None => [] end)) in MC. revert ops MC.
  induction l as [|x l IH]; intros [|ic ops] Q; try discriminate; constructor.
  - cbn [map] in Q. destruct (pure_info (fst s) (snd s) ic) as [v| | |] eqn:E; try discriminate. exists v. rewrite decode_pure. split; [exact E|].
    assert (x = (d_mnemonic (i_di v), mask_lists v)) as -> by congruence. auto.
  - apply IH. cbn [map] in Q. congruence.
Qed.
Lemma forall2_and {X Y} (P Q : X -> Y -> Prop) l l' : Forall2 P l l' -> (forall x y, In y l' -> Q x y) -> Forall2 (fun x y => P x y /\ Q x y) l l'.
Proof. intros H. induction H as [|x y l l' H H' IH]; intros HQ; constructor; [split; [auto|apply HQ; now left]|]. apply IH. intros a b I. apply HQ. now right. Qed.
Lemma C65_case : exists s, subseq masked_recs rv64 /\ make_decoder [] [] 1 [] [] masked_recs = Ok s /\
  Forall2 (fun ic x => (exists v, decode (A := unit) (U := unit) s ic = Ok v /\ d_mnemonic (i_di v) = fst x /\ mask_lists v = snd x) /\
    ~ In (fst x) twice_typed /\ ~ zero_pair Rv64 (fst x) ic) masked_ops masked_lists.
Proof.
  destruct (mask_case_ok _ _ _ mask_cases) as (s & E & Q). exists s. split; [apply subseq_filter|]. split; [exact E|].
  apply (forall2_and _ _ _ _ Q). intros ic x I. split; [|intros [Z _]; discriminate].
  assert (NT : forallb (fun x => negb (mem (fst x) twice_typed)) masked_lists = true) by reflexivity. rewrite forallb_forall in NT. specialize (NT _ I).
  intros T. apply mem_in in T. rewrite T in NT. discriminate.
Qed.
Definition float_load : meta :=
  mkMeta false 2 0 (fun _ => 0) (fun k => match k with KLong => 2 ^ fid_idx RS1 | KDouble => 2 ^ fid_idx RD | _ => 0 end)
    (fun f => match f with RS1 => Some KLong | RD => Some KDouble | _ => None end) (fun _ => false) 64 [].
Definition dest_of (r : res dinfo) : N := match r with Ok d => typed_at Dest d KDouble | _ => 0 end.
Lemma dest_of_ok r x : dest_of r = Npos x -> exists d, r = Ok d /\ typed_at Dest d KDouble = Npos x.
Proof. unfold dest_of. destruct r as [d| | |]; try discriminate. eauto. Qed.
Lemma C65_regular_case : ~ In X_I_load (coarse Dest) /\ typed_once Dest X_I_load 0 float_load /\ typed_once Source X_I_load 0 float_load /\
  exists d, decode_info "fld" 1 (ext X_I_load 0) float_load 0x00853507 = Ok d /\ typed_at Dest d KDouble = 1024.
Proof.
  split; [cbn; intuition discriminate|]. split; [apply strict_ok; vm_compute; reflexivity|]. split; [apply strict_ok; vm_compute; reflexivity|].
  apply (dest_of_ok _ 1024). vm_compute. reflexivity. Qed.
