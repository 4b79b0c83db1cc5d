(** Lemmas: the texts of exceptions (C67). *)
From Coq Require Import Ascii NArith List Bool String.
From Verif Require Import M_Base M_Field M_Forms M_Meta M_OperandInfo M_Extract M_Decoded M_Registry M_Trie M_Builder M_DTable M_What.
From Verif Require Import S_Dasm S_Meta S_Trie S_Accept S_Table S_What L_Registry L_Calm L_Calm L_NameTables L_IsaClause L_Trie L_Table L_Decode L_Claims L_Dasm L_AcceptTree.
Import ListNotations.
Local Open Scope string_scope.

(** ** Texts *)
Lemma app_assoc_s (a b c : string) : (a ++ b) ++ c = a ++ b ++ c.
Proof. induction a as [|x a IH]; cbn; [reflexivity|]. now rewrite IH. Qed.
Lemma app_nil_s (a : string) : a ++ "" = a.
Proof. induction a as [|x a IH]; cbn; [reflexivity|]. now rewrite IH. Qed.
Lemma mentions_quoted a w b : mentions (a ++ quoted w ++ b) w.
Proof. exists a, b. unfold quoted. now rewrite !app_assoc_s. Qed.
Lemma mentions_last a w : mentions (a ++ quoted w) w.
Proof. rewrite <- (app_nil_s (quoted w)). apply mentions_quoted. Qed.
Lemma mentions_after a t w : mentions t w -> mentions (a ++ t) w.
Proof. intros (x & y & ->). exists (a ++ x), y. now rewrite app_assoc_s. Qed.
Lemma mentions_front w t : mentions (quoted w ++ t) w.
Proof. apply (mentions_quoted ""). Qed.
Lemma shows_last a n : shows (a ++ "0x" ++ hex n) n.
Proof. exists a, (hex n), "". rewrite app_nil_s. split; [reflexivity|]. split; [apply numeral_hex|exact I]. Qed.
Lemma shows_in a n c b : numeral 16 (String c "") = None -> shows (a ++ "0x" ++ hex n ++ String c b) n.
Proof. intros H. exists a, (hex n), (String c b). split; [reflexivity|]. split; [apply numeral_hex|exact H]. Qed.
(** Brings a text into the form [literal ++ quoted w ++ ...]. *)
Ltac says := first [apply mentions_front | apply mentions_last | apply mentions_quoted | (apply mentions_after; says)].
Lemma calls_lit p k L w b : L = p ++ k ++ " " -> calls (L ++ quoted w ++ b) k w.
Proof. intros ->. exists p, b. unfold quoted. now rewrite !app_assoc_s. Qed.
Lemma calls_last p k L w : L = p ++ k ++ " " -> calls (L ++ quoted w) k w.
Proof. intros ->. rewrite <- (app_nil_s (quoted w)). now apply (calls_lit p). Qed.
Lemma calls_after a t k w : calls t k w -> calls (a ++ t) k w.
Proof. intros (x & y & ->). exists (a ++ x), y. now rewrite app_assoc_s. Qed.
Ltac lit := match goal with
  | |- calls (?L ++ quoted ?w ++ _) ?k ?w => let p := eval compute in (substring 0 (length L - length k - 1) L) in apply (calls_lit p); reflexivity
  | |- calls (?L ++ quoted ?w) ?k ?w => let p := eval compute in (substring 0 (length L - length k - 1) L) in apply (calls_last p); reflexivity
  end.
Ltac tells := first [lit | (apply calls_after; tells)].
Lemma calls_text t k f : calls t k (field_text f) -> calls_field t k f.
Proof.
  intros H. exists (field_text f), (dec (f_rpos f)), (dec (f_len f)), ("mask: 0x" ++ hex (f_mask f) ++ " >> " ++ dec (f_rpos f)).
  split; [exact H|]. split; [reflexivity|]. split; apply numeral_dec.
Qed.

(** ** Throwing *)
Definition throws {T} (r : res T) (W : exn -> Prop) : Prop := forall x, r = Throw x -> W x.
Lemma throws_bind {T V} (r : res T) (f : T -> res V) W : throws r W -> (forall v, r = Ok v -> throws (f v) W) -> throws (let* v := r in f v) W.
Proof. intros A B x. destruct r; cbn [rbind]; intros H; try discriminate; [eapply B; eauto|apply A; congruence]. Qed.
Lemma throws_ok {T} (v : T) W : throws (Ok v) W. Proof. intros x. discriminate. Qed.
Lemma throws_imp {T} (r : res T) (W W' : exn -> Prop) : (forall x, W x -> W' x) -> throws r W -> throws r W'.
Proof. unfold throws. auto. Qed.
Lemma throws_assert b W : throws (rassert b) W. Proof. intros x. unfold rassert. destruct b; discriminate. Qed.
Lemma throws_assertfail {T} W : throws (@AssertFail T) W. Proof. intros x. discriminate. Qed.
Lemma throws_ub {T} W : throws (@UB T) W. Proof. intros x. discriminate. Qed.

(** ** Clauses *)
Lemma type_throws c m : throws (parse_type c m) (fun x => x = EBuildErrorUnknownType /\
  exists ts n, c = Some ts /\ bad_type ts = Some n /\ In n ts /\ forall i, type_name i <> Some n).
Proof.
  destruct c as [ts|]; [|apply throws_ok]. apply throws_bind; [|intros; apply throws_ok].
  enough (forall a, throws (add_types ts a) (fun x => x = EBuildErrorUnknownType /\ exists n, bad_type ts = Some n /\ In n ts /\ forall i, type_name i <> Some n)) as H.
  { eapply throws_imp; [|apply H]. intros x [-> (n & Q)]. eauto 8. }
  induction ts as [|n ts IH]; intros a; cbn [add_types]; [apply throws_ok|]. unfold bad_type in *. cbn [find]. destruct (itype_of n) as [b|] eqn:E.
  - eapply throws_imp; [|apply IH]. intros x [-> (n' & J1 & J2 & K)]. split; [reflexivity|]. exists n'. split; [exact J1|]. split; [now right|exact K].
  - intros x [= <-]. split; [reflexivity|]. exists n. split; [reflexivity|]. split; [now left|]. intros i Q. apply type_name_lemma in Q. congruence.
Qed.
Lemma data_throws c m : throws (parse_data c m) (fun x => x = EBuildErrorInvalidDataSize).
Proof. destruct c as [d|]; cbn [parse_data]; [|apply throws_ok]. destruct (data_size_bad d); [intros x [= <-]; reflexivity|apply throws_ok]. Qed.
Lemma oper_throws c k m x : parse_oper c k m = Throw x -> x = EBuildErrorUnknownFormField /\
  exists n, bad_field c = Some n /\ exists l, c = Some (OperList l) /\ In n l /\ forall f, field_name f <> Some n.
Proof.
  destruct c as [[|l]|]; cbn [parse_oper bad_field]; [discriminate| |discriminate]. unfold set_operands.
  assert (H : throws (meta_field_set l) (fun x => x = EBuildErrorUnknownFormField /\
    exists n, find (fun n => match get_fid n with None => true | Some _ => false end) l = Some n /\ In n l /\ forall f, field_name f <> Some n)).
  { induction l as [|n l IH]; cbn [meta_field_set find]; [apply throws_ok|]. destruct (get_fid n) as [f|] eqn:E.
    - apply throws_bind; [|intros; apply throws_ok]. eapply throws_imp; [|exact IH]. intros y [-> (n' & J1 & J2 & K)]. split; [reflexivity|]. exists n'. split; [exact J1|]. split; [now right|exact K].
    - intros y [= <-]. split; [reflexivity|]. exists n. split; [reflexivity|]. split; [now left|]. intros f Q. apply field_names_lemma in Q. congruence. }
  destruct (meta_field_set l) as [v|y| |]; cbn [rbind]; try discriminate. intros [= <-]. destruct (H y eq_refl) as [-> (n & J1 & J2 & K)]. split; [reflexivity|]. eauto 8.
Qed.
Lemma oper_fine c k m m' : parse_oper c k m = Ok m' -> bad_field c = None.
Proof.
  destruct c as [[|l]|]; cbn [parse_oper bad_field]; try reflexivity. unfold set_operands.
  enough (forall v, meta_field_set l = Ok v -> find (fun n => match get_fid n with None => true | Some _ => false end) l = None) as H.
  { destruct (meta_field_set l); cbn [rbind]; try discriminate. eauto. }
  induction l as [|n l IH]; intros v; cbn [meta_field_set find]; [reflexivity|]. destruct (get_fid n); [|discriminate].
  destruct (meta_field_set l) as [w| | |]; cbn [rbind]; try discriminate. intros _. apply (IH w). reflexivity.
Qed.
Lemma opers_throws j m : throws (parse_opers j m) (fun x => x = EBuildErrorUnknownFormField /\
  exists n, first_some (map (fun k => bad_field (j k)) [KWord; KLong; KSingle; KDouble; KQuad; KVector]) = Some n /\
  exists k l, j k = Some (OperList l) /\ In n l /\ forall f, field_name f <> Some n).
Proof.
  unfold parse_opers. cbn [map].
  repeat (apply throws_bind; [intros x Q; apply oper_throws in Q as [-> (n & Q1 & l & Q2)]; (split; [reflexivity|]); exists n;
      (split; [repeat match goal with H : bad_field _ = None |- _ => rewrite H; clear H end; cbn [first_some]; rewrite Q1; reflexivity|]); eauto
    |let v := fresh "v" in let Hv := fresh "Hv" in intros v Hv; apply oper_fine in Hv]).
  intros x Q. apply oper_throws in Q as [-> (n & Q1 & l & Q2)]. split; [reflexivity|]. exists n.
  split; [repeat match goal with H : bad_field _ = None |- _ => rewrite H; clear H end; cbn [first_some]; rewrite Q1; reflexivity|]. eauto.
Qed.
Lemma bad_letter_spec e : bad_letter e = true -> isa_number (snd e) = None.
Proof.
  unfold bad_letter. destruct e as [w letter]. cbn [snd]. destruct (find _ isamap) eqn:E; [discriminate|]. intros _.
  pose proof (isa_accepted [(None, letter)] (meta_init false [])) as A. cbn [parse_isa] in A. rewrite E in A.
  destruct A as [[[? A] _]|[_ A]]; [discriminate|]. destruct (isa_number letter) eqn:K; [|reflexivity]. exfalso. apply A. constructor; [|constructor]. split; [cbn; congruence|now left].
Qed.
Lemma isa_throws l : forall m, throws (parse_isa l m) (fun x => exists e, find (fun e => bad_letter e || bad_width e)%bool l = Some e /\ In e l /\
  ((x = EBuildErrorInvalidISAExtension /\ isa_number (snd e) = None) \/ x = EBuildErrorInvalidISAWidth)).
Proof.
  induction l as [|[w letter] l IH]; intros m; cbn [parse_isa find]; [apply throws_ok|].
  destruct (bad_letter (w, letter)) eqn:BL.
  - pose proof (bad_letter_spec _ BL) as N. unfold bad_letter in BL. cbn [snd] in BL. destruct (find _ isamap) as [[y i]|] eqn:E; [discriminate|].
    intros x [= <-]. cbn [orb]. exists (w, letter). split; [reflexivity|]. split; [now left|]. left. auto.
  - unfold bad_letter in BL. cbn [snd] in BL. destruct (find _ isamap) as [[y i]|] eqn:E; [|discriminate]. cbn [orb].
    unfold bad_width. cbn [fst]. destruct w as [n|].
    + destruct ((n =? 0) || negb (N.land n (n - 1) =? 0))%N%bool eqn:Q.
      * intros x [= <-]. exists (Some n, letter). split; [reflexivity|]. split; [now left|]. now right.
      * apply throws_bind; [unfold set_isa_width; apply throws_bind; [apply throws_assert|intros; apply throws_ok]|]. intros v _.
        eapply throws_imp; [|apply IH]. intros x (e & J1 & J2 & J3). exists e. split; [exact J1|]. split; [now right|exact J3].
    + cbn [rbind]. eapply throws_imp; [|apply IH]. intros x (e & J1 & J2 & J3). exists e. split; [exact J1|]. split; [now right|exact J3].
Qed.
Lemma told_type r mn x ts n : r_mn r = Some mn -> jm_type (r_meta r) = Some ts -> bad_type ts = Some n -> In n ts -> (forall i, type_name i <> Some n) ->
  x = EBuildErrorUnknownType -> told r x (meta_what mn (r_meta r) x).
Proof.
  intros M J B I N ->. unfold told. rewrite M. cbn [meta_what]. rewrite J, B. cbn [or_empty]. rewrite !app_assoc_s.
  split; [first [left; tells|right; tells]|]. exists ts, n. split; [reflexivity|]. split; [exact I|]. split; [exact N|]. tells.
Qed.
Lemma told_data r mn x : r_mn r = Some mn -> x = EBuildErrorInvalidDataSize -> told r x (meta_what mn (r_meta r) x).
Proof. intros M ->. unfold told. rewrite M. cbn [meta_what]. cbv zeta. rewrite !app_assoc_s. split; [first [left; tells|right; tells]|exact I]. Qed.
Lemma told_meta r mn b c t : r_mn r = Some mn -> throws (make_inst_meta b mn (r_meta r) c t) (fun x => told r x (meta_what mn (r_meta r) x)).
Proof.
  intros M. unfold make_inst_meta. apply throws_bind.
  - unfold make_meta.
    apply throws_bind; [eapply throws_imp; [|apply type_throws]; intros x [-> (ts & n & Q1 & Q2 & Q3 & Q4)]; now apply (told_type r mn _ ts n)|intros m1 _].
    apply throws_bind; [eapply throws_imp; [|apply data_throws]; intros x ->; now apply told_data|intros m2 _].
    apply throws_bind; [|intros m3 _].
    + eapply throws_imp; [|apply opers_throws]. intros x [-> (n & Q1 & Q2)]. unfold told. rewrite M. cbn [meta_what]. rewrite Q1.
      exists n. split; [unfold w_form_field; cbn [or_empty]; tells|]. left. exact Q2.
    + eapply throws_imp; [|apply isa_throws]. intros x (e & Q1 & Q2 & [[-> Q3]| ->]); unfold told; rewrite M; cbn [meta_what]; rewrite Q1; cbv zeta; rewrite !app_assoc_s.
      * split; [first [left; tells|right; tells]|]. exists e. split; [exact Q2|]. split; [exact Q3|]. tells.
      * split; [first [left; tells|right; tells]|exact I].
  - intros m _. destruct (mfind _ _); [|apply throws_ok]. intros x [= <-]. unfold told. rewrite M. cbn [meta_what]. unfold w_duplicate. split; [first [left; tells|right; tells]|exact I].
Qed.

(** ** Encodings *)
Lemma get_field_throws fm n : throws (get_field fm n) (fun x => x = EBuildErrorUnknownFormField).
Proof.
  unfold get_field, get_field_index. destruct (find _ (fm_names fm)) as [[n' i]|]; cbn [rbind]; [|intros x [= <-]; reflexivity].
  destruct (nth_error _ _); [apply throws_ok|apply throws_ub].
Qed.
Lemma fixed_throws fm fl : form_ok fm -> throws (fixed_mask fm fl) (fun x => x = EBuildErrorUnknownFormField /\
  exists n, bad_fixed fm fl = Some n /\ In n fl /\ forall f, ~ named fm n f).
Proof.
  intros F. unfold bad_fixed. induction fl as [|n fl IH]; cbn [fixed_mask find]; [apply throws_ok|].
  pose proof (get_field_throws fm n) as G. pose proof (get_field_named fm n F) as S. destruct (get_field fm n) as [f|y| |]; cbn [rbind]; [|..].
  - destruct (fixed_mask fm fl) as [v|y| |]; cbn [rbind]; intros x Q; try discriminate. destruct (IH x Q) as [-> (n' & J1 & J2 & J3)]. split; [reflexivity|]. exists n'. split; [exact J1|]. split; [now right|exact J3].
  - intros x [= <-]. split; [exact (G y eq_refl)|]. exists n. split; [reflexivity|]. split; [now left|]. cbn [settles] in S. intros f Q. apply S. eauto.
  - intros x. discriminate.
  - intros x. discriminate.
Qed.
Lemma id_set_fine fm fl m : fixed_mask fm fl = Ok m -> throws (get_field_id_set fm fl) (fun _ => False).
Proof.
  revert m. induction fl as [|n fl IH]; intros m; cbn [fixed_mask get_field_id_set]; [intros _; apply throws_ok|]. unfold get_field.
  destruct (get_field_index fm n) as [i| | |]; cbn [rbind]; try discriminate. destruct (nth_error _ i); cbn [rbind]; try discriminate.
  destruct (fixed_mask fm fl) as [v| | |] eqn:E; cbn [rbind]; try discriminate. intros _. apply throws_bind; [apply (IH v eq_refl)|].
  intros w _. destruct (_ <=? _)%N; [apply throws_ub|apply throws_ok].
Qed.
Lemma special_throws fm mn st fl tab : form_ok fm -> throws (add_special fm mn st fl tab) (fun x => x = EBuildErrorUnknownFormField /\
  exists n, bad_fixed fm fl = Some n /\ In n fl /\ forall f, ~ named fm n f).
Proof.
  intros F. unfold add_special. apply throws_bind; [now apply fixed_throws|]. intros m E.
  apply throws_bind; [eapply throws_imp; [|eapply id_set_fine, E]; contradiction|]. intros fs _. cbv zeta.
  apply throws_bind; [apply throws_assert|]. intros. apply throws_ok.
Qed.
Lemma upd_throws b i g W : throws (upd_fact b i g) W.
Proof. unfold upd_fact, get_fact. destruct (nth_error _ _); cbn [rbind]; [apply throws_ok|apply throws_ub]. Qed.
Lemma da_throws {T} (a : dynarray T) k v W : throws (da_add a k v) W.
Proof. unfold da_add. cbv zeta. destruct (_ <? _)%N; [apply throws_ok|apply throws_ub]. Qed.
Lemma register_throws b mn W : throws (register_inst b mn) W.
Proof.
  unfold register_inst, ir_register. apply throws_bind; [|intros [[? ?] ?] _; apply throws_ok].
  destruct (mfind _ _); [apply throws_ok|]. destruct (advance_uid _). apply throws_bind; [apply da_throws|intros; apply throws_ok].
Qed.
Lemma alias_throws r m u nu W : throws (ir_alias r m u nu) W.
Proof.
  unfold ir_alias. apply throws_bind; [apply throws_assert|intros _ _]. destruct (mfind _ _); [apply throws_ok|].
  apply throws_bind; [apply throws_assert|intros; apply throws_ok].
Qed.
Lemma bld_throws b mn fname xp st m : throws (bld b mn fname xp st m) (fun x => x = EBuildErrorUnknownExpansion).
Proof.
  unfold bld. destruct (String.eqb xp "").
  - cbv zeta. destruct (match find_ifact b fname with Some i => _ | None => _ end) as [b1 i].
    apply throws_bind; [apply upd_throws|intros b2 _]. apply throws_bind; [apply register_throws|intros [b3 u] _].
    apply throws_bind; [apply upd_throws|intros; apply throws_ok].
  - destruct (find_ifact b xp); [|intros x [= <-]; reflexivity]. cbv zeta. apply throws_bind; [apply alias_throws|intros ir _].
    apply throws_bind; [apply upd_throws|intros b2 _]. apply throws_bind; [apply upd_throws|intros; apply throws_ok].
Qed.
Definition leaf_kind (fm : form) (fl : list string) (x : option xcls) (e : exn) : Prop :=
  e = EBuildErrorOpcodeConflict \/ e = EBuildErrorUnknownExpansion \/
  (e = EBuildErrorUnknownForm /\ x = None /\ forall c, get_extractor (fm_name fm) <> Ok c) \/
  (e = EBuildErrorUnknownFormField /\ exists n, bad_fixed fm fl = Some n /\ In n fl /\ forall f, ~ named fm n f).
Lemma leaf_throws b fm mn st fl fname xp x m sh cur : form_ok fm -> throws (build_leaf b fm mn st fl fname xp x m sh cur) (leaf_kind fm fl x).
Proof.
  intros F. unfold build_leaf. apply throws_bind.
  { destruct x as [c|]; [apply throws_ok|]. intros e Q. unfold leaf_kind. right. right. left. rewrite Q. repeat split; try discriminate.
    unfold get_extractor in Q. destruct (find _ _) as [[? ?]|]; congruence. }
  intros c _. destruct cur as [f tab d|tab d]; [intros e [= <-]; now left|].
  apply throws_bind.
  { destruct fl as [|n fl]; [apply throws_ok|]. eapply throws_imp; [|now apply special_throws]. intros e Q. right. right. right. exact Q. }
  intros tab' _. cbv zeta. apply throws_bind.
  { destruct sh; [apply throws_ok|]. eapply throws_imp; [|apply bld_throws]. intros e ->. right. now left. }
  intros [b' i] _. apply throws_bind; [|intros [[? ?] ?] _; apply throws_ok].
  unfold sp_place. destruct (sp_get_node _ _ _).
  - destruct d; [apply throws_ok|]. apply throws_bind; [unfold sp_add_default; apply throws_bind; [apply throws_assert|intros; apply throws_ok]|intros; apply throws_ok].
  - apply throws_bind; [|intros [? ?] _; apply throws_ok]. unfold sp_add. destruct (sp_set_first _ _ _); [apply throws_ok|].
    apply throws_bind; [unfold sp_add_default; apply throws_bind; [apply throws_assert|intros; apply throws_ok]|intros; apply throws_ok].
Qed.
Lemma descend_throws {A} ign st (leaf : node -> res (node * A)) (W : exn -> Prop) : (forall n, throws (leaf n) W) -> ~ W EBuildErrorFieldsIncompatible ->
  forall fs cur, throws (descend ign st leaf fs cur) (fun x => W x \/ (x = EBuildErrorFieldsIncompatible /\ clash ign st fs cur <> None)).
Proof.
  intros L NW. induction fs as [|f rest IH]; intros cur; cbn [descend clash]; [apply throws_assertfail|].
  destruct cur as [g tab d|tab d]; [|apply throws_assertfail].
  destruct (f_equiv g f) eqn:E; cbn [negb]; [|intros x [= <-]; right; split; [reflexivity|discriminate]].
  set (fresh := match rest with [] => special_new | f2 :: _ => dense_new f2 end).
  set (below := fun child => match rest with [] => leaf child | _ :: _ => descend ign st leaf rest child end).
  assert (EQ : forall h, f_equiv h h = true) by (intros h; unfold f_equiv; now rewrite !N.eqb_refl).
  assert (FR : clash ign st rest fresh = None).
  { unfold fresh. destruct rest as [|f2 rest]; [reflexivity|]. cbn [clash dense_new]. rewrite EQ. cbn [negb]. now destruct (is_ignored ign f2). }
  assert (BL : forall child, throws (below child) (fun x => W x \/ (x = EBuildErrorFieldsIncompatible /\ clash ign st rest child <> None))).
  { intros child. unfold below. destruct rest as [|f2 rest]; [eapply throws_imp; [|apply L]; auto|apply IH]. }
  destruct (is_ignored ign f).
  - destruct d as [c|].
    + apply throws_bind; [apply BL|intros [? ?] _; apply throws_ok].
    + apply throws_bind; [|intros [? ?] _; apply throws_ok]. eapply throws_imp; [|apply BL]. intros x [Q|[_ Q]]; [now left|contradiction].
  - cbv zeta. destruct (tab (f_extract g st)) as [c|].
    + apply throws_bind; [apply BL|intros [? ?] _; apply throws_ok].
    + apply throws_bind; [|intros [? ?] _; apply throws_ok]. eapply throws_imp; [|apply BL]. intros x [Q|[_ Q]]; [now left|contradiction].
Qed.
Lemma tree_throws {A} fm ign st (leaf : node -> res (node * A)) (W : exn -> Prop) t : (forall n, throws (leaf n) W) -> ~ W EBuildErrorFieldsIncompatible ->
  throws (build_tree fm ign st leaf t) (fun x => W x \/ (x = EBuildErrorFieldsIncompatible /\ tree_clash fm ign st t <> None)).
Proof.
  intros L NW. unfold build_tree, tree_clash. destruct (fm_ocfields fm) as [|f0 fs] eqn:E; [apply throws_assertfail|].
  destruct (root_class st) as [c|]; [|apply throws_ub]. apply throws_bind; [|intros [? ?] _; apply throws_ok].
  pose proof (descend_throws ign st leaf W L NW (f0 :: fs)) as D. destruct (t c) as [n|]; [apply D|].
  eapply throws_imp; [|apply D]. intros x [Q|[_ Q]]; [now left|]. exfalso. apply Q. cbn [clash dense_new].
  assert (f_equiv f0 f0 = true) as -> by (unfold f_equiv; now rewrite !N.eqb_refl). cbn [negb]. now destruct (is_ignored ign f0).
Qed.
Lemma clash_spec ign st g f : forall fs cur, clash ign st fs cur = Some (g, f) -> In f fs /\ f_equiv g f = false.
Proof.
  induction fs as [|h rest IH]; intros cur; cbn [clash]; [discriminate|]. destruct cur as [k tab d|tab d]; [|discriminate].
  destruct (f_equiv k h) eqn:E; cbn [negb].
  - destruct (if is_ignored ign h then d else tab (f_extract k st)) as [c|]; [|discriminate]. intros H. apply IH in H as [H1 H2]. split; [now right|exact H2].
  - intros [= <- <-]. split; [now left|exact E].
Qed.
Lemma place_told r mn fn fm x st e t : r_mn r = Some mn -> r_overlay r = None -> r_form r = Some fn -> get_form fn = Ok fm -> In st (r_stencil r :: r_alias r) ->
  (x = None -> r_xform r = None) ->
  leaf_kind fm (r_fixed r) x e \/ (e = EBuildErrorFieldsIncompatible /\ tree_clash fm (r_ignore r) st t <> None) -> told r e (place_what r mn fm st t e).
Proof.
  intros M O F G IS X H. unfold told. rewrite M. destruct H as [[->|[->|[[-> [XN Q]]|[-> (n & Q1 & Q2 & Q3)]]]]|[-> Q]]; cbn [place_what].
  - unfold w_conflict. split; [first [left; tells|right; tells]|]. exists (mkEnc mn fm (r_ignore r) st (r_fixed r)). split.
    + unfold rec_encs. rewrite M, O, F, G. apply in_map_iff. exists st. auto.
    + cbn [en_stencil].
      replace ("Instruction " ++ quoted mn ++ ": opcode 0x" ++ hex st ++ " is the same as another instruction, with incompatible form")
        with (("Instruction " ++ quoted mn ++ ": opcode ") ++ "0x" ++ hex st ++ " is the same as another instruction, with incompatible form")
        by (rewrite !app_assoc_s; reflexivity).
      apply shows_in. reflexivity.
  - unfold w_expansion. split; [left|]; tells.
  - exists (fm_name fm). split; [right; unfold w_form; tells|]. right. rewrite F. 
    assert (fm_name fm = fn) as E.
    { unfold get_form in G. destruct (find _ form_registry) as [fm'|] eqn:E; [|discriminate]. apply find_some in E as [_ E]. apply String.eqb_eq in E. congruence. }
    rewrite E in *. split; [reflexivity|]. right. exact Q.
  - exists n. unfold w_form_field. rewrite Q1. cbn [or_empty]. split; [tells|]. right. split; [exact Q2|]. exists fn, fm. auto.
  - destruct (tree_clash fm (r_ignore r) st t) as [[g f]|] eqn:C; [|contradiction]. unfold w_incompatible. split; [left; tells|].
    assert (In f (fm_ocfields fm) /\ f_equiv g f = false) as [C1 C2].
    { unfold tree_clash in C. destruct (root_class st) as [c|]; [|discriminate]. destruct (t c); [|discriminate]. eapply clash_spec, C. }
    exists fn, fm, f, g. split; [exact F|]. split; [exact G|]. split; [exact C1|]. split.
    { intros [= A B]. unfold f_equiv in C2. now rewrite A, B, !N.eqb_refl in C2. }
    split; apply calls_text; tells.
Qed.
Lemma aliases_told r mn fn fm fname x m i : r_mn r = Some mn -> r_overlay r = None -> r_form r = Some fn -> get_form fn = Ok fm -> form_ok fm ->
  (x = None -> r_xform r = None) -> forall sts s, incl sts (r_alias r) ->
  throws (build_aliases fm mn (r_fixed r) (r_ignore r) fname (r_expand r) x m i sts s) (fun e => told r e (aliases_what r mn fname fm x m i sts s)).
Proof.
  intros M O F G FO X. induction sts as [|st sts IH]; intros s IN; cbn [build_aliases aliases_what]; [apply throws_ok|].
  pose proof (tree_throws fm (r_ignore r) st (build_leaf (fst s) fm mn st (r_fixed r) fname (r_expand r) x m (Some i)) (leaf_kind fm (r_fixed r) x) (snd s)) as T.
  destruct (build_tree fm (r_ignore r) st _ (snd s)) as [[t [[b j] al]]|e| |]; cbn [rbind]; [|..].
  - destruct al; [apply throws_ok|]. apply IH. intros y Hy. apply IN. now right.
  - intros e' [= <-]. eapply place_told; eauto; [right; apply IN; now left|]. apply T; [|unfold leaf_kind; intuition congruence|reflexivity].
    intros n. now apply leaf_throws.
  - apply throws_assertfail.
  - apply throws_ub.
Qed.
Lemma overlay_told file r mn o b x : r_mn r = Some mn -> r_overlay r = Some o ->
  throws (build_overlay b mn o r x) (fun e => told r e (overlay_what file mn o (r_meta r) e)).
Proof.
  intros M O. unfold build_overlay. apply throws_bind.
  - unfold overlay_parse. destruct (jo_base o) as [base|]; [destruct (jo_match o) as [[|? [|? [|? ?]]]|]|]; intros e H; try discriminate H; assert (E := f_equal (fun q => match q with Throw y => y | _ => e end) H);
      cbv beta iota in E; subst e; unfold told; rewrite M; cbn [overlay_what]; cbv zeta; rewrite !app_assoc_s; (split; [first [left; tells|right; tells]|exact I]).
  - intros [[base mask] v] E. assert (JB : jo_base o = Some base).
    { unfold overlay_parse in E. destruct (jo_base o); [|discriminate]. destruct (jo_match o) as [[|? [|? [|? ?]]]|]; congruence. }
    destruct (mfind (b_metas b) base) as [bm|].
    2: { intros e [= <-]. unfold told. rewrite M. cbn [overlay_what]. cbv zeta. rewrite JB. cbn [or_empty]. rewrite !app_assoc_s.
         split; [first [left; tells|right; tells]|]. exists o, base. split; [exact O|]. split; [exact JB|]. tells. }
    apply throws_bind.
    { unfold meta_overrides.
      apply throws_bind; [eapply throws_imp; [|apply type_throws]; intros e [-> (ts & n & Q1 & Q2 & Q3 & Q4)]; now apply (told_type r mn _ ts n)|intros m1 _].
      apply throws_bind; [eapply throws_imp; [|apply data_throws]; intros e ->; now apply told_data|intros m2 _; apply throws_ok]. }
    intros m _. apply throws_bind; [apply register_throws|intros [b' u] _]. cbv zeta. destruct (_ && _)%bool.
    + intros e [= <-]. unfold told. rewrite M. cbn [overlay_what]. cbv zeta. rewrite JB. cbn [or_empty]. rewrite !app_assoc_s.
      split; [first [left; tells|right; tells]|]. exists o, base. split; [exact O|]. split; [exact JB|]. tells.
    + destruct (find_ifact b' base); [apply upd_throws|].
      intros e [= <-]. unfold told. rewrite M. cbn [overlay_what]. cbv zeta. rewrite JB. cbn [or_empty]. rewrite !app_assoc_s.
      split; [first [left; tells|right; tells]|]. exists o, base. split; [exact O|]. split; [exact JB|]. tells.
Qed.
Lemma parse_told file s r mn x : r_mn r = Some mn -> parse_inst s r mn = Throw x -> told r x (parse_what file s r mn x).
Proof.
  intros M. unfold parse_inst, parse_what.
  destruct (match r_xform r with None => Ok None | Some n => let* c := get_extractor n in Ok (Some c) end) as [xc|y| |] eqn:EX; cbn [rbind]; try discriminate.
  2: { destruct (r_xform r) as [n|] eqn:XF; [|discriminate]. intros [= <-]. unfold get_extractor in EX. destruct (find _ ext_registry) as [[? ?]|] eqn:FE; cbn [rbind] in EX; [discriminate|].
       assert (y = EBuildErrorUnknownForm) as -> by congruence. unfold told. rewrite M. exists n. split; [right; unfold w_form; cbn [or_empty]; tells|].
       left. split; [exact XF|]. intros c. unfold get_extractor. rewrite FE. discriminate. }
  assert (X : xc = None -> r_xform r = None).
  { intros ->. destruct (r_xform r) as [n|]; [|reflexivity]. destruct (get_extractor n); cbn [rbind] in EX; discriminate. }
  destruct (r_overlay r) as [o|] eqn:O.
  - intros H. destruct (build_overlay (fst s) mn o r xc) as [b|y| |] eqn:E; cbn [rbind] in H; try discriminate. assert (y = x) as -> by congruence.
    exact (overlay_told file r mn o (fst s) xc M O x E).
  - destruct (r_form r) as [fn|] eqn:F; [|discriminate]. cbn [or_empty]. destruct (get_form fn) as [fm|y| |] eqn:G; cbn [rbind]; try discriminate.
    2: { intros [= <-]. assert (y = EBuildErrorUnknownForm) as -> by (unfold get_form in G; destruct (find _ _); congruence).
         unfold told. rewrite M. exists fn. split; [left; unfold w_form_of; tells|]. right. split; [exact F|]. left. congruence. }
    pose proof (told_meta r mn (fst s) (negb (String.eqb (r_expand r) "")) (r_tags r) M) as TM.
    destruct (make_inst_meta _ _ _ _ _) as [[b m]|y| |]; cbn [rbind]; try discriminate.
    2: { intros [= <-]. apply TM. reflexivity. }
    pose proof (registry_ok _ _ G) as FO. cbv zeta.
    set (fname := match r_factory r with None => mn | Some f => f end).
    pose proof (tree_throws fm (r_ignore r) (r_stencil r) (build_leaf b fm mn (r_stencil r) (r_fixed r) fname (r_expand r) xc m None) (leaf_kind fm (r_fixed r) xc) (snd s)) as T.
    destruct (build_tree fm (r_ignore r) (r_stencil r) _ (snd s)) as [[t [[b' i] al]]|y| |]; cbn [rbind]; try discriminate.
    + destruct al; [discriminate|]. intros H. exact (aliases_told r mn fn fm fname xc m i M O F G FO X (r_alias r) (b', t) (incl_refl _) x H).
    + intros [= <-]. eapply place_told; eauto; [now left|]. apply T; [|unfold leaf_kind; intuition congruence|reflexivity]. intros n. now apply leaf_throws.
Qed.

(** ** Configuring *)
Lemma load_told us : forall used names nu r, (forall m, existsb (String.eqb m) names = match mfind (ir_map r) m with Some _ => true | None => false end) ->
  throws (ir_load us used nu r) (fun x => exists A mn u B, us = (A ++ (mn, u) :: B)%list /\ (calls (uids_what us used names) "instruction" mn \/ calls (uids_what us used names) "Instruction" mn) /\
    match x with
    | EInstIDListInvalidUID => u = 0%N
    | EInstIDListUIDNotUnique => In u (rev (map snd A) ++ used)
    | EInstIDListAlreadyRegistered => In mn (rev (map fst A) ++ names)
    | _ => False
    end).
Proof.
  induction us as [|[m u] us IH]; intros used names nu r N; cbn [ir_load uids_what]; [apply throws_ok|]. unfold INVALID_UID.
  destruct (N.eqb_spec u 0) as [->|NZ].
  { intros x [= <-]. exists [], m, 0%N, us. split; [reflexivity|]. split; [first [left; tells|right; tells]|reflexivity]. }
  destruct (existsb (N.eqb u) used) eqn:U.
  { intros x [= <-]. exists [], m, u, us. split; [reflexivity|]. split; [first [left; tells|right; tells]|]. apply existsb_exists in U as (u' & U1 & U2). apply N.eqb_eq in U2. now subst u'. }
  cbv zeta. rewrite N. destruct (mfind (ir_map r) m) as [v|] eqn:F.
  { intros x [= <-]. exists [], m, u, us. split; [reflexivity|]. split; [first [left; tells|right; tells]|]. specialize (N m). rewrite F in N. apply existsb_exists in N as (m' & U1 & U2). apply String.eqb_eq in U2. now subst m'. }
  apply throws_bind; [apply da_throws|]. intros arr _.
  eapply throws_imp; [|apply (IH (u :: used) (m :: names))].
  - intros x (A & mn & u' & B & -> & M & Q). exists ((m, u) :: A)%list, mn, u', B. split; [reflexivity|]. split; [exact M|].
    cbn [map fst snd rev]. rewrite <- !List.app_assoc. exact Q.
  - intros m'. cbn [existsb ir_map]. rewrite mfind_madd, N, String.eqb_sym. now destruct (String.eqb m m').
Qed.
Lemma custom_throws b mn ts W : throws (add_custom b mn ts) W.
Proof.
  unfold add_custom. cbv zeta. destruct (new_fact _ _) as [b' i]. repeat (apply throws_bind; [first [apply upd_throws|apply register_throws]|intros]).
  match goal with |- context [let '(_, _) := ?v in _] => destruct v end. apply upd_throws.
Qed.
Lemma new_told uids annos nu x : builder_new uids annos nu = Throw x -> uids_told uids x (uids_what uids [] []).
Proof.
  unfold builder_new, ir_new. pose proof (load_told uids [] [] nu (mkIR [] (da_new INITIAL_SIZE DEFAULT_UP_SIZE)) (fun _ => eq_refl)) as L.
  destruct (ir_load _ _ _ _) as [[nu1 ir]|y| |]; cbn [rbind]; try discriminate.
  - intros H. exfalso. revert x H. apply (throws_bind _ _ (fun _ => False)); [apply custom_throws|intros; apply custom_throws].
  - intros [= <-]. destruct (L y eq_refl) as (A & mn & u & B & Q1 & Q2 & Q3). exists A, mn, u, B. split; [exact Q1|]. split; [exact Q2|].
    rewrite !app_nil_r in Q3. destruct y; try exact Q3; apply in_rev, Q3.
Qed.
Lemma configure_told file incl0 excl0 recs : forall s, throws (configure incl0 excl0 recs s) (fun x =>
  exists Q r R s', recs = (Q ++ r :: R)%list /\ configure incl0 excl0 Q s = Ok s' /\
    (r_mn r = None \/ wantedb incl0 excl0 (r_tags r) = true) /\ told r x (configure_what file incl0 excl0 recs s)).
Proof.
  induction recs as [|r recs IH]; intros s; cbn [configure configure_what]; [apply throws_ok|].
  destruct (r_mn r) as [mn|] eqn:M; [destruct (tag_filter incl0 excl0 (r_tags r)) eqn:T|destruct (r_pseudo r) eqn:PS].
  - destruct (parse_inst s r mn) as [s1|y| |] eqn:P; cbn [rbind]; try (intros ? ?; discriminate).
    + eapply throws_imp; [|apply IH]. intros x (Q & r' & R & s' & -> & C & W & H). exists (r :: Q), r', R, s'. split; [reflexivity|].
      cbn [configure]. rewrite M, T, P. cbn [rbind]. auto.
    + intros x [= <-]. exists [], r, recs, s. split; [reflexivity|]. split; [reflexivity|]. rewrite C18_filter_lemma in T. split; [auto|]. now apply parse_told.
  - eapply throws_imp; [|apply IH]. intros x (Q & r' & R & s' & -> & C & W & H). exists (r :: Q), r', R, s'. split; [reflexivity|].
    cbn [configure]. rewrite M, T. auto.
  - eapply throws_imp; [|apply IH]. intros x (Q & r' & R & s' & -> & C & W & H). exists (r :: Q), r', R, s'. split; [reflexivity|].
    cbn [configure]. rewrite M, PS. auto.
  - intros x [= <-]. exists [], r, recs, s. split; [reflexivity|]. split; [reflexivity|]. split; [auto|]. unfold told. now rewrite M.
Qed.
Lemma build_lemma file uids annos nu incl0 excl0 recs x : make_decoder uids annos nu incl0 excl0 recs = Throw x ->
  let t := make_what file uids annos nu incl0 excl0 recs in
  uids_told uids x t \/
  exists Q r R s, recs = (Q ++ r :: R)%list /\ make_decoder uids annos nu incl0 excl0 Q = Ok s /\
    (r_mn r = None \/ wantedb incl0 excl0 (r_tags r) = true) /\ told r x t.
Proof.
  unfold make_decoder, make_what. pose proof (new_told uids annos nu) as L. destruct (builder_new uids annos nu) as [b|y| |]; cbn [rbind]; try discriminate.
  - intros H. right. exact (configure_told file incl0 excl0 recs _ x H).
  - intros [= <-]. left. now apply L.
Qed.

(** ** Decoding and queries *)
Lemma what_shows s ic : shows (decode_what s ic) ic.
Proof.
  unfold decode_what. destruct (tree_sel _ _) as [[mn p]| | |]; [|apply (shows_last "Cannot decode opcode ")..].
  unfold w_illegal_opcode. apply (shows_in "Opcode " ic " " ("is illegal for instruction " ++ quoted mn)). reflexivity.
Qed.
Lemma illegal_lemma uids annos nu incl0 excl0 recs s : make_decoder uids annos nu incl0 excl0 recs = Ok s -> separated (encodings (kept incl0 excl0 recs)) ->
  forall A U ic, decode (A := A) (U := U) s ic = Throw EIllegalOpcode ->
  exists r e x, listed (kept incl0 excl0 recs) r e /\ selected (encodings (kept incl0 excl0 recs)) e ic /\ extractor_of r e x /\ reserved x ic /\
    mentions (decode_what s ic) (en_mn e).
Proof.
  intros HD HS A U ic H. apply C07_any_lemma in H as (mn & q & TS & RV). unfold decode_what. rewrite TS.
  destruct s as [b t]. unfold make_decoder in HD. cbn [snd] in TS.
  destruct (builder_new uids annos nu) as [b0| | |] eqn:EB; cbn [rbind] in HD; try discriminate.
  destruct (configured _ _ _ _ _ _ _ _ _ EB HD HS) as (X & P & T & M & I & F & R).
  assert (EE : forall e, In e (encodings (kept incl0 excl0 recs)) <-> exists x, In x X /\ fst x = e).
  { intros e. rewrite <- M, in_map_iff. split; intros (x & Q1 & Q2); exists x; auto. }
  pose proof (tree_sel_ok t X ic T) as TO. rewrite TS in TO. destruct TO as (x & Hx & -> & FP & MT & BEST).
  rewrite Forall_forall in F. destruct (F x Hx) as (r & Hr & Hi & He & Hc & Hf & RG).
  exists r, (fst x), (ext (pay_cls q) (pay_ffm q)). split; [split; [apply R; auto|auto]|]. split; [|split; [|split; [exact RV|unfold w_illegal_opcode; says]]].
  { split; [apply EE; eauto|]. split; [auto|]. intros e' He' Hm'. apply EE in He' as (y & Hy & <-). auto. }
  destruct (listed_mn _ _ He) as (_ & _ & fn & Hfn).
  unfold final_pay, has_fixed in FP. destruct (en_fixed (fst x)) as [|f0 fr] eqn:EF.
  - subst q. exists (pay_cls (snd x)). split; [auto|]. left. split; [auto|]. now rewrite Hf.
  - destruct FP as (m & FM & ->). exists (pay_cls (snd x)). split; [auto|]. right.
    split; [congruence|]. exists m. split; [|reflexivity]. intros i. rewrite EF.
    apply (fixed_mask_bits (en_form (fst x))); [exact (registry_ok _ _ Hfn)|exact FM].
Qed.
Lemma unknown_lemma (s : builder * tree) A U ic : decode (A := A) (U := U) s ic = Throw EUnknownOpcode -> decode_what s ic = "Cannot decode opcode 0x" ++ hex ic.
Proof.
  intros H. rewrite decode_pure in H. unfold pure_info in H. unfold decode_what.
  destruct (tree_sel (snd s) ic) as [[mn p]| | |]; try reflexivity. exfalso. cbn [rbind] in H.
  destruct (illop_total (pay_cls p) (pay_ffm p) ic) as [bb IL]. rewrite IL in H. cbn [rbind] in H. destruct bb; [discriminate|].
  unfold get_fact in H. destruct (nth_error _ _) as [f|]; cbn [rbind] in H; [|discriminate].
  pose proof (leaf_calm f mn ic _ (ext_calm (pay_cls p) (pay_ffm p))) as C. rewrite H in C. destruct C.
Qed.
Lemma special_lemma v s x : info_special v s = Throw x -> shows (special_what v s) (i_icode v) /\ mentions (special_what v s) (special_name s) /\
  (s <> SF__N -> mentions (special_what v s) (d_mnemonic (i_di v))).
Proof.
  intros _. set (mn := d_mnemonic (i_di v)). set (ic := i_icode v).
  assert (S : forall c, shows ("Extractor special field id " ++ quoted c ++ " for instruction " ++ quoted mn ++ " (opcode 0x" ++ hex ic ++ ") is not supported") ic).
  { intros c. replace (_ ++ _) with (("Extractor special field id " ++ quoted c ++ " for instruction " ++ quoted mn ++ " (opcode ") ++ "0x" ++ hex ic ++ ") is not supported")
      by (rewrite !app_assoc_s; reflexivity). apply (shows_in _ ic ")" " is not supported"). reflexivity. }
  destruct s; cbn [special_what sf_caption special_name]; fold mn ic.
  all: try (split; [apply S|split; [says|intros _; says]]).
  split; [|split; [says|contradiction]].
  replace (_ ++ _) with (("Invalid extractor special field id " ++ quoted "__N" ++ " requested from opcode ") ++ "0x" ++ hex ic) by (rewrite !app_assoc_s; reflexivity).
  apply shows_last.
Qed.
Lemma field_lemma f n : field_name f = Some n -> f <> RS4 -> mentions (field_what f) n.
Proof. intros H N. unfold field_what. destruct f; try discriminate; try contradiction; injection H as <-; cbn [fid_caption]; says. Qed.
