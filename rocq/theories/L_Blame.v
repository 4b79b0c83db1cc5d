(** Lemmas: why an instruction table is refused (C58). *)
From Coq Require Import NArith ZArith Arith List Bool String Lia ZifyBool ZifyN.
From Verif Require Import M_Base M_Field M_Forms M_Meta M_Extract M_Decoded M_Registry M_Trie M_Builder M_DTable.
From Verif Require Import S_Bits S_Maps S_Trie S_Table S_Meta S_Accept S_Blame L_Bits L_Cache L_Registry L_Uids L_UserList L_Trie L_Table L_NameTables L_Ids L_IsaClause L_CtxUids L_TraceRecord L_AcceptTree L_Accept L_BlameTree.
Import ListNotations.
Local Open Scope N_scope.

Lemma fails_exn {T} (r : res T) (W W' : exn -> Prop) (A : Prop) : fails r W False -> (forall x, W x -> W' x) -> fails r W' A.
Proof. destruct r; cbn; intuition auto. Qed.
(** ** Clauses *)
Lemma types_fails c m : fails (parse_type c m) (fun x => x = EBuildErrorUnknownType /\ exists ts n, c = Some ts /\ In n ts /\ forall i, type_name i <> Some n) False.
Proof.
  destruct c as [ts|]; [|exact I]. unfold parse_type. apply fails_bind; [|intros; exact I].
  enough (forall a, fails (add_types ts a) (fun x => x = EBuildErrorUnknownType /\ exists n, In n ts /\ forall i, type_name i <> Some n) False) as H.
  { eapply fails_imp; [|exact (fun q => q)|apply H]. intros x [-> (n & J & K)]. eauto 8. }
  induction ts as [|n ts IH]; intros a; cbn [add_types]; [exact I|]. destruct (itype_of n) as [b|] eqn:E.
  - eapply fails_imp; [|exact (fun q => q)|apply IH]. intros x [-> (n' & J & K)]. split; [reflexivity|]. exists n'. split; [now right|exact K].
  - cbn. split; [reflexivity|]. exists n. split; [now left|]. intros i Q. apply type_name_lemma in Q. congruence.
Qed.
Lemma data_fails c m : (forall d, c = Some d -> d < 2 ^ 32) ->
  fails (parse_data c m) (fun x => x = EBuildErrorInvalidDataSize /\ exists d, c = Some d /\ ~ good_size d) False.
Proof.
  intros L. pose proof (data_accepted c m L) as A. destruct c as [d|]; [|exact I]. unfold parse_data in *. destruct (data_size_bad d); [|exact I].
  cbn. split; [reflexivity|]. exists d. split; [reflexivity|]. intros G. destruct A as [[[? Q] _]|[_ Q]]; [discriminate|]. apply Q. intros d' [= <-]. exact G.
Qed.
Lemma fields_fails l : fails (meta_field_set l) (fun x => x = EBuildErrorUnknownFormField /\ exists n, In n l /\ forall f, field_name f <> Some n) False.
Proof.
  induction l as [|n l IH]; cbn [meta_field_set]; [exact I|]. destruct (get_fid n) as [f|] eqn:E.
  - apply fails_bind; [|intros; exact I]. eapply fails_imp; [|exact (fun q => q)|exact IH]. intros x [-> (n' & J & K)]. split; [reflexivity|]. exists n'. split; [now right|exact K].
  - cbn. split; [reflexivity|]. exists n. split; [now left|]. intros f Q. apply field_names_lemma in Q. congruence.
Qed.
Lemma oper_fails c k m : fails (parse_oper c k m) (fun x => x = EBuildErrorUnknownFormField /\ exists l n, c = Some (OperList l) /\ In n l /\ forall f, field_name f <> Some n) False.
Proof.
  destruct c as [[|l]|]; [exact I| |exact I]. cbn [parse_oper]. unfold set_operands. apply fails_bind; [|intros; exact I].
  eapply fails_imp; [|exact (fun q => q)|apply fields_fails]. intros x [-> (n & J & K)]. eauto 8.
Qed.
Lemma isa_fails l : forall m, fails (parse_isa l m) (fun x => (x = EBuildErrorInvalidISAExtension /\ exists e, In e l /\ isa_number (snd e) = None) \/
    (x = EBuildErrorInvalidISAWidth /\ exists e w, In e l /\ fst e = Some w /\ forall k, w <> 2 ^ k)) False.
Proof.
  induction l as [|[w letter] l IH]; intros m; cbn [parse_isa]; [exact I|].
  assert (UP : forall x, ((x = EBuildErrorInvalidISAExtension /\ exists e, In e l /\ isa_number (snd e) = None) \/
    (x = EBuildErrorInvalidISAWidth /\ exists e w, In e l /\ fst e = Some w /\ forall k, w <> 2 ^ k)) ->
    (x = EBuildErrorInvalidISAExtension /\ exists e, In e ((w, letter) :: l) /\ isa_number (snd e) = None) \/
    (x = EBuildErrorInvalidISAWidth /\ exists e w0, In e ((w, letter) :: l) /\ fst e = Some w0 /\ forall k, w0 <> 2 ^ k)).
  { intros x [[-> (e & J & K)]|[-> (e & w0 & J & K)]]; [left|right]; (split; [reflexivity|]); [exists e|exists e, w0]; (split; [now right|exact K]). }
  destruct (find _ isamap) as [[y i]|] eqn:E.
  - apply fails_bind.
    + destruct w as [n|]; [|exact I]. destruct (_ || _)%bool eqn:Q.
      * cbn. right. split; [reflexivity|]. exists (Some n, letter), n. split; [now left|]. split; [reflexivity|]. intros k ->.
        apply orb_true_iff in Q as [Q|Q].
        -- apply N.eqb_eq in Q. revert Q. apply N.pow_nonzero. discriminate.
        -- apply negb_true_iff, N.eqb_neq in Q. apply Q. apply N.bits_inj. intros j. rewrite N.land_spec, N.bits_0.
           destruct (N.eq_dec j k) as [->|NE]; [|rewrite N.pow2_bits_false by congruence; reflexivity].
           rewrite <- N.pred_sub, <- N.ones_equiv, N.ones_spec_high by lia. apply andb_false_r.
      * apply orb_false_iff in Q as [Q1 Q2]. apply negb_false_iff in Q2. unfold set_isa_width. rewrite Q1, Q2. exact I.
    + intros m2 _. eapply fails_imp; [exact UP|exact (fun q => q)|apply IH].
  - cbn. left. split; [reflexivity|]. exists (w, letter). split; [now left|]. cbn [snd].
    pose proof (isa_accepted [(None, letter)] (meta_init false [])) as A. cbn [parse_isa] in A. rewrite E in A.
    destruct A as [[[? A] _]|[_ A]]; [discriminate|]. destruct (isa_number letter) eqn:K; [|reflexivity]. exfalso. apply A. constructor; [|constructor]. split; [cbn; congruence|now left].
Qed.
Lemma make_meta_fails j c t : (forall d, jm_data j = Some d -> d < 2 ^ 32) -> fails (make_meta j c t) (clause_fault j) False.
Proof.
  intros L. unfold make_meta.
  apply fails_bind; [eapply fails_imp; [|exact (fun q => q)|apply types_fails]; intros x [-> Q]; exact Q|intros m1 _].
  apply fails_bind; [eapply fails_imp; [|exact (fun q => q)|apply data_fails; exact L]; intros x [-> Q]; exact Q|intros m2 _].
  apply fails_bind; [|intros m3 _; eapply fails_imp; [|exact (fun q => q)|apply isa_fails]; intros x [[-> Q]|[-> Q]]; exact Q].
  assert (O : forall k m, fails (parse_oper (jm_oper j k) k m) (clause_fault j) False).
  { intros k m. eapply fails_imp; [|exact (fun q => q)|apply oper_fails]. intros x [-> (l & n & Q)]. cbn [clause_fault]. eauto. }
  unfold parse_opers. repeat (apply fails_bind; [apply O|intros ? _]). apply O.
Qed.
Lemma overrides_fails j t m : (forall d, jm_data j = Some d -> d < 2 ^ 32) ->
  fails (meta_overrides j t m) (fun x => (x = EBuildErrorUnknownType \/ x = EBuildErrorInvalidDataSize) /\ clause_fault j x) False.
Proof.
  intros L. unfold meta_overrides.
  apply fails_bind; [eapply fails_imp; [|exact (fun q => q)|apply types_fails]; intros x [-> Q]; auto|intros m1 _].
  apply fails_bind; [eapply fails_imp; [|exact (fun q => q)|apply data_fails; exact L]; intros x [-> Q]; auto|intros m2 _]. exact I.
Qed.
Lemma extractor_fails n : fails (get_extractor n) (fun x => x = EBuildErrorUnknownForm /\ forall c, get_extractor n <> Ok c) False.
Proof. unfold get_extractor. destruct (find _ ext_registry) as [[a c]|]; cbn [fails]; [exact I|]. split; [reflexivity|discriminate]. Qed.
Lemma form_fails n : fails (get_form n) (fun x => x = EBuildErrorUnknownForm /\ forall f, get_form n <> Ok f) False.
Proof. unfold get_form. destruct (find _ _); cbn [fails]; [exact I|]. split; [reflexivity|discriminate]. Qed.

Section Builder.
Context (uids : list (string * N)) (annos : list (string * anno)).
Local Notation holding := (L_Accept.holding uids annos).
Local Notation inv := (L_Accept.inv uids annos).

Lemma alias_throws r m u nu x : ir_alias r m u nu <> Throw x.
Proof.
  unfold ir_alias, rassert. destruct (_ && _)%bool; cbn [rbind]; [|discriminate]. destruct (mfind _ _); [discriminate|].
  destruct (da_contains _ _); cbn [rbind]; discriminate.
Qed.
Lemma bld_fails n P b r mn st m : is_inst r mn -> holding (S n) P b ->
  fails (bld b mn (fname_of r mn) (r_expand r) st m) (fun x => x = EBuildErrorUnknownExpansion /\ r_expand r <> ""%string /\ ~ made P (r_expand r))
    (r_expand r <> ""%string /\ made P (r_expand r) /\ ~ numbered uids P (r_expand r)).
Proof.
  intros J H. destruct (bld_settles uids annos n P b r mn st m J H) as [S _]. pose proof H as [_ HR _ HI HM HX _].
  destruct (String.eqb_spec (r_expand r) "") as [E|NE].
  - destruct (bld b mn _ _ st m); cbn [settles fails] in *; tauto.
  - unfold bld in *. rewrite (proj2 (String.eqb_neq _ _) NE) in *. specialize (HM (r_expand r)).
    destruct (find_ifact b (r_expand r)) as [i|] eqn:F.
    2: { cbn. split; [reflexivity|]. split; [exact NE|]. intros Q. apply HM in Q. congruence. }
    assert (made P (r_expand r)) as MD by (apply HM; discriminate). cbv zeta in *.
    pose proof (alias_settles _ _ mn (r_expand r) HR) as AS.
    destruct (ir_alias _ mn _ _) as [ir|x| |] eqn:EA; cbn [settles rbind] in *.
    + match type of S with settles ?q _ => destruct q; cbn [settles fails] in *; try exact I end; exfalso; apply S; right; (split; [exact MD|]); apply HI; exact AS.
    + destruct (alias_throws _ _ _ _ _ EA).
    + split; [exact NE|]. split; [exact MD|]. intros Q. apply AS. apply HI. exact Q.
    + contradiction.
Qed.
Lemma overlay_fails n P b r mn o x : r_mn r = Some mn -> (forall d, jm_data (r_meta r) = Some d -> d < 2 ^ 32) ->
  holding (S n) P b -> metas_of P b -> fails (build_overlay b mn o r x) (overlay_fault annos P r mn o) False.
Proof.
  intros M D H HT. pose proof H as [[N0 NL] HR HU HI HM HX HA]. unfold build_overlay.
  destruct (overlay_parse o) as [[[base mask] v]|ex| |] eqn:EP; cbn [rbind].
  2-4: unfold overlay_parse in EP; destruct (jo_base o) as [base|] eqn:EB; [destruct (jo_match o) as [[|m [|v [|w l]]]|] eqn:EM|]; try discriminate EP;
    (assert (ex = match jo_base o, jo_match o with None, _ => EBuildErrorOverlayMissingBase | _, None => EBuildErrorOverlayMissingMatch | _, _ => EBuildErrorOverlayBadMatchSpec end) as -> by (rewrite EB, ?EM; congruence));
    rewrite EB, ?EM; cbn [fails overlay_fault]; try assumption; eexists; (split; [exact EM|]); discriminate.
  assert (JB : jo_base o = Some base).
  { unfold overlay_parse in EP. destruct (jo_base o) as [base'|]; [|discriminate]. destruct (jo_match o) as [[|? [|? [|]]]|]; try discriminate. congruence. }
  destruct (mfind (b_metas b) base) as [bm|] eqn:EB.
  2: { cbn. exists base. split; [exact JB|]. left. intros r' J K. assert (mfind (b_metas b) base <> None) by (apply HT; eauto). congruence. }
  apply fails_bind; [eapply fails_imp; [|exact (fun q => q)|apply overrides_fails, D]; intros y [[-> | ->] Q]; exact Q|intros m _].
  unfold register_inst. destruct (register_total (b_nu b) (b_inst b) mn N0 ltac:(lia) HR HU) as (nu' & r' & uid & ->). cbn [rbind fst snd].
  unfold find_anno. cbn [set_inst b_annos]. rewrite HA.
  match goal with |- context [if ?c then Throw _ else _] => destruct c eqn:EC end.
  - cbn. exists base. split; [exact JB|]. apply andb_true_iff in EC as [E1 E2]. split; [destruct annos; discriminate|].
    pose proof (mfind_in annos mn) as M1. pose proof (mfind_in annos base) as M2.
    destruct (mfind annos mn) as [a|]; [discriminate|]. destruct (mfind annos base) as [a|]; [discriminate|]. split; [now apply M1|now apply M2].
  - change (find_ifact (set_inst b nu' r') base) with (find_ifact b base). destruct (find_ifact b base) as [i|] eqn:F.
    + edestruct (upd_total (set_inst b nu' r') i) as (b2 & -> & _); [exact (HX _ _ F)|]. exact I.
    + cbn. exists base. split; [exact JB|]. right. intros Q. apply HM in Q. congruence.
Qed.

Lemma leaf_fails (b : builder) (e : enc) fname xp x m shared E (W : exn -> Prop) (AB : Prop) :
  form_ok (en_form e) -> few (en_form e) = true ->
  fails (match x with Some c => Ok c | None => get_extractor (fm_name (en_form e)) end) W AB ->
  (forall b1 m1, b1 = b \/ b1 = set_metas b (madd (b_metas b) (en_mn e) m1) ->
     fails (match shared with None => bld b1 (en_mn e) fname xp (en_stencil e) m1 | Some i => Ok (b1, i) end) W AB) ->
  (forall y, place_fault E e y -> W y) -> (place_abort E e -> AB) ->
  let leaf := build_leaf b (en_form e) (en_mn e) (en_stencil e) (en_fixed e) fname xp x m shared in
  (W EBuildErrorOpcodeConflict -> forall g t d, fails (leaf (Dense g t d)) W AB) /\
  (forall tab d L, (rep (Special tab d) L \/ (L = [] /\ tab = [] /\ d = None)) -> (forall x, In x L -> In (snd x) E /\ same_cell (snd x) e) ->
     fails (leaf (Special tab d)) W AB).
Proof.
  intros F FW SC SB WX AX leaf. unfold leaf, build_leaf. split.
  - intros WC g t d. apply fails_bind; [exact SC|]. intros c _. exact WC.
  - intros tab d L AT CL.
    assert (HO : holds tab L).
    { destruct AT as [R|(-> & -> & ->)]; [inversion R; subst; auto|]. split; [constructor|split; intros ? []]. }
    apply fails_bind; [exact SC|]. intros c _.
    apply fails_bind.
    { destruct (en_fixed e) as [|n0 fl] eqn:EF; [exact I|]. rewrite <- EF. eapply fails_imp; [| |apply (add_special_fails tab L e); auto; congruence].
      - intros y [-> Q]. apply WX. exact Q.
      - intros (y & J & (A1 & A2 & A3 & A4) & Q). destruct (CL y J) as [C1 C2]. apply AX. exists (snd y). split; [exact C1|]. right. split; [|exact Q]. split; auto. }
    intros tab1 ET. assert (holds tab1 (L ++ [([], e)])) as H1.
    { destruct (en_fixed e) as [|n0 fl] eqn:EF; [assert (tab1 = tab) as -> by congruence; now apply holds_plain|].
      eapply add_special_settles; eauto; congruence. }
    set (m1 := match en_fixed e with [] => m | _ => _ end). set (b1 := match en_fixed e with [] => b | _ => _ end).
    apply fails_bind; [apply SB; unfold b1; destruct (en_fixed e); auto|]. intros [b2 i] _.
    destruct (place_total (en_mn e) (en_stencil e) (mkPay i c 0) tab1 d _ H1) as (tab2 & d2 & al & -> & H2). exact I.
Qed.

Lemma aliases_fail P r fm mn fname xp x m i (W : exn -> Prop) (AB : Prop) : is_inst r mn -> form_ok fm -> few fm = true ->
  (forall G D e, rec_encs r = (D ++ e :: G)%list -> (forall y, place_fault (encodings P ++ D) e y -> W y) /\ (place_abort (encodings P ++ D) e -> AB)) ->
  fails (match x with Some c => Ok c | None => get_extractor (fm_name fm) end) W AB ->
  (exists c, match x with Some c => Ok c | None => get_extractor (fm_name fm) end = Ok c) ->
  forall sts D E n s, rec_encs r = (D ++ map (fun st => mkEnc mn fm (r_ignore r) st (r_fixed r)) sts)%list -> incl E (encodings P ++ D) ->
  inv n (P ++ [r]) E s ->
  fails (build_aliases fm mn (r_fixed r) (r_ignore r) fname xp x m i sts s) W AB.
Proof.
  intros J F FW WX SC CC. induction sts as [|st sts IH]; intros D E n s ES IE INV; cbn [build_aliases]; [exact I|].
  pose proof INV as (HH & HT & FE & ST). cbn [map] in ES. set (e := mkEnc mn fm (r_ignore r) st (r_fixed r)) in *.
  destruct (WX _ _ _ ES) as [W1 A1].
  assert (W2 : forall y, place_fault E e y -> W y).
  { intros y Q. apply W1. destruct y; cbn [place_fault] in Q |- *; try exact Q; destruct Q as (e' & K & Q); exists e'; (split; [apply IE, K|exact Q]). }
  assert (A2 : place_abort E e -> AB) by (intros (e' & K & Q); apply A1; exists e'; split; [apply IE, K|exact Q]).
  destruct (leaf_fails (fst s) e fname xp x m (Some i) E W AB F FW SC (fun b1 m1 _ => I) W2 A2) as [LD LS].
  assert (SS : settles (match x with Some c => Ok c | None => get_extractor (fm_name fm) end) True) by (destruct CC as [c ->]; exact I).
  apply fails_bind; [exact (build_tree_fails e _ W AB (snd s) E F FE ST LD LS W2 A2)|].
  intros [t [[b1 j] al]] EB. destruct al; [exact I|].
  assert (LF := leaf_settles (fst s) e fname xp x m (Some i) True True (fun a => holding n (P ++ [r]) (fst (fst a)) /\ metas_of (P ++ [r]) (fst (fst a))) F FW SS).
  cbn beta iota in LF. destruct LF as [LD' LS'].
  { intros b2 m1 B. split; [exact I|]. intros b3 j' al Q. assert (b3 = b2) as -> by congruence. cbn [fst]. destruct B as [->| ->]; [auto|].
    split; [now apply holding_metas|]. intros y. cbn [set_metas b_metas]. rewrite mfind_madd. cbn [en_mn e]. destruct (String.eqb_spec mn y) as [<-|]; [|apply HT].
    split; [intros _; exists r; split; [apply in_elt|exact J]|discriminate]. }
  destruct (build_tree_settles e _ (True /\ fixed_known e /\ True) _ (snd s) E F FE ST LD' LS') as [_ PO].
  destruct (PO _ _ EB) as [ST' [H1 H2]]. cbn [fst snd] in H1, H2.
  apply (IH (D ++ [e])%list (E ++ [e])%list n).
  - rewrite <- app_assoc. exact ES.
  - rewrite app_assoc. intros y Q. apply in_app_iff in Q as [Q|Q]; apply in_app_iff; [left; apply IE, Q|right; exact Q].
  - split; [exact H1|]. split; [exact H2|]. split; [|exact ST']. apply Forall_app. split; [exact FE|]. constructor; [exact F|constructor].
Qed.

Lemma parse_fails n P E r mn s : r_mn r = Some mn -> (forall d, jm_data (r_meta r) = Some d -> d < 2 ^ 32) -> inv (S n) P E s -> incl E (encodings P) ->
  fails (parse_inst s r mn) (fault annos P r) (abort uids P r).
Proof.
  intros M D INV IE. pose proof INV as (HH & HT & FE & ST). unfold parse_inst. unfold fault. rewrite M.
  destruct (r_overlay r) as [o|] eqn:EO.
  - apply fails_bind.
    { destruct (r_xform r) as [xn|] eqn:EX; [|exact I]. apply fails_bind; [|intros; exact I]. eapply fails_exn; [apply extractor_fails|]. intros x [-> Q]. cbn. rewrite EX. eauto. }
    intros x _. apply fails_bind; [|intros; exact I]. eapply fails_exn; [eapply overlay_fails; eauto|exact (fun _ q => q)].
  - assert (J : is_inst r mn) by (split; auto).
    assert (XF : forall x, (match r_xform r with None => Ok None | Some n => let* c := get_extractor n in Ok (Some c) end) = Ok x ->
      forall fn fm, r_form r = Some fn -> get_form fn = Ok fm -> rec_class r = match x with Some c => Ok c | None => get_extractor (fm_name fm) end).
    { intros x EX fn fm EF EG. unfold rec_class. rewrite EF, EG. destruct (r_xform r) as [xn|]; [|assert (x = None) as -> by congruence; reflexivity].
      destruct (get_extractor xn); cbn [rbind] in EX; try discriminate. assert (x = Some a) as -> by congruence. reflexivity. }
    apply fails_bind.
    { destruct (r_xform r) as [xn|] eqn:EX; [|exact I]. apply fails_bind; [|intros; exact I]. eapply fails_exn; [apply extractor_fails|]. intros x [-> Q]. cbn. right. intros c. unfold rec_class. rewrite EX. apply Q. }
    intros x EX. specialize (XF x EX).
    destruct (r_form r) as [fn|] eqn:EF; [|cbn; exists mn; auto].
    apply fails_bind; [eapply fails_exn; [apply form_fails|]; intros y [-> Q]; left; rewrite EF; eauto|].
    intros fm EG. specialize (XF fn fm eq_refl EG).
    assert (F : form_ok fm) by (eapply registry_ok; eauto). assert (FW : few fm = true) by (eapply registry_few; eauto).
    assert (RE : rec_encs r = map (fun st => mkEnc mn fm (r_ignore r) st (r_fixed r)) (r_stencil r :: r_alias r)).
    { unfold rec_encs. rewrite M, EO, EF, EG. reflexivity. }
    unfold make_inst_meta.
    pose proof (make_meta_settles (r_meta r) (negb (String.eqb (r_expand r) "")) (r_tags r) D) as SM.
    pose proof (make_meta_fails (r_meta r) (negb (String.eqb (r_expand r) "")) (r_tags r) D) as FM.
    destruct (make_meta _ _ _) as [m|y| |]; cbn [settles rbind fails] in *; [|destruct y; cbn [clause_fault] in FM; try contradiction; left; exact FM|contradiction..].
    destruct (mfind (b_metas (fst s)) mn) as [mm|] eqn:EM; cbn [rbind].
    { cbn. apply HT. congruence. }
    set (b0 := set_metas (fst s) (madd (b_metas (fst s)) mn m)). set (e := mkEnc mn fm (r_ignore r) (r_stencil r) (r_fixed r)).
    set (W := inst_fault P r mn). set (AB := abort uids P r).
    assert (WX : forall G D e, rec_encs r = (D ++ e :: G)%list -> (forall y, place_fault (encodings P ++ D) e y -> W y) /\ (place_abort (encodings P ++ D) e -> AB)).
    { intros G D' e' Q. split.
      - intros y K. unfold W. assert (SE : some_encoding P r (fun E e => place_fault E e y)) by (exists D', e', G; auto).
        destruct y; cbn [place_fault] in K; try contradiction; right; exact SE.
      - intros K. exists mn. split; [exact J|]. right. right. exists D', e', G. auto. }
    assert (SC : fails (match x with Some c => Ok c | None => get_extractor (fm_name fm) end) W AB).
    { rewrite <- XF. pose proof (XF : _ = _) as XF'. destruct x as [c|]; [rewrite XF'; exact I|]. rewrite XF'. eapply fails_exn; [apply extractor_fails|].
      intros y [-> Q]. unfold W. cbn. right. intros c. rewrite XF'. apply Q. }
    destruct (WX (map (fun st => mkEnc mn fm (r_ignore r) st (r_fixed r)) (r_alias r)) [] e RE) as [W1 A1]. rewrite app_nil_r in W1, A1.
    assert (W2 : forall y, place_fault E e y -> W y).
    { intros y Q. apply W1. destruct y; cbn [place_fault] in Q |- *; try exact Q; destruct Q as (e' & K & Q); exists e'; (split; [apply IE, K|exact Q]). }
    assert (A2 : place_abort E e -> AB) by (intros (e' & K & Q); apply A1; exists e'; split; [apply IE, K|exact Q]).
    change (match r_factory r with None => mn | Some f => f end) with (fname_of r mn).
    assert (H0 : forall b1 m1, b1 = b0 \/ b1 = set_metas b0 (madd (b_metas b0) mn m1) -> holding (S n) P b1).
    { intros b1 m1 [-> | ->]; repeat apply holding_metas; exact HH. }
    destruct (leaf_fails b0 e (fname_of r mn) (r_expand r) x m None E W AB F FW SC) as [LD LS]; [|exact W2|exact A2|].
    { intros b1 m1 B. eapply fails_imp; [| |apply (bld_fails n P b1 r mn (en_stencil e) m1 J (H0 _ _ B))].
      - intros y [-> Q]. unfold W. exact Q.
      - intros Q. exists mn. auto. }
    change (fails (let* p := build_tree fm (r_ignore r) (r_stencil r) (build_leaf b0 fm mn (r_stencil r) (r_fixed r) (fname_of r mn) (r_expand r) x m None) (snd s) in let '(t, (b1, i, al)) := p in if al then Ok (b1, t) else build_aliases fm mn (r_fixed r) (r_ignore r) (fname_of r mn) (r_expand r) x m i (r_alias r) (b1, t)) W AB).
    apply fails_bind; [exact (build_tree_fails e _ W AB (snd s) E F FE ST LD LS W2 A2)|].
    intros [t [[b1 j] al]] EB. destruct al; [exact I|].
    (* the state after the stencil *)
    assert (MT : forall b', b_metas b' = b_metas b0 \/ (exists m1, b_metas b' = madd (b_metas b0) mn m1) -> metas_of (P ++ [r]) b').
    { intros b' Q y. assert (mfind (b_metas b') y <> None <-> mfind (b_metas (fst s)) y <> None \/ y = mn) as ->.
      { destruct Q as [->|[m1 ->]]; cbn [b0 set_metas b_metas]; rewrite ?mfind_madd; destruct (String.eqb_spec mn y) as [<-|]; try (split; [auto|discriminate]); split; auto; intros [K|K]; congruence. }
      unfold metas_of in HT. rewrite (HT y). split.
      - intros [(r' & I' & J')| ->]; [exists r'|exists r]; rewrite in_app_iff; cbn [In]; auto.
      - intros (r' & I' & J'). apply in_app_iff in I' as [I'|[<-|[]]]; [left; eauto|]. right. destruct J, J'. congruence. }
    assert (SS : settles (match x with Some c => Ok c | None => get_extractor (fm_name fm) end) (exists c, rec_class r = Ok c)).
    { rewrite XF. destruct x; [cbn; eauto|apply get_extractor_settles]. }
    assert (LF := leaf_settles b0 e (fname_of r mn) (r_expand r) x m None (exists c, rec_class r = Ok c)
      (r_expand r = ""%string \/ (made P (r_expand r) /\ numbered uids P (r_expand r)))
      (fun a => holding n (P ++ [r]) (fst (fst a)) /\ metas_of (P ++ [r]) (fst (fst a))) F FW SS).
    cbn beta iota in LF. destruct LF as [LD' LS'].
    { intros b2 m1 B. destruct (bld_settles uids annos n P b2 r mn (en_stencil e) m1 J (H0 _ _ B)) as [S1 S2]. split; [exact S1|]. intros b3 j' al Q. destruct (S2 _ _ Q) as [Q1 Q2]. cbn [fst].
      split; [exact Q1|]. apply MT. destruct B as [->| ->]; [left; exact Q2|right; exists m1; exact Q2]. }
    destruct (build_tree_settles e _ _ _ (snd s) E F FE ST LD' LS') as [SB PO].
    rewrite <- (eq_refl : build_tree fm (r_ignore r) (r_stencil r) _ (snd s) = build_tree (en_form e) (en_ign e) (en_stencil e) _ (snd s)) in SB.
    destruct (PO _ _ EB) as [ST' [H1 H2]]. cbn [fst snd] in H1, H2.
    assert (CC : exists c, match x with Some c => Ok c | None => get_extractor (fm_name fm) end = Ok c).
    { cbn [en_form en_ign en_stencil en_mn en_fixed e] in SB. rewrite EB in SB. cbn [settles] in SB. destruct SB as (_ & [c Q] & _). exists c. congruence. }
    apply (aliases_fail P r fm mn (fname_of r mn) (r_expand r) x m j W AB J F FW WX SC CC (r_alias r) [e] (E ++ [e])%list n).
    + exact RE.
    + intros y Q. apply in_app_iff in Q as [Q|Q]; apply in_app_iff; [left; apply IE, Q|right; exact Q].
    + split; [exact H1|]. split; [exact H2|]. split; [|exact ST']. apply Forall_app. split; [exact FE|]. constructor; [exact F|constructor].
Qed.

Lemma load_fails us : forall used nu r,
  da_ok (ir_arr r) -> da_up (ir_arr r) = DEFAULT_UP_SIZE ->
  (forall m u, In (m, u) us -> u + DEFAULT_UP_SIZE < w32) ->
  fails (ir_load us used nu r) (fun x => match x with
    | EInstIDListInvalidUID => In 0 (map snd us)
    | EInstIDListUIDNotUnique => ~ NoDup (map snd us) \/ exists u, In u (map snd us) /\ In u used
    | EInstIDListAlreadyRegistered => ~ NoDup (map fst us) \/ exists m, In m (map fst us) /\ In m (map fst (ir_map r))
    | _ => False end) False.
Proof.
  induction us as [|[m uid] us IH]; intros used nu r O P B; cbn [ir_load map fst snd]; [exact I|].
  unfold INVALID_UID. destruct (N.eqb_spec uid 0) as [->|NZ]; [now left|].
  destruct (existsb (N.eqb uid) used) eqn:X.
  { cbn. right. apply existsb_exists in X as (u & I & Q). apply N.eqb_eq in Q. subst u. exists uid. auto. }
  destruct (mfind (ir_map r) m) as [u|] eqn:F.
  { cbn. right. exists m. split; [now left|]. destruct (in_dec String.string_dec m (map fst (ir_map r))) as [Q|Q]; [exact Q|]. apply mfind_in in Q. congruence. }
  destruct (da_add_ok (ir_arr r) uid m O) as [a A]; [rewrite P; eapply B; now left|rewrite P; reflexivity|].
  rewrite A. cbn [rbind]. apply da_add_spec in A as (O' & _ & P' & _); [|exact O].
  specialize (IH (uid :: used) (allocate_uid nu uid) (mkIR (madd (ir_map r) m uid) a) O').
  cbn [ir_arr ir_map] in IH. specialize (IH ltac:(congruence)). specialize (IH ltac:(intros m' u' I; eapply B; right; exact I)).
  eapply fails_imp; [|exact (fun q => q)|exact IH]. intros x Q. destruct x; cbn in Q |- *; try contradiction.
  - now right.
  - destruct Q as [Q|(u & Q1 & [<-|Q2])]; [left; inversion 1; auto|left; inversion 1; contradiction|right; exists u; auto].
  - destruct Q as [Q|(u & Q1 & [<-|Q2])]; [left; inversion 1; auto|left; inversion 1; contradiction|right; exists u; auto].
Qed.
Lemma new_fails nu n : room uids nu n -> fails (builder_new uids annos nu) (uid_fault uids) False.
Proof.
  intros RM. destruct (new_settles uids annos nu n RM) as [_ S]. destruct RM as [N0 RM].
  unfold builder_new, ir_new in *. set (r0 := mkIR [] _) in *.
  assert (R0 : reg_ok (fun _ => False) nu r0).
  { split; try (cbn; discriminate). apply da_new_ok. reflexivity. }
  pose proof (load_fails uids [] nu r0 (ro_arr _ _ _ R0) eq_refl) as C.
  specialize (C ltac:(intros m u Q; assert (Q' : In u (map snd uids)) by (apply in_map_iff; exists (m, u); auto); specialize (RM u (or_intror Q')); unfold w32, DEFAULT_UP_SIZE; lia)).
  pose proof (proj1 (new_settles uids annos nu n (conj N0 RM))) as S1. unfold builder_new, ir_new in S1. fold r0 in S1.
  destruct (ir_load uids [] nu r0) as [[nu1 r1]|ex| |] eqn:L; cbn [rbind fails] in *; [|..|contradiction|contradiction].
  - match goal with |- fails ?q _ _ => destruct q; cbn [settles fails] in *; try exact I end.
    all: pose proof (load_checked uids [] nu r0 (ro_arr _ _ _ R0) eq_refl) as K; cbv zeta in K; rewrite L in K; exfalso; apply S1; apply K || idtac.
    all: destruct K as (K1 & K2 & K3 & _); [|unfold uids_ok; auto].
    all: intros m u Q; assert (Q' : In u (map snd uids)) by (apply in_map_iff; exists (m, u); auto); specialize (RM u (or_intror Q')); unfold w32, DEFAULT_UP_SIZE; lia.
  - destruct ex; cbn in C |- *; try contradiction; try exact C; destruct C as [C|(? & _ & [])]; exact C.
Qed.

Lemma configure_fails incl0 excl0 recs : sizes32 recs -> forall P E s, inv (List.length (read incl0 excl0 recs)) P E s -> incl E (encodings P) ->
  let at_record (F : list irec -> irec -> Prop) := exists Q r R s', recs = (Q ++ r :: R)%list /\ configure incl0 excl0 Q s = Ok s' /\
    (r_mn r = None \/ wantedb incl0 excl0 (r_tags r) = true) /\ F (P ++ read incl0 excl0 Q)%list r in
  fails (configure incl0 excl0 recs s) (fun x => at_record (fun P r => fault annos P r x)) (at_record (abort uids)).
Proof.
  intros SZ. induction recs as [|r recs IH]; intros P E s INV IE; cbv zeta; cbn [configure]; [exact I|].
  assert (SZ' : sizes32 recs) by (intros r' d I'; apply SZ; now right). specialize (IH SZ'). cbv zeta in IH.
  destruct (r_mn r) as [mn|] eqn:EM.
  - destruct (wantedb incl0 excl0 (r_tags r)) eqn:EW.
    + assert (RD : forall Q, read incl0 excl0 (r :: Q) = r :: read incl0 excl0 Q).
      { intros Q. unfold read, kept. cbn [filter]. rewrite EW. cbn [filter]. unfold has_name at 1. rewrite EM. reflexivity. }
      rewrite C18_filter_lemma, EW. rewrite RD in INV. cbn [List.length] in INV.
      assert (SR : forall d, jm_data (r_meta r) = Some d -> d < 2 ^ 32) by (intros d Q; exact (SZ r d (or_introl eq_refl) Q)).
      destruct (parse_accept _ _ _ P E r mn s EM SR INV) as (_ & _ & P3).
      apply fails_bind.
      * eapply fails_imp; [| |exact (parse_fails _ P E r mn s EM SR INV IE)].
        -- intros x Q. exists [], r, recs, s. cbn. rewrite app_nil_r. auto.
        -- intros Q. exists [], r, recs, s. cbn. rewrite app_nil_r. auto.
      * intros s1 EP. destruct (P3 _ EP) as (A & O & E' & J1 & J2 & INV').
        assert (IE' : incl (E ++ E') (encodings (P ++ [r]))).
        { rewrite encodings_app. cbn [encodings flat_map]. rewrite app_nil_r. intros y Q. apply in_app_iff in Q as [Q|Q]; apply in_app_iff; [left; apply IE, Q|right; apply J2, Q]. }
        eapply fails_imp; [| |exact (IH _ _ _ INV' IE')].
        -- intros x (Q & r' & R & s' & Q1 & Q2 & Q3 & Q4). exists (r :: Q), r', R, s'. split; [cbn; congruence|]. cbn [configure]. rewrite EM, C18_filter_lemma, EW, EP. cbn [rbind].
           split; [exact Q2|]. split; [exact Q3|]. rewrite RD. rewrite <- app_assoc in Q4. exact Q4.
        -- intros (Q & r' & R & s' & Q1 & Q2 & Q3 & Q4). exists (r :: Q), r', R, s'. split; [cbn; congruence|]. cbn [configure]. rewrite EM, C18_filter_lemma, EW, EP. cbn [rbind].
           split; [exact Q2|]. split; [exact Q3|]. rewrite RD. rewrite <- app_assoc in Q4. exact Q4.
    + assert (RD : forall Q, read incl0 excl0 (r :: Q) = read incl0 excl0 Q) by (intros Q; unfold read, kept; cbn [filter]; rewrite EW; reflexivity).
      rewrite C18_filter_lemma, EW. rewrite RD in INV. eapply fails_imp; [| |exact (IH _ _ _ INV IE)].
      * intros x (Q & r' & R & s' & Q1 & Q2 & Q3 & Q4). exists (r :: Q), r', R, s'. split; [cbn; congruence|]. cbn [configure]. rewrite EM, C18_filter_lemma, EW, RD. auto.
      * intros (Q & r' & R & s' & Q1 & Q2 & Q3 & Q4). exists (r :: Q), r', R, s'. split; [cbn; congruence|]. cbn [configure]. rewrite EM, C18_filter_lemma, EW, RD. auto.
  - assert (RD : forall Q, read incl0 excl0 (r :: Q) = read incl0 excl0 Q).
    { intros Q. unfold read, kept. cbn [filter]. destruct (wantedb _ _ _); [|reflexivity]. cbn [filter]. unfold has_name at 1. rewrite EM. reflexivity. }
    rewrite RD in INV. destruct (r_pseudo r) as [ps|] eqn:EPS.
    + eapply fails_imp; [| |exact (IH _ _ _ INV IE)].
      * intros x (Q & r' & R & s' & Q1 & Q2 & Q3 & Q4). exists (r :: Q), r', R, s'. split; [cbn; congruence|]. cbn [configure]. rewrite EM, EPS, RD. auto.
      * intros (Q & r' & R & s' & Q1 & Q2 & Q3 & Q4). exists (r :: Q), r', R, s'. split; [cbn; congruence|]. cbn [configure]. rewrite EM, EPS, RD. auto.
    + cbn. exists [], r, recs, s. split; [reflexivity|]. split; [reflexivity|]. split; [now left|]. unfold fault. rewrite EM. auto.
Qed.

Lemma blame_lemma nu incl0 excl0 recs : sizes32 recs -> room uids nu (List.length (read incl0 excl0 recs)) ->
  let at_record (F : list irec -> irec -> Prop) := exists Q r R s, recs = (Q ++ r :: R)%list /\ make_decoder uids annos nu incl0 excl0 Q = Ok s /\
    (r_mn r = None \/ wantedb incl0 excl0 (r_tags r) = true) /\ F (read incl0 excl0 Q) r in
  fails (make_decoder uids annos nu incl0 excl0 recs) (fun x => uid_fault uids x \/ at_record (fun P r => fault annos P r x)) (at_record (abort uids)).
Proof.
  intros SZ RM at_record. unfold make_decoder. apply fails_bind.
  - eapply fails_exn; [exact (new_fails nu _ RM)|]. auto.
  - intros b EB. destruct (new_settles uids annos nu _ RM) as [_ S2].
    eapply fails_imp; [| |exact (configure_fails incl0 excl0 recs SZ [] [] (b, tree_new) (S2 _ EB) ltac:(intros ? []))].
    + intros x (Q & r & R & s & Q1 & Q2 & Q3). right. exists Q, r, R, s. split; [exact Q1|]. unfold make_decoder. rewrite EB. auto.
    + intros (Q & r & R & s & Q1 & Q2 & Q3). exists Q, r, R, s. split; [exact Q1|]. unfold make_decoder. rewrite EB. auto.
Qed.
End Builder.
