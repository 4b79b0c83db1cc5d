(** Claim C50 for instructions made without an opcode. *)
From Coq Require Import NArith ZArith List Bool String Ascii Lia.
From Verif Require Import M_Base M_Meta M_OperandInfo M_Extract M_Decoded M_Direct.
From Verif Require Import S_Bits S_Direct S_Dasm L_Bits L_Direct L_Dasm L_DasmTables.
Import ListNotations.
Local Open Scope N_scope.
Local Open Scope string_scope.

Lemma join_words l s : tailok s = true -> words (String.concat "," (map dec l) ++ s) = (map dec l ++ words s)%list.
Proof.
  intros T. induction l as [|n [|k r] IH]; [reflexivity| |].
  - cbn [map String.concat List.app]. apply words_word; [apply dec_plain|exact T].
  - change (String.concat "," (map dec (n :: k :: r))) with (dec n ++ "," ++ String.concat "," (map dec (k :: r))).
    rewrite !sapp_assoc. rewrite words_word by (apply dec_plain || reflexivity).
    change (map dec (n :: k :: r)) with (dec n :: map dec (k :: r)). cbn [List.app]. f_equal.
    rewrite words_sep_app by reflexivity. exact IH.
Qed.
Lemma tails_words f l s : (forall n : N, plain (f n)) -> words (String.concat "" (map (fun r => f r ++ ",") l) ++ s) = (map f l ++ words s)%list.
Proof.
  intros P. induction l as [|n r IH]; [reflexivity|].
  assert (E : String.concat "" (map (fun r => f r ++ ",") (n :: r)) = f n ++ "," ++ String.concat "" (map (fun r => f r ++ ",") r)).
  { destruct r; cbn [map String.concat]; [now rewrite sapp_nil|]. now rewrite !sapp_assoc. }
  rewrite E, !sapp_assoc. rewrite words_word by (apply P || reflexivity). cbn [map List.app]. f_equal.
  rewrite words_sep_app by reflexivity. exact IH.
Qed.
Lemma labelled_words l ns s : plain l -> tailok s = true ->
  words (l ++ String.concat "," (map dec ns) ++ s) =
  List.app (match ns with [] => [l] | n :: r => (l ++ dec n) :: map dec r end) (words s).
Proof.
  intros P T. destruct ns as [|n [|k r]].
  - cbn [map String.concat]. rewrite (words_word l) by auto. reflexivity.
  - cbn [map String.concat List.app]. rewrite <- sapp_assoc. apply words_word; [|exact T]. apply plain_app; [apply P|apply dec_plain].
  - change (String.concat "," (map dec (n :: k :: r))) with (dec n ++ "," ++ String.concat "," (map dec (k :: r))).
    rewrite !sapp_assoc, <- (sapp_assoc l). rewrite words_word; [|apply plain_app; [apply P|apply dec_plain]|reflexivity].
    cbn [List.app]. f_equal. rewrite words_sep_app by reflexivity. exact (join_words (k :: r) s T).
Qed.
Lemma says_decs l : Forall2 says (map dec l) (map (Dec "") l).
Proof. induction l; constructor; auto. exists (dec a). split; [reflexivity|apply numeral_dec]. Qed.
Lemma says_labelled l ns : Forall2 says (match ns with [] => [l] | n :: r => (l ++ dec n) :: map dec r end) (labelled l ns).
Proof.
  destruct ns as [|n r]; cbn [labelled]; (constructor; [|]); [reflexivity|constructor|apply says_dec|apply says_decs].
Qed.
Lemma says_marked m l : Forall2 says (map (fun n => dec n ++ m) l) (map (fun n => Marked n m) l).
Proof. induction l; constructor; auto. exists (dec a). split; [reflexivity|apply numeral_dec]. Qed.
Lemma imm_words i : words ("0x" ++ hex i) = ["0x" ++ hex i].
Proof. apply words_one, plain_app; [reflexivity|apply hex_plain]. Qed.
Lemma imm_says i : Forall2 says ["0x" ++ hex i] [Hex "0x" i].
Proof. constructor; [apply says_hex|constructor]. Qed.
Lemma marked_plain m n : no_sep m = true -> plain (dec n ++ m).
Proof. intros H. apply plain_app_l; [apply dec_plain|exact H]. Qed.
Lemma mask_text_ok w : w < 2 ^ 64 -> mask_text w = Ok (String.concat "," (map dec (ones_of w))).
Proof.
  intros H. pose proof (mask_elems_ok None false w H) as E. unfold mask_elems in E. unfold mask_text.
  destruct (bit_indices w) as [l| | |]; try discriminate E. cbn [rbind] in *. do 2 f_equal. f_equal.
  assert (E' : map (bare None false) l = map (bare None false) (ones_of w)) by congruence.
  apply (f_equal (map e_val)) in E'. now rewrite !bare_vals in E'.
Qed.

Lemma C50_direct_lemma d mn ic m : masks_fit (dx_ops d) -> plain mn ->
  exists t, x_dasm (direct_ext d) mn ic m = Ok t /\ Forall2 says (words t) (Lit mn :: direct_line d).
Proof.
  intros MF PL. cbn [direct_ext x_dasm]. unfold direct_dasm, direct_line. cbv zeta.
  destruct (dx_ops d) as [s t sp|s t sp|s t|s t|a t sp|a t|a t r] eqn:O; cbn [masks_fit] in MF;
    rewrite ?mask_text_ok by apply MF; cbn [rbind]; (eexists; split; [reflexivity|]); rewrite !sapp_assoc;
    (rewrite (words_word mn) by (auto || reflexivity)); (constructor; [reflexivity|]);
    change tab with (String (ascii_of_nat 9) ""); rewrite words_sep_app by reflexivity; rewrite words_nil_app;
    cbn [given_dests given_sources given_datas given_addrs].
  - destruct (dx_immT d); rewrite join_words by reflexivity;
    (apply Forall2_app; [apply says_decs|]); try constructor;
    (rewrite words_sep_app by reflexivity; rewrite words_sep_app by reflexivity; rewrite words_nil_app, imm_words; apply imm_says).
  - destruct (dx_immT d); rewrite join_words by reflexivity;
    (apply Forall2_app; [apply says_decs|]); try constructor;
    (rewrite words_sep_app by reflexivity; rewrite words_nil_app, imm_words; apply imm_says).
  - rewrite (tails_words dec) by apply dec_plain. apply Forall2_app; [apply says_decs|].
    rewrite words_sep_app by reflexivity. rewrite words_nil_app, imm_words. apply imm_says.
  - rewrite join_words by reflexivity. rewrite map_app, <- app_assoc. apply Forall2_app; [apply says_decs|].
    rewrite words_sep_app by reflexivity. rewrite words_nil_app. rewrite join_words by reflexivity. apply Forall2_app; [apply says_decs|].
    rewrite words_sep_app by reflexivity. rewrite words_nil_app, imm_words. apply imm_says.
  - replace (map (fun r => dec r ++ "(D),") t) with (map (fun r => (dec r ++ "(D)") ++ ",") t) by (apply map_ext; intros; now rewrite sapp_assoc).
    replace (map (fun r => dec r ++ "(A),") a) with (map (fun r => (dec r ++ "(A)") ++ ",") a) by (apply map_ext; intros; now rewrite sapp_assoc).
    rewrite (tails_words (fun r => dec r ++ "(D)")) by (intros; now apply marked_plain).
    rewrite (tails_words (fun r => dec r ++ "(A)")) by (intros; now apply marked_plain).
    apply Forall2_app; [apply says_marked|]. apply Forall2_app; [apply says_marked|].
    rewrite words_sep_app by reflexivity. rewrite words_nil_app, imm_words. apply imm_says.
  - change (map (Dec "") []) with (@nil item). cbn [List.app]. change (" D:" ++ ?x) with (String " " "" ++ "D:" ++ x).
    rewrite words_sep_app by reflexivity. rewrite words_nil_app.
    rewrite labelled_words by ((split; [discriminate|reflexivity]) || reflexivity). apply Forall2_app; [apply says_labelled|].
    change (", A:" ++ ?x) with (String "," (String " " "") ++ "A:" ++ x).
    rewrite words_sep_app by reflexivity. rewrite words_sep_app by reflexivity. rewrite words_nil_app.
    rewrite labelled_words by ((split; [discriminate|reflexivity]) || reflexivity). apply Forall2_app; [apply says_labelled|].
    rewrite words_sep_app by reflexivity. rewrite words_nil_app, imm_words. apply imm_says.
  - rewrite words_sep_app by reflexivity. rewrite words_nil_app.
    rewrite join_words by reflexivity. apply Forall2_app; [apply says_decs|].
    change (", D:" ++ ?x) with (String "," (String " " "") ++ "D:" ++ x).
    rewrite words_sep_app by reflexivity. rewrite words_sep_app by reflexivity. rewrite words_nil_app.
    rewrite labelled_words by ((split; [discriminate|reflexivity]) || reflexivity). apply Forall2_app; [apply says_labelled|].
    change (", A:" ++ ?x) with (String "," (String " " "") ++ "A:" ++ x).
    rewrite words_sep_app by reflexivity. rewrite words_sep_app by reflexivity. rewrite words_nil_app.
    rewrite labelled_words by ((split; [discriminate|reflexivity]) || reflexivity). apply Forall2_app; [apply says_labelled|].
    rewrite words_sep_app by reflexivity. rewrite words_nil_app, imm_words. apply imm_says.
Qed.

(** ** Cases *)
Lemma ok_ex {A} (r : res A) : match r with Ok _ => true | _ => false end = true -> exists d, r = Ok d.
Proof. destruct r; try discriminate. eauto. Qed.
Lemma C50_reads_case : exists d d', decode_info "vluxei8.v" 1 (ext X_V_load 0) meta_rv64i 0x24000007 = Ok d /\
  decode_info "vluxei8.v" 1 (ext X_V_load 0) meta_rv64i 0x24108187 = Ok d' /\
  as_reported X_V_load 0 meta_rv64i 0x24000007 /\ nameable X_V_load 0 "vluxei8.v" 0x24000007 /\
  x_dasm (ext X_V_load 0) "vluxei8.v" 0x24000007 meta_rv64i = Ok (tabbed "vluxseg2ei8.v" "x0,x0,x0,v0.t") /\
  x_dasm (ext X_V_load 0) "vluxei8.v" 0x24108187 meta_rv64i = Ok (tabbed "vluxseg2ei8.v" "x3,x1,x1,v0.t").
Proof.
  destruct (ok_ex (decode_info "vluxei8.v" 1 (ext X_V_load 0) meta_rv64i 0x24000007)) as [d D]; [vm_compute; reflexivity|].
  destruct (ok_ex (decode_info "vluxei8.v" 1 (ext X_V_load 0) meta_rv64i 0x24108187)) as [d' D']; [vm_compute; reflexivity|].
  exists d, d'. split; [exact D|]. split; [exact D'|]. split; [split; [discriminate|exact I]|].
  split; [intros _; split; [reflexivity|cbn; lia]|]. split; vm_compute; reflexivity.
Qed.
Lemma C50_csr_case : exists ffm ic d t, decode_info "csrrwi" 1 (ext X_CSRI ffm) meta_rv64i ic = Ok d /\
  x_dasm (ext X_CSRI ffm) "csrrwi" ic meta_rv64i = Ok t /\ In "CSR=0x0"%string (words t) /\ In (Hex "CSR=0x" 0x300) (line X_CSRI ffm ic d).
Proof.
  exists 0xFFF00000, 0x30005073.
  destruct (ok_ex (decode_info "csrrwi" 1 (ext X_CSRI 0xFFF00000) meta_rv64i 0x30005073)) as [d D]; [vm_compute; reflexivity|].
  exists d, (tabbed "csrrwi" "x0, IMM=0, CSR=0x0"). split; [exact D|]. split; [vm_compute; reflexivity|].
  split; [vm_compute; tauto|]. unfold line. apply in_or_app. right. right. left. reflexivity.
Qed.
Lemma C50_mew_case : exists ic d, decode_info "vle8.v" 1 (ext X_V_load 0) meta_rv64i ic = Ok d /\
  x_dasm (ext X_V_load 0) "vle8.v" ic meta_rv64i = Throw EUnsupportedSpecialField.
Proof.
  exists 0x30000007. destruct (ok_ex (decode_info "vle8.v" 1 (ext X_V_load 0) meta_rv64i 0x30000007)) as [d D]; [vm_compute; reflexivity|].
  exists d. split; [exact D|vm_compute; reflexivity].
Qed.
Lemma C50_direct_case :
  x_dasm (direct_ext (direct_named "sw" (Some 255) (DMaskDestStores 4 0x88 2))) "sw" 0 meta_rv64i = Ok (tabbed "sw" " 1, D:3,7, A:2 0xff") /\
  direct_line (direct_named "sw" (Some 255) (DMaskDestStores 4 0x88 2)) =
    [Dec "" 1; Dec "D:" 3; Dec "" 7; Dec "A:" 2; Hex "0x" 255] /\
  masks_fit (DMaskDestStores 4 0x88 2).
Proof. split; [vm_compute; reflexivity|]. split; [vm_compute; reflexivity|]. cbn. lia. Qed.
