(** Proofs for the disassembly claim (C50). *)
From Coq Require Import NArith ZArith List Bool String Ascii Lia ZifyBool ZifyN.
From Coq Require Import Decimal DecimalFacts DecimalN DecimalPos DecimalString.
From Coq Require Import Hexadecimal HexadecimalFacts HexadecimalN HexadecimalPos HexadecimalString.
From Verif Require Import M_Base M_Field M_Forms M_Meta M_OperandInfo M_Extract M_Decoded.
From Verif Require Import S_Bits S_Slots S_Pairs S_Regs S_Dasm S_Imm L_Bits L_Slots L_Imm L_Decoded L_Pairs L_Regs.
Import ListNotations.
Local Open Scope N_scope.
Local Open Scope string_scope.

(** ** Numerals *)
Ltac read_digit b := match goal with
  |- context [digit ?a] =>
    let d := eval vm_compute in (digit a) in change (digit a) with d; cbv beta iota;
    match d with Some ?n => change (N.ltb n b) with true end; cbv iota end.
Lemma numeral_dec_acc u : forall acc,
  numeral_from 10 (Npos acc) (DecimalString.NilEmpty.string_of_uint u) = Some (Npos (Pos.of_uint_acc u acc)).
Proof.
  induction u; intros acc; [reflexivity|..];
  cbn [DecimalString.NilEmpty.string_of_uint numeral_from Pos.of_uint_acc]; read_digit constr:(10%N);
  (match goal with |- numeral_from 10%N ?n _ = Some (Npos (Pos.of_uint_acc _ ?p)) =>
     replace n with (Npos p) by lia end); apply IHu.
Qed.
Lemma numeral_dec_0 u :
  numeral_from 10 0 (DecimalString.NilEmpty.string_of_uint u) = Some (Pos.of_uint u).
Proof.
  induction u; [reflexivity|exact IHu|..];
  cbn [DecimalString.NilEmpty.string_of_uint numeral_from Pos.of_uint]; read_digit constr:(10%N);
  (match goal with |- numeral_from 10%N ?n _ = Some (Npos (Pos.of_uint_acc _ ?p)) =>
     change n with (Npos p) end); apply numeral_dec_acc.
Qed.
Lemma numeral_dec n : numeral 10 (dec n) = Some n.
Proof.
  unfold dec. pose proof (DecimalN.Unsigned.of_to n) as E.
  destruct (N.to_uint n) eqn:U.
  1: { cbn in E. subst. discriminate U. }
  all: cbn [DecimalString.NilZero.string_of_uint numeral DecimalString.NilEmpty.string_of_uint];
    rewrite <- E; unfold N.of_uint; rewrite <- numeral_dec_0; reflexivity.
Qed.
Lemma numeral_hex_acc u : forall acc,
  numeral_from 16 (Npos acc) (HexadecimalString.NilEmpty.string_of_uint u) = Some (Npos (Pos.of_hex_uint_acc u acc)).
Proof.
  induction u; intros acc; [reflexivity|..];
  cbn [HexadecimalString.NilEmpty.string_of_uint numeral_from Pos.of_hex_uint_acc]; read_digit constr:(16%N);
  (match goal with |- numeral_from 16%N ?n _ = Some (Npos (Pos.of_hex_uint_acc _ ?p)) =>
     replace n with (Npos p) by lia end); apply IHu.
Qed.
Lemma numeral_hex_0 u :
  numeral_from 16 0 (HexadecimalString.NilEmpty.string_of_uint u) = Some (Pos.of_hex_uint u).
Proof.
  induction u; [reflexivity|exact IHu|..];
  cbn [HexadecimalString.NilEmpty.string_of_uint numeral_from Pos.of_hex_uint]; read_digit constr:(16%N);
  (match goal with |- numeral_from 16%N ?n _ = Some (Npos (Pos.of_hex_uint_acc _ ?p)) =>
     change n with (Npos p) end); apply numeral_hex_acc.
Qed.
Lemma numeral_hex n : numeral 16 (hex n) = Some n.
Proof.
  unfold hex. pose proof (HexadecimalN.Unsigned.of_to n) as E.
  destruct (N.to_hex_uint n) eqn:U.
  1: { cbn in E. subst. discriminate U. }
  all: cbn [HexadecimalString.NilZero.string_of_uint numeral HexadecimalString.NilEmpty.string_of_uint];
    rewrite <- E; unfold N.of_hex_uint; rewrite <- numeral_hex_0; reflexivity.
Qed.
Lemma numeral_no_sep b s : forall acc n, numeral_from b acc s = Some n -> no_sep s = true.
Proof.
  induction s as [|a r IH]; intros acc n H; [reflexivity|]. cbn in H |- *.
  destruct (digit a) as [d|] eqn:D; [|discriminate]. destruct (N.ltb _ _); [|discriminate].
  rewrite (IH _ _ H), andb_true_r. apply negb_true_iff. unfold is_sep.
  destruct (Ascii.eqb_spec a (ascii_of_nat 9)) as [->|]; [discriminate D|].
  destruct (Ascii.eqb_spec a " ") as [->|]; [discriminate D|].
  destruct (Ascii.eqb_spec a ",") as [->|]; [discriminate D|]. reflexivity.
Qed.
Lemma numeral_plain b s n : numeral b s = Some n -> plain s.
Proof.
  intros H. destruct s; [discriminate|]. split; [discriminate|]. eapply numeral_no_sep, H.
Qed.
Lemma dec_plain n : plain (dec n). Proof. eapply numeral_plain, numeral_dec. Qed.
Lemma hex_plain n : plain (hex n). Proof. eapply numeral_plain, numeral_hex. Qed.

(** ** Words *)
Definition tailok (s : string) : bool := match s with EmptyString => true | String a _ => is_sep a end.
Lemma sapp_assoc a b c : (a ++ b) ++ c = a ++ (b ++ c).
Proof. induction a; cbn; congruence. Qed.
Lemma sapp_nil a : a ++ "" = a.
Proof. induction a; cbn; congruence. Qed.
Lemma no_sep_app a b : no_sep (a ++ b) = no_sep a && no_sep b.
Proof. induction a; cbn; [reflexivity|]. now rewrite IHa, andb_assoc. Qed.
Lemma plain_app a b : no_sep a = true -> plain b -> plain (a ++ b).
Proof.
  intros A [B B']. split; [destruct a; [exact B|discriminate]|]. now rewrite no_sep_app, A, B'.
Qed.
Lemma plain_app_l a b : plain a -> no_sep b = true -> plain (a ++ b).
Proof.
  intros [A A'] B. split; [destruct a; [congruence|discriminate]|]. now rewrite no_sep_app, A', B.
Qed.
Lemma tail_cut s : tailok s = true -> fst (cut s) = "".
Proof. destruct s; cbn; [reflexivity|]. destruct (cut s). now intros ->. Qed.
Lemma cut_app w s : no_sep w = true -> tailok s = true -> cut (w ++ s) = (w, snd (cut s)).
Proof.
  intros W T. induction w as [|a r IH]; cbn in *.
  - rewrite <- (tail_cut s T). apply surjective_pairing.
  - apply andb_prop in W as [A W]. rewrite IH by exact W. now apply negb_true_iff in A as ->.
Qed.
Lemma words_word w s : plain w -> tailok s = true -> words (w ++ s) = w :: words s.
Proof.
  intros [E W] T. unfold words. rewrite cut_app by assumption.
  pose proof (tail_cut s T). destruct (cut s); cbn in *; subst. destruct w; [congruence|reflexivity].
Qed.
Lemma words_one w : plain w -> words w = [w].
Proof. intros P. rewrite <- (sapp_nil w) at 1. now rewrite words_word. Qed.
Lemma words_sep a s : is_sep a = true -> words (String a s) = words s.
Proof. intros H. unfold words. cbn. destruct (cut s). now rewrite H. Qed.
Lemma words_sep_app a l s : is_sep a = true -> words (String a l ++ s) = words (l ++ s).
Proof. apply words_sep. Qed.
Lemma words_nil_app s : words ("" ++ s) = words s.
Proof. reflexivity. Qed.
Lemma words_lit l d s : no_sep l = true -> plain d -> tailok s = true ->
  words (l ++ d ++ s) = (l ++ d) :: words s.
Proof. intros. rewrite <- sapp_assoc. apply words_word; auto using plain_app. Qed.
Lemma words_lit_end l d : no_sep l = true -> plain d -> words (l ++ d) = [l ++ d].
Proof. intros. apply words_one; auto using plain_app. Qed.

(** ** Registers *)
Lemma reads_bare w n : numeral 10 w = Some n -> reads w = Some (None, n).
Proof.
  intros H. unfold reads. destruct w as [|a r]; [discriminate|].
  assert (D : digit a <> None) by (cbn in H; destruct (digit a); congruence).
  replace (String.eqb (String a r) "SP") with false.
  2:{ symmetry. apply String.eqb_neq. intros [= -> ->]. now apply D. }
  destruct (Ascii.eqb_spec a "x") as [->|]; [now destruct D|].
  destruct (Ascii.eqb_spec a "f") as [->|]; [now destruct D|].
  destruct (Ascii.eqb_spec a "v") as [->|]; [now destruct D|]. now rewrite H.
Qed.
Lemma reg_reads m f n : reads (reg_name m f n) = Some (file_of (mt_otype m f), n).
Proof.
  unfold reg_name, file_of. destruct (mt_otype m f) as [[]|]; try (apply reads_bare, numeral_dec);
  unfold reads; cbn -[numeral]; now rewrite numeral_dec.
Qed.
Lemma reg_plain m f n : plain (reg_name m f n).
Proof.
  unfold reg_name. destruct (mt_otype m f) as [[]|]; try apply dec_plain; apply plain_app; auto using dec_plain.
Qed.
Definition unmasked (ffm : N) (l : list (field * fid)) := filter (fun p => negb (masked (fst p) ffm)) l.
Lemma reg_list_words get ffm m ic l s : tailok s = true ->
  words (reg_list get ffm m ic true l ++ s) =
    (map (fun p => reg_name m (snd p) (get (fst p) ic)) (unmasked ffm l) ++ words s)%list /\
  words (reg_list get ffm m ic false l ++ s) =
    (map (fun p => reg_name m (snd p) (get (fst p) ic)) (unmasked ffm l) ++ words s)%list /\
  tailok (reg_list get ffm m ic false l ++ s) = true.
Proof.
  intros T. induction l as [|[f g] r (I1 & I2 & I3)]; [cbn; auto|].
  cbn [reg_list unmasked filter fst]. fold (unmasked ffm r). destruct (masked f ffm); cbn [negb]; [auto|].
  cbn [map app snd fst]. repeat split.
  - cbn [String.append]. rewrite sapp_assoc, words_word by auto using reg_plain. now rewrite I2.
  - rewrite sapp_assoc, words_sep_app by reflexivity. cbn [String.append].
    rewrite sapp_assoc, words_word by auto using reg_plain. now rewrite I2.
Qed.
Lemma regs_words get ffm m ic l s : tailok s = true ->
  words (reg_list get ffm m ic true l ++ s) =
    (map (fun p => reg_name m (snd p) (get (fst p) ic)) (unmasked ffm l) ++ words s)%list.
Proof. intros T. apply (reg_list_words get ffm m ic l s T). Qed.
Lemma regs_words_end get ffm m ic l :
  words (reg_list get ffm m ic true l) =
    map (fun p => reg_name m (snd p) (get (fst p) ic)) (unmasked ffm l).
Proof. rewrite <- (sapp_nil (reg_list _ _ _ _ _ _)), regs_words by reflexivity. apply List.app_nil_r. Qed.

(** ** The lines *)
Lemma vm_words f ffm ic : f_rpos f = 25 -> f_len f = 1 -> fokb f = true ->
  tailok (vm_text f ffm ic) = true /\ Forall2 says (words (vm_text f ffm ic)) (mask_word ffm ic).
Proof.
  intros R L F. unfold vm_text, mask_word. rewrite (masked_slice f 25 1 ffm R L F), (extract_slice f 25 1 ic R L F).
  destruct (N.eqb (slice 25 1 ffm) 0); cbn [negb andb]; [|split; [reflexivity|constructor]].
  destruct (N.eqb (slice 25 1 ic) 0); (split; [reflexivity|repeat constructor]).
Qed.
Lemma says_dec l n : says (l ++ dec n) (Dec l n).
Proof. exists (dec n). split; [reflexivity|apply numeral_dec]. Qed.
Lemma says_hex l n : says (l ++ hex n) (Hex l n).
Proof. exists (hex n). split; [reflexivity|apply numeral_hex]. Qed.
Lemma says_off o : says ("+0x" ++ shex o) (offset_word o).
Proof. unfold offset_word, shex. apply says_hex. Qed.
Lemma says_reg m f n sd im g : says (reg_name m f n) (Operand (mkE g (mt_otype m f) n sd im)).
Proof. apply reg_reads. Qed.
Lemma says_sdec z : says (sdec z) (Signed z).
Proof.
  cbn. unfold sdec. destruct (Z.ltb_spec z 0).
  - exists (dec (Z.abs_N z)). split; [reflexivity|]. rewrite numeral_dec. f_equal. lia.
  - apply numeral_dec.
Qed.
Lemma sdec_plain z : plain (sdec z).
Proof. unfold sdec. destruct (Z.ltb z 0); [apply plain_app|]; auto using dec_plain. Qed.
Lemma shex_plain z : plain (shex z). Proof. apply hex_plain. Qed.
Lemma land_bit_slice i k : N.eqb (N.land i (2 ^ k)) 0 = N.eqb (slice k 1 i) 0.
Proof.
  apply eq_true_iff_eq. rewrite !N.eqb_eq, land_zero_testbit, slice_zero. split; intros H j.
  - intros J. specialize (H j). rewrite N.pow2_bits_eqb in H. replace (N.eqb k j) with true in H by lia.
    now rewrite andb_true_r in H.
  - rewrite N.pow2_bits_eqb. destruct (N.eqb_spec k j) as [->|]; [|apply andb_false_r]. rewrite H by lia. reflexivity.
Qed.
Lemma sew_slice i : N.shiftr (N.land i 0x38) 3 = slice 3 3 i.
Proof.
  rewrite N.shiftr_land. change (N.shiftr 0x38 3) with (N.ones 3). rewrite N.land_ones, N.shiftr_div_pow2. reflexivity.
Qed.
Lemma lmul_slice i : N.land i 0x7 = slice 0 3 i.
Proof. change 0x7%N with (N.ones 3). rewrite N.land_ones. unfold slice. now rewrite N.div_1_r. Qed.
Lemma vtype_ok i : Forall2 says (words (vtype_text i)) (vtype_words i).
Proof.
  unfold vtype_text, vtype_words. cbv zeta. rewrite sew_slice, lmul_slice.
  change 0x40%N with (2 ^ 6)%N. change 0x80%N with (2 ^ 7)%N. rewrite !land_bit_slice, !N.shiftl_1_l.
  rewrite words_lit by (auto using dec_plain). rewrite words_sep_app by reflexivity.
  constructor. { rewrite N.pow_add_r. apply says_dec. }
  rewrite words_nil_app.
  assert (T : forall b b' : bool,
    words ((if b then "tu," else "ta,") ++ (if b' then "mu" else "ma")) =
      [if b then "tu" else "ta"; if b' then "mu" else "ma"]) by (intros [] []; reflexivity).
  destruct (N.ltb (slice 0 3 i) 4); rewrite !sapp_assoc, words_lit by (auto using dec_plain);
  rewrite words_sep_app by reflexivity; rewrite words_nil_app, T; (constructor; [apply says_dec|]);
  repeat constructor.
Qed.

Lemma src_list c ffm m ic n u d : pair_ok c ffm -> decode_info n u (ext c ffm) m ic = Ok d ->
  oi_elems (d_src_oi d) = if is_pair_store c then pair_srcs c m ic else slot_elems m (src_slots c) ffm ic.
Proof.
  intros P D. destruct (is_pair_store c) eqn:S.
  - destruct (pair_srcI c ffm ic m S) as (o & E & L & _).
    { apply P. unfold is_pair. now rewrite S, orb_true_r. }
    apply decode_inv in D as (_ & _ & SI & _). rewrite E in SI. injection SI as <-. exact L.
  - eapply C26_src; eauto.
Qed.
Lemma dst_list c ffm m ic n u d : pair_ok c ffm -> decode_info n u (ext c ffm) m ic = Ok d ->
  oi_elems (d_dst_oi d) = if is_pair_load c then pair_dests m (pair_first c ic) else slot_elems m (dst_slots c) ffm ic.
Proof.
  intros P D. destruct (is_pair_load c) eqn:S.
  - destruct (pair_dstI c ffm ic m S) as (o & E & L & _).
    { apply P. unfold is_pair. now rewrite S. }
    apply decode_inv in D as (_ & _ & _ & DI & _). rewrite E in DI. injection DI as <-. exact L.
  - eapply C26_dst; eauto.
Qed.

(** The method [dasm] of the finished object. *)
Lemma dasm_ext c ffm mn ic m : x_dasm (ext c ffm) mn ic m = dasm (ext c ffm) c ffm mn ic m.
Proof. destruct c; reflexivity. Qed.

Ltac tl := first [reflexivity | apply vm_words; reflexivity].
Ltac pl := first [apply dec_plain | apply shex_plain | apply hex_plain | apply sdec_plain].
Ltac wstep := match goal with
  | |- context [words ("" ++ ?s)] => rewrite (words_nil_app s)
  | |- context [words ("SP, IMM=" ++ ?s)] => change ("SP, IMM=" ++ s) with ("SP" ++ ", IMM=" ++ s)
  | |- context [words ("x0, +0x" ++ ?s)] => change ("x0, +0x" ++ s) with ("x0" ++ ", +0x" ++ s)
  | |- context [words ("x1, +0x" ++ ?s)] => change ("x1, +0x" ++ s) with ("x1" ++ ", +0x" ++ s)
  | |- context [words ("x0, " ++ ?s)] => change ("x0, " ++ s) with ("x0" ++ ", " ++ s)
  | |- context [words ("SP" ++ ?s)] => rewrite (words_word "SP" s) by (split; [discriminate|reflexivity] || reflexivity)
  | |- context [words ("x0" ++ ?s)] => rewrite (words_word "x0" s) by (split; [discriminate|reflexivity] || reflexivity)
  | |- context [words ("x1" ++ ?s)] => rewrite (words_word "x1" s) by (split; [discriminate|reflexivity] || reflexivity)
  | |- context [words (String ?a ?l ++ ?s)] => rewrite (words_sep_app a l s) by reflexivity
  | |- context [words (reg_list ?g ?f ?m ?i true ?l ++ ?s)] => rewrite (regs_words g f m i l s) by tl
  | |- context [words (reg_list ?g ?f ?m ?i true ?l)] => rewrite (regs_words_end g f m i l)
  | |- context [words (sdec ?z ++ ?s)] => rewrite (words_word (sdec z) s) by (apply sdec_plain || tl)
  | |- context [words (?l ++ ?d ?n ++ ?s)] => rewrite (words_lit l (d n) s) by (reflexivity || pl || tl)
  | |- context [words (?l ++ ?d ?n)] => rewrite (words_lit_end l (d n)) by (reflexivity || pl)
  end.

(** The slots of the operands shown. *)
Definition shown_slots (c : xcls) : list slot :=
  flat_map (fun f => filter (fun s => fid_eqb f (sl_fid s)) (if fid_eqb f RD then dst_slots c else src_slots c))
           (arguments c).
Lemma reported_slots f m ss ffm ic :
  reported f (slot_elems m ss ffm ic) = map (slot_elem m ic) (live ffm (filter (fun s => fid_eqb f (sl_fid s)) ss)).
Proof.
  unfold slot_elems, live, reported. induction ss as [|s r IH]; [reflexivity|]. cbn [filter].
  destruct (loc_fixed (sl_loc s) ffm) eqn:F; cbn [negb map filter slot_elem e_fid];
  destruct (fid_eqb f (sl_fid s)) eqn:E; cbn [filter map]; rewrite ?F; cbn [negb map]; congruence.
Qed.
Lemma live_app ffm a b : live ffm (a ++ b) = (live ffm a ++ live ffm b)%list.
Proof. apply filter_app. Qed.
Lemma shown_eq c ffm m ic n u d : is_pair c = false -> decode_info n u (ext c ffm) m ic = Ok d ->
  shown c d = map (slot_elem m ic) (live ffm (shown_slots c)).
Proof.
  intros P D. assert (PK : pair_ok c ffm) by (intros Q; congruence).
  unfold is_pair in P. apply orb_false_iff in P as [P1 P2].
  pose proof (src_list _ _ _ _ _ _ _ PK D) as HS. pose proof (dst_list _ _ _ _ _ _ _ PK D) as HD.
  rewrite P1 in HD. rewrite P2 in HS. unfold shown, shown_slots. rewrite HS, HD.
  induction (arguments c) as [|f r IH]; [reflexivity|]. cbn [flat_map].
  rewrite live_app, map_app, <- IH. f_equal. destruct (fid_eqb f RD); apply reported_slots.
Qed.
Lemma spec_AMO ffm ic : x_spec (ext X_AMO ffm) SF_AQ ic = Ok (slice 26 1 ic) /\
  x_spec (ext X_AMO ffm) SF_RL ic = Ok (slice 25 1 ic).
Proof. split; xunf; lazy [spec_of find fst snd andb]; fslice; reflexivity. Qed.
Lemma spec_CSR ffm ic : x_spec (ext X_CSR ffm) SF_CSR ic = Ok (slice 20 12 ic) /\
  x_spec (ext X_CSRI ffm) SF_CSR ic = Ok (slice 20 12 ic).
Proof. split; xunf; lazy [spec_of find fst snd andb]; fslice; reflexivity. Qed.
Lemma spec_FENCE ffm ic : x_spec (ext X_FENCE ffm) SF_FM ic = Ok (slice 28 4 ic) /\
  x_spec (ext X_FENCE ffm) SF_PRED ic = Ok (slice 24 4 ic) /\ x_spec (ext X_FENCE ffm) SF_SUCC ic = Ok (slice 20 4 ic).
Proof. repeat split; xunf; lazy [spec_of find fst snd andb]; fslice; reflexivity. Qed.
Lemma spec_RM ffm ic : slice 12 3 ffm = 0 ->
  x_spec (ext X_Rfloat ffm) SF_RM ic = Ok (slice 12 3 ic) /\ x_spec (ext X_R4 ffm) SF_RM ic = Ok (slice 12 3 ic).
Proof. intros Z. split; xunf; lazy [spec_of find fst snd andb]; fslice; rewrite ?Z; reflexivity. Qed.
Lemma spec_AVL ffm ic : x_spec (ext X_V_vsetivli ffm) SF_AVL ic = Ok (slice 15 5 ic).
Proof. xunf; lazy [spec_of find fst snd andb]; fslice; reflexivity. Qed.

Lemma says_x w f m n g sd im : reads w = Some (Some XFile, n) -> is_x m f ->
  says w (Operand (mkE g (mt_otype m f) n sd im)).
Proof. intros R X. cbn. unfold is_x in X. now rewrite X. Qed.
Ltac say := first
  [ apply says_reg | apply says_dec | apply says_hex | apply says_off | apply says_sdec | reflexivity
  | apply says_x; [reflexivity|assumption] ].
Ltac named_first :=
  rewrite ?sapp_assoc; rewrite words_word by (assumption || reflexivity); constructor; [reflexivity|].
Ltac dcase2 := repeat match goal with
  | |- context [N.eqb (slice ?a ?b ?c) 0] => destruct (N.eqb (slice a b c) 0) eqn:?Z; cbn [negb]
  end.
Ltac fields0 := lazy [unmasked live filter fst sl_loc loc_fixed s_reg s_always s_sdata s_implied s_creg s_csdata s_const s_long];
  fslice.
Ltac fields1 := lazy [map app filter e_fid fst snd slot_elem slot_otype sl_fid sl_loc sl_sdata sl_implied sl_ty loc_val creg]; fslice.
Ltac fields := fields0; dcase2; fields1.
Ltac sayall := repeat (constructor; [say|]); first [constructor | apply vm_words; reflexivity | apply vtype_ok].
Lemma ci_words ffm m ic o :
  words (reg_list f_extract ffm m ic true [(CI_RD, RD); (CI_RS1, RS1)] ++
         (if negb (masked CI_RD ffm) || negb (masked CI_RS1 ffm) then ", " else "") ++ "+0x" ++ shex o) =
  ((if N.eqb (slice 7 5 ffm) 0 then [reg_name m RD (slice 7 5 ic); reg_name m RS1 (slice 7 5 ic)] else []) ++
   [("+0x" ++ shex o)%string])%list.
Proof.
  cbn [reg_list]. fslice. destruct (N.eqb (slice 7 5 ffm) 0); cbn [negb orb].
  - rewrite !sapp_assoc, words_nil_app, words_word by (auto using reg_plain).
    rewrite words_sep_app by reflexivity. rewrite words_nil_app, words_word by (auto using reg_plain).
    repeat wstep. reflexivity.
  - repeat wstep. reflexivity.
Qed.
Lemma C50_line c ffm m ic mn u d : plain mn -> is_vmem c = false -> is_pair c = false ->
  decode_info mn u (ext c ffm) m ic = Ok d -> as_reported c ffm m ic ->
  exists s, x_dasm (ext c ffm) mn ic m = Ok s /\ Forall2 says (words s) (Lit mn :: line c ffm ic d).
Proof.
  intros PL V P D [_ AR].
  pose proof (shown_eq _ _ _ _ _ _ _ P D) as HS. unfold line. rewrite HS. clear HS.
  apply decode_inv in D as (_ & _ & _ & _ & _ & _ & _ & _ & _ & _ & _ & _ & HI & HO & _).
  set (i := d_imm d) in *. set (o := d_soff d) in *. clearbody i o. clear d.
  destruct c; try discriminate V; try discriminate P; clear V P; 
  match goal with |- context [shown_slots ?X] =>
    let s := eval lazy in (shown_slots X) in change (shown_slots X) with s end;
  rewrite dasm_ext; unfold dasm; cbv zeta; rewrite ?HI, ?HO; 
  rewrite ?(proj1 (spec_AMO _ _)), ?(proj2 (spec_AMO _ _)), ?(proj1 (spec_CSR _ _)), ?(proj2 (spec_CSR _ _)),
    ?(proj1 (spec_FENCE _ _)), ?(proj1 (proj2 (spec_FENCE _ _))), ?(proj2 (proj2 (spec_FENCE _ _))), ?spec_AVL;
  clear HI HO; cbn [rbind further] in *.
  all: try match goal with
    | |- context [masked ISH_SHAMT ?w] =>
        rewrite (masked_slice ISH_SHAMT 20 6 w eq_refl eq_refl eq_refl); destruct (N.eqb (slice 20 6 w) 0)
    | |- context [masked Rfloat_RM ?w] =>
        rewrite (masked_slice Rfloat_RM 12 3 w eq_refl eq_refl eq_refl); destruct (N.eqb_spec (slice 12 3 w) 0) as [Q|Q];
        [rewrite (proj1 (spec_RM _ _ Q))|]
    | |- context [masked R4_RM ?w] =>
        rewrite (masked_slice R4_RM 12 3 w eq_refl eq_refl eq_refl); destruct (N.eqb_spec (slice 12 3 w) 0) as [Q|Q];
        [rewrite (proj2 (spec_RM _ _ Q))|]
    end; cbn [negb rbind].
  all: eexists; split; [reflexivity|].
  all: try (rewrite words_one by assumption; sayall; fail).
  all: named_first; change tab with (String (ascii_of_nat 9) "").
  all: try (repeat wstep; fields; solve [sayall]).
  - assert (W : slice 2 5 ffm = 0 -> says (reg_name m RS1 (slice 2 5 ic))
      (Operand (mkE (Some RS2) (mt_otype m RS2) (slice 2 5 ic) false false))).
    { intros Z. cbn -[reads]. rewrite <- (AR Z). apply reg_reads. }
    repeat wstep. fields; repeat match goal with H : N.eqb _ 0 = true |- _ => apply N.eqb_eq in H end.
    all: repeat (constructor; [first [apply says_reg | apply W; assumption]|]); constructor.
  - wstep. wstep. rewrite ci_words. fields; sayall.
  - rewrite (extract_slice CIW_IMM8 5 8 _ eq_refl eq_refl eq_refl), slice_andnot by (easy || exact AR).
    repeat wstep. fields; sayall.
  - rewrite slice_andnot by (easy || exact AR). repeat wstep. fields; sayall.
  - destruct AR as [X Z]. rewrite (extract_slice V_vsetivli_RD 7 5 _ eq_refl eq_refl eq_refl), slice_andnot by (easy || exact Z).
    repeat wstep. lazy [live filter sl_loc loc_fixed]. rewrite Z. change (N.eqb 0 0) with true. cbn [negb map app].
    constructor; [|sayall]. apply says_x; [|exact X]. cbn -[numeral]. now rewrite numeral_dec.
  - wstep. wstep. rewrite ci_words. fields; sayall.
  - wstep. wstep. rewrite ci_words. fields; sayall.
  - wstep. wstep. rewrite ci_words, ci_sp_unfixed. fields; sayall.
Qed.

Ltac fids := repeat match goal with |- context [fid_eqb ?a ?b] =>
  let v := eval vm_compute in (fid_eqb a b) in change (fid_eqb a b) with v end; cbv iota.
Lemma C50_pair_line c ffm m ic mn u d : plain mn -> is_pair c = true ->
  decode_info mn u (ext c ffm) m ic = Ok d -> as_reported c ffm m ic ->
  exists s, x_dasm (ext c ffm) mn ic m = Ok s /\ Forall2 says (words s) (Lit mn :: line c ffm ic d).
Proof.
  intros PL P D [PO AR]. destruct (PO P) as [PF NZ]. clear PO.
  assert (PK : pair_ok c ffm) by (intros _; exact PF).
  pose proof (src_list _ _ _ _ _ _ _ PK D) as HS. pose proof (dst_list _ _ _ _ _ _ _ PK D) as HD.
  apply decode_inv in D as (_ & _ & _ & _ & _ & _ & _ & _ & _ & _ & _ & _ & HI & HO & _).
  unfold line, shown. rewrite HS, HD. clear HS HD PK.
  set (i := d_imm d) in *. set (o := d_soff d) in *. clearbody i o. clear d.
  apply N.eqb_neq in NZ.
  destruct c; try discriminate P; clear P; rewrite dasm_ext; unfold dasm; cbv zeta; rewrite ?HI, ?HO; clear HI HO; cbn [rbind further];
  cbn [is_pair_load is_pair_store src_slots dst_slots]; unfold pair_srcs, pair_data, pair_dests; cbv zeta; rewrite ?NZ.
  all: (eexists; split; [reflexivity|]); named_first; change tab with (String (ascii_of_nat 9) "").
  all: repeat wstep; cbn [pair_first pair_free pair_base] in *; unfold slot_elems.
  all: lazy [arguments flat_map reported]; fids.
  all: try match goal with H : andb _ _ = true |- _ => apply andb_prop in H as [PF PF'] end.
  all: fields0; rewrite ?PF, ?PF'; cbn [negb]; dcase2; fields1; fids; lazy [map app]; sayall.
Qed.

(** Vector loads and stores *)
Lemma prefix_split mn k : (k <= String.length mn)%nat ->
  mn = substring 0 k mn ++ substring k (String.length mn - k) mn /\ String.length (substring 0 k mn) = k.
Proof.
  revert k. induction mn as [|a r IH]; intros k L.
  - cbn in L. assert (k = O) by lia. subst. split; reflexivity.
  - destruct k as [|k].
    + split; [|reflexivity]. cbn. f_equal. clear. induction r; cbn; congruence.
    + cbn in L. destruct (IH k ltac:(lia)) as [E F]. cbn. split; [f_equal; exact E|now rewrite F].
Qed.
Lemma no_sep_mid p q d : plain (p ++ q) -> plain d -> plain (p ++ "seg" ++ d ++ q).
Proof.
  intros [_ B] [D D']. rewrite no_sep_app in B. apply andb_prop in B as [B1 B2].
  apply plain_app; [exact B1|]. split; [discriminate|]. cbn -[String.append]. rewrite !no_sep_app, D', B2. reflexivity.
Qed.
Lemma mewop_slice ic : slice 28 1 ic = 0 -> slice 26 3 ic = slice 26 2 ic.
Proof.
  intros H. apply N.bits_inj. intros j. rewrite !slice_testbit. rewrite slice_zero in H.
  destruct (N.ltb_spec j 2) as [L|L]; [replace (N.ltb j 3) with true by lia; reflexivity|].
  destruct (N.ltb_spec j 3); [|reflexivity]. cbn. assert (j = 2) by lia. subst. apply H. lia.
Qed.
Lemma vmem_named c ffm mn ic : is_vmem c = true -> plain mn -> nameable c ffm mn ic ->
  exists n, vmem_name ffm mn ic = Ok n /\ named c ffm mn ic n /\ plain n.
Proof.
  intros V PL N0. unfold nameable, named, segmented in *. rewrite V in *. cbn [andb] in *.
  unfold vmem_name. rewrite (masked_slice VF_mem_NF 29 3 _ eq_refl eq_refl eq_refl),
    (extract_slice VF_mem_NF 29 3 _ eq_refl eq_refl eq_refl), (extract_slice VF_mem_MEWOP 26 3 _ eq_refl eq_refl eq_refl).
  destruct (N.eqb (slice 29 3 ffm) 0); cbn [negb andb] in *; [|eauto].
  cbv zeta. destruct (N.eqb (slice 29 3 ic) 0); cbn [negb] in *; [eauto|].
  destruct (N0 eq_refl) as [M L]. rewrite (mewop_slice _ M). unfold mode_letters.
  pose proof (slice_lt 26 2 ic) as B.
  assert (K : forall k, (k <= 4)%nat -> exists n, with_seg mn k (slice 29 3 ic) = Ok n /\
     (exists p d q, mn = p ++ q /\ String.length p = k /\ n = p ++ "seg" ++ d ++ q /\
       numeral 10 d = Some (slice 29 3 ic + 1)%N) /\ plain n).
  { intros k Hk. destruct (prefix_split mn k ltac:(lia)) as [E F]. unfold with_seg.
    replace (Nat.ltb (String.length mn) k) with false by (symmetry; apply Nat.ltb_ge; lia).
    eexists. split; [reflexivity|]. split.
    - eexists _, _, _. repeat split; [exact E|exact F|apply numeral_dec].
    - apply no_sep_mid; [now rewrite <- E|apply dec_plain]. }
  destruct (slice 26 2 ic) as [|p]; [apply K; lia|].
  change (2 ^ 2)%N with 4%N in B. assert (p = 1 \/ p = 2 \/ p = 3)%positive as Q by lia; destruct Q as [Q | [Q | Q]]; subst p; apply K; lia.
Qed.
Lemma C50_vmem_line c ffm m ic mn u d : plain mn -> is_vmem c = true ->
  decode_info mn u (ext c ffm) m ic = Ok d -> nameable c ffm mn ic ->
  exists s n, x_dasm (ext c ffm) mn ic m = Ok s /\ named c ffm mn ic n /\ Forall2 says (words s) (Lit n :: line c ffm ic d).
Proof.
  intros PL V D N0. destruct (vmem_named _ _ _ _ V PL N0) as (nm & E & NM & PN).
  assert (P : is_pair c = false) by (destruct c; discriminate V || reflexivity).
  pose proof (shown_eq _ _ _ _ _ _ _ P D) as HS. unfold line. rewrite HS. clear HS P D N0.
  set (i := d_imm d) in *. set (o := d_soff d) in *. clearbody i o. clear d.
  destruct c; try discriminate V; clear V; rewrite dasm_ext; unfold dasm; cbv zeta; rewrite E; cbn [rbind further];
  match goal with |- context [shown_slots ?X] =>
    let s := eval lazy in (shown_slots X) in change (shown_slots X) with s end;
  (eexists _, nm; split; [reflexivity|]); (split; [exact NM|]); named_first; change tab with (String (ascii_of_nat 9) "");
  repeat wstep; fields; sayall.
Qed.

Lemma C50_reads_lemma c ffm m ic mn u d : plain mn ->
  decode_info mn u (ext c ffm) m ic = Ok d -> as_reported c ffm m ic -> nameable c ffm mn ic ->
  exists s n, x_dasm (ext c ffm) mn ic m = Ok s /\ named c ffm mn ic n /\ Forall2 says (words s) (Lit n :: line c ffm ic d).
Proof.
  intros PL D AR N0. destruct (is_vmem c) eqn:V; [eapply C50_vmem_line; eauto|].
  assert (X : exists s, x_dasm (ext c ffm) mn ic m = Ok s /\ Forall2 says (words s) (Lit mn :: line c ffm ic d)).
  { destruct (is_pair c) eqn:P; [eapply C50_pair_line|eapply C50_line]; eauto. }
  destruct X as (s & E & F). exists s, mn. repeat split; auto. unfold named, segmented. now rewrite V.
Qed.

(** ** What the line determines *)
Lemma sapp_cancel l a b : l ++ a = l ++ b -> a = b.
Proof. induction l; cbn; [auto|]. intros [= H]. auto. Qed.
Lemma dec_fun w l n n' : says w (Dec l n) -> says w (Dec l n') -> n = n'.
Proof. intros (d & -> & E) (d' & H & E'). apply sapp_cancel in H. congruence. Qed.
Lemma hex_fun w l n n' : says w (Hex l n) -> says w (Hex l n') -> n = n'.
Proof. intros (d & -> & E) (d' & H & E'). apply sapp_cancel in H. congruence. Qed.
Lemma signed_fun w z z' : says w (Signed z) -> says w (Signed z') -> z = z'.
Proof.
  cbn. destruct (Z.ltb_spec z 0), (Z.ltb_spec z' 0).
  - intros (d & -> & E) (d' & [= <-] & E'). rewrite E in E'. injection E' as E'. lia.
  - intros (d & -> & E). cbn. discriminate.
  - intros E (d & -> & E'). discriminate E.
  - intros E E'. rewrite E in E'. injection E' as E'. lia.
Qed.
Lemma oper_fun w e e' : says w (Operand e) -> says w (Operand e') -> e_val e = e_val e'.
Proof. cbn. congruence. Qed.
Lemma m_mf w n n' : says w (Dec "m" n) -> says w (Dec "mf" n') -> False.
Proof. intros (d & -> & E) (d' & H & E'). injection H as ->. discriminate E. Qed.
Lemma says_app ws l1 l2 : Forall2 says ws (l1 ++ l2)%list ->
  exists w1 w2, ws = (w1 ++ w2)%list /\ Forall2 says w1 l1 /\ Forall2 says w2 l2 /\ List.length w1 = List.length l1.
Proof.
  intros F. apply Forall2_app_inv_r in F as (w1 & w2 & F1 & F2 & ->). exists w1, w2. repeat split; auto. clear F2. induction F1; cbn; auto.
Qed.
Lemma app_same_length {A} (a b c d : list A) : (a ++ b)%list = (c ++ d)%list -> List.length a = List.length c -> a = c /\ b = d.
Proof.
  revert c. induction a as [|x a IH]; intros [|y c] E L; try discriminate L; [auto|].
  injection E as -> E. injection L as L. destruct (IH _ E L) as [-> ->]. auto.
Qed.
Lemma oper_vals ws l l' : Forall2 says ws (map Operand l) -> Forall2 says ws (map Operand l') -> map e_val l = map e_val l'.
Proof.
  revert l l'. induction ws as [|w ws IH]; intros l l' F F'; inversion F; inversion F'; subst;
  destruct l; try discriminate; destruct l'; try discriminate; [reflexivity|].
  cbn in *. repeat match goal with H : _ :: _ = _ :: _ |- _ => injection H as ? ?; subst end.
  f_equal; [eapply oper_fun; eauto|]. eapply IH; eauto.
Qed.
Ltac inv2 := repeat match goal with
  | H : Forall2 says _ [] |- _ => inversion H; clear H; subst
  | H : Forall2 says _ (_ :: _) |- _ => inversion H; clear H; subst
  | H : Forall2 says _ (mask_word ?f ?i) |- _ => unfold mask_word in H; destruct (_ && _) in H
  | H : Forall2 says _ (if ?b then _ else _) |- _ => destruct b eqn:?
  | H : _ :: _ = _ :: _ |- _ => injection H as ? ?; subst
  | H : [] = _ :: _ |- _ => discriminate H
  | H : _ :: _ = [] |- _ => discriminate H
  end.
Ltac funs := repeat match goal with
  | A : says ?w (Dec ?l ?n), B : says ?w (Dec ?l ?n') |- _ => pose proof (dec_fun _ _ _ _ A B); clear B
  | A : says ?w (Hex ?l ?n), B : says ?w (Hex ?l ?n') |- _ => pose proof (hex_fun _ _ _ _ A B); clear B
  | A : says ?w (Signed ?n), B : says ?w (Signed ?n') |- _ => pose proof (signed_fun _ _ _ A B); clear B
  end.
Lemma list4 {A} (a a' b b' c c' d d' : A) : a = a' -> b = b' -> c = c' -> d = d' -> [a; b; c; d] = [a'; b'; c'; d'].
Proof. congruence. Qed.
Lemma vtype_fun ws i i' : Forall2 says ws (vtype_words i) -> Forall2 says ws (vtype_words i') -> vtype_words i = vtype_words i'.
Proof.
  unfold vtype_words. intros F F'. inv2.
  repeat match goal with H : says _ (Lit _) |- _ => cbn in H; subst end.
  destruct (N.ltb (slice 0 3 i) 4), (N.ltb (slice 0 3 i') 4);
    try (exfalso; eapply m_mf; eassumption); funs;
    apply list4; apply f_equal || apply f_equal2; auto; symmetry; assumption.
Qed.
Lemma mask_fun ws ffm i i' : Forall2 says ws (mask_word ffm i) -> Forall2 says ws (mask_word ffm i') -> mask_word ffm i = mask_word ffm i'.
Proof. unfold mask_word. destruct (N.eqb _ 0 && N.eqb (slice 25 1 i) 0), (N.eqb (slice 25 1 ffm) 0 && N.eqb (slice 25 1 i') 0); intros F F'; inv2; reflexivity. Qed.
Lemma cons2 ws a a' r r' : Forall2 says ws (a :: r) -> Forall2 says ws (a' :: r') ->
  (forall w, says w a -> says w a' -> a = a') ->
  (forall vs, Forall2 says vs r -> Forall2 says vs r' -> r = r') -> a :: r = a' :: r'.
Proof. intros F F' A R. inversion F; subst. inversion F'; subst. f_equal; eauto. Qed.
Lemma hex_item w l n n' : says w (Hex l n) -> says w (Hex l n') -> Hex l n = Hex l n'.
Proof. intros A B. f_equal. eapply hex_fun; eauto. Qed.
Lemma dec_item w l n n' : says w (Dec l n) -> says w (Dec l n') -> Dec l n = Dec l n'.
Proof. intros A B. f_equal. eapply dec_fun; eauto. Qed.
Lemma signed_item w n n' : says w (Signed n) -> says w (Signed n') -> Signed n = Signed n'.
Proof. intros A B. f_equal. eapply signed_fun; eauto. Qed.
Lemma further_fun ws c ffm ic i o ic' i' o' : Forall2 says ws (further c ffm ic i o) -> Forall2 says ws (further c ffm ic' i' o') ->
  further c ffm ic i o = further c ffm ic' i' o'.
Proof.
  revert ws. destruct c; cbn [further]; unfold offset_word; try destruct (N.eqb _ 0); intros ws F F';
  repeat first [ reflexivity | eapply mask_fun; eassumption | eapply vtype_fun; eassumption
  | eapply cons2; [exact F|exact F'|intros ? HA HB; first [exact (hex_item _ _ _ _ HA HB)|exact (dec_item _ _ _ _ HA HB)|exact (signed_item _ _ _ HA HB)]|clear ws F F'; intros ws F F'] ].
  all: match goal with |- ?G => idtac G end.
Qed.

(** Every operand reported is either shown or an implicit register. *)
Definition loc_eqb (a b : loc) : bool :=
  match a, b with
  | LReg x, LReg y | LAlways x, LAlways y | LCReg x, LCReg y | LConst x, LConst y => N.eqb x y
  | _, _ => false
  end.
Lemma loc_eqb_ok a b : loc_eqb a b = true -> a = b.
Proof. destruct a, b; cbn; try discriminate; intros H; apply N.eqb_eq in H; congruence. Qed.
Definition slot_determined (c : xcls) (ffm : N) (s : slot) : bool :=
  if loc_fixed (sl_loc s) ffm then true else match sl_loc s with LConst _ => true | l => existsb (fun t => loc_eqb l (sl_loc t)) (shown_slots c) end.
Lemma determined_ok c ffm : shows_operands c ffm = true -> forallb (slot_determined c ffm) (src_slots c ++ dst_slots c) = true.
Proof.
  destruct c; cbn [shows_operands]; intros H;
  try (apply negb_true_iff in H); lazy [src_slots dst_slots Datatypes.app forallb andb slot_determined sl_loc loc_fixed s_reg s_always s_sdata s_implied s_creg s_csdata s_const s_long];
  rewrite ?H; repeat match goal with |- context [N.eqb (slice ?a ?b ffm) 0] => destruct (N.eqb (slice a b ffm) 0) end; reflexivity.
Qed.
Lemma shown_vals c ffm m ic ic' :
  map e_val (map (slot_elem m ic) (live ffm (shown_slots c))) = map e_val (map (slot_elem m ic') (live ffm (shown_slots c))) ->
  forall t, In t (shown_slots c) -> loc_fixed (sl_loc t) ffm = false -> loc_val (sl_loc t) ic = loc_val (sl_loc t) ic'.
Proof.
  rewrite !map_map. cbn [slot_elem e_val]. intros E t I F.
  assert (I' : In t (live ffm (shown_slots c))) by (apply filter_In; split; [exact I|now rewrite F]).
  clear I F. revert E I'. generalize (live ffm (shown_slots c)). induction l as [|a r IH]; cbn; [easy|].
  intros [= E1 E2] [->|I]; auto.
Qed.
Lemma determined_elems c ffm m ic ic' ss : forallb (slot_determined c ffm) ss = true ->
  (forall t, In t (shown_slots c) -> loc_fixed (sl_loc t) ffm = false -> loc_val (sl_loc t) ic = loc_val (sl_loc t) ic') ->
  slot_elems m ss ffm ic = slot_elems m ss ffm ic'.
Proof.
  intros F V. unfold slot_elems, live. induction ss as [|s r IH]; [reflexivity|]. cbn [forallb] in F.
  apply andb_prop in F as [D F]. cbn [filter]. unfold slot_determined in D. destruct (loc_fixed (sl_loc s) ffm) eqn:L; cbn [negb map]; [auto|].
  rewrite IH by exact F. f_equal. unfold slot_elem. f_equal.
  destruct (sl_loc s) eqn:Q; try reflexivity; apply existsb_exists in D as (t & I & E); apply loc_eqb_ok in E; rewrite E in *; auto.
Qed.
Lemma same_elems c ffm m ic ic' mn u u' d d' : is_pair c = false -> shows_operands c ffm = true ->
  decode_info mn u (ext c ffm) m ic = Ok d -> decode_info mn u' (ext c ffm) m ic' = Ok d' ->
  map e_val (shown c d) = map e_val (shown c d') ->
  oi_elems (d_src_oi d) = oi_elems (d_src_oi d') /\ oi_elems (d_dst_oi d) = oi_elems (d_dst_oi d').
Proof.
  intros P S D D' E. rewrite (shown_eq _ _ _ _ _ _ _ P D), (shown_eq _ _ _ _ _ _ _ P D') in E.
  pose proof (shown_vals _ _ _ _ _ E) as V. pose proof (determined_ok c ffm S) as K. rewrite forallb_app in K.
  apply andb_prop in K as [K1 K2]. assert (PK : pair_ok c ffm) by (intros Q; congruence).
  rewrite (src_list _ _ _ _ _ _ _ PK D), (src_list _ _ _ _ _ _ _ PK D'), (dst_list _ _ _ _ _ _ _ PK D), (dst_list _ _ _ _ _ _ _ PK D').
  unfold is_pair in P. apply orb_false_iff in P as [-> ->].
  split; eapply determined_elems; eauto.
Qed.
Lemma same_pair_elems c ffm m ic ic' mn u u' d d' : is_pair c = true ->
  as_reported c ffm m ic -> as_reported c ffm m ic' ->
  decode_info mn u (ext c ffm) m ic = Ok d -> decode_info mn u' (ext c ffm) m ic' = Ok d' ->
  map e_val (shown c d) = map e_val (shown c d') ->
  oi_elems (d_src_oi d) = oi_elems (d_src_oi d') /\ oi_elems (d_dst_oi d) = oi_elems (d_dst_oi d').
Proof.
  intros P [PO _] [PO' _] D D'. destruct (PO P) as [PF NZ]. destruct (PO' P) as [_ NZ']. clear PO PO'.
  assert (PK : pair_ok c ffm) by (intros _; exact PF).
  unfold shown.
  rewrite (src_list _ _ _ _ _ _ _ PK D), (src_list _ _ _ _ _ _ _ PK D'), (dst_list _ _ _ _ _ _ _ PK D), (dst_list _ _ _ _ _ _ _ PK D').
  clear PK D D'. apply N.eqb_neq in NZ, NZ'.
  destruct c; try discriminate P; clear P; cbn [is_pair_load is_pair_store src_slots dst_slots]; unfold pair_srcs, pair_data, pair_dests; cbv zeta; rewrite ?NZ, ?NZ'.
  all: clear NZ NZ'; cbn [pair_first pair_free pair_base] in *; unfold slot_elems.
  all: lazy [arguments flat_map reported]; fids.
  all: try match goal with H : andb _ _ = true |- _ => apply andb_prop in H as [PF PF'] end.
  all: fields0; rewrite ?PF, ?PF'; cbn [negb]; dcase2; fields1; fids; lazy [map app].
  all: cbn [e_val].
  all: intros E; injection E; intros.
  all: repeat match goal with H : @eq N ?a ?b |- _ => lazymatch a with context [slice] => rewrite ?H; clear H end end; auto.
Qed.

(** The immediate, from the words of the line. *)
Lemma off_inj o o' : (- 2 ^ 63 <= o < 2 ^ 63)%Z -> (- 2 ^ 63 <= o' < 2 ^ 63)%Z ->
  offset_word o = offset_word o' -> o = o'.
Proof.
  unfold offset_word. intros B B' E.
  assert (E' : Z.to_N (o mod 2 ^ 64) = Z.to_N (o' mod 2 ^ 64)) by (now injection E).
  clear E. change (2 ^ 64)%Z with 18446744073709551616%Z in *. change (2 ^ 63)%Z with 9223372036854775808%Z in *.
  pose proof (Z.mod_pos_bound o 18446744073709551616 eq_refl). pose proof (Z.mod_pos_bound o' 18446744073709551616 eq_refl).
  pose proof (Z.div_mod o 18446744073709551616 ltac:(lia)). pose proof (Z.div_mod o' 18446744073709551616 ltac:(lia)). lia.
Qed.
Lemma twos_inj b v v' z : v < 2 ^ b -> v' < 2 ^ b -> twos_complement b v z -> twos_complement b v' z -> v = v'.
Proof.
  intros B B' [_ M] [_ M']. rewrite M in M'. rewrite !Z.mod_small in M'; [lia| |];
  (split; [lia|]); change 2%Z with (Z.of_N 2); rewrite <- N2Z.inj_pow; lia.
Qed.
Lemma twos_range b v z : 0 < b -> b < 65 -> twos_complement b v z -> (- 2 ^ 63 <= z < 2 ^ 63)%Z.
Proof.
  intros P L [[H1 H2] _]. assert (2 ^ (Z.of_N b - 1) <= 2 ^ 63)%Z by (apply Z.pow_le_mono_r; lia). lia.
Qed.
(** For each format: how its immediate follows from the line. *)
Inductive seen := SeenImm | SeenOff | Constant.
Definition seen_as (c : xcls) : seen :=
  match imm_table c with
  | NoImm | ConstImm _ _ => Constant
  | ImmSegs _ _ _ => match c with
      | X_B | X_CB | X_CI | X_CI_addi | X_CI_addiw | X_CI_sp | X_CI_rD_only | X_CI_rD_shifted | X_CJ
      | X_CJAL | X_I | X_I_mv | X_I_load | X_I_load_pair | X_J | X_S | X_S_pair | X_U | X_PF_hint | X_V_simm => SeenOff
      | _ => SeenImm end
  end.
Lemma seen_further c ffm ic i o ic' i' o' : shows_immediate c ffm = true ->
  further c ffm ic i o = further c ffm ic' i' o' ->
  match seen_as c with SeenImm => i = i' | SeenOff => o = o' \/ offset_word o = offset_word o' | Constant => True end.
Proof.
  destruct c; cbn [shows_immediate further seen_as imm_table]; intros S E; try exact I; try discriminate S;
  try rewrite S in E; try (right; congruence).
  all: try (injection E; intros; congruence).
  all: left; injection E; intros; congruence.
Qed.
Lemma same_imm c ffm m ic ic' mn u u' d d' : ic < 2 ^ 64 -> ic' < 2 ^ 64 -> shows_immediate c ffm = true ->
  decode_info mn u (ext c ffm) m ic = Ok d -> decode_info mn u' (ext c ffm) m ic' = Ok d' ->
  further c ffm ic (d_imm d) (d_soff d) = further c ffm ic' (d_imm d') (d_soff d') ->
  d_imm d = d_imm d' /\ d_soff d = d_soff d'.
Proof.
  intros B B' S D D' F. apply seen_further in F; [|exact S].
  pose proof (decoded_imm _ _ _ _ _ _ _ B D) as I. pose proof (decoded_imm _ _ _ _ _ _ _ B' D') as I'.
  destruct (seen_as c) eqn:Q.
  - split; [exact F|]. assert (NP : c <> X_PF_hint) by (intros ->; discriminate Q).
    pose proof (decoded_offset _ _ _ _ _ _ _ NP B D) as O. pose proof (decoded_offset _ _ _ _ _ _ _ NP B' D') as O'.
    rewrite F in O. unfold seen_as in Q. destruct (imm_table c) as [| |l k [|p]]; cbn [offset_of] in *; try congruence.
    eapply twos_unique; eauto. lia.
  - assert (X : {c = X_PF_hint} + {c <> X_PF_hint}) by (destruct c; (left; reflexivity) || (right; discriminate)).
    destruct X as [->|NP].
    + apply decode_inv in D as (_ & _ & _ & _ & _ & _ & _ & _ & _ & _ & _ & _ & HI & HO & _).
      apply decode_inv in D' as (_ & _ & _ & _ & _ & _ & _ & _ & _ & _ & _ & _ & HI' & HO' & _).
      destruct (PF_soff ffm ic B) as (v & E1 & L & E2). destruct (PF_soff ffm ic' B') as (v' & E1' & L' & E2').
      rewrite HI in E1. rewrite HI' in E1'. rewrite HO in E2. rewrite HO' in E2'.
      injection E1 as E1. injection E1' as E1'. injection E2 as E2. injection E2' as E2'.
      rewrite E1, E1', E2, E2' in *. assert (Z.of_N v = Z.of_N v'); [|split; lia].
      destruct F as [F|F]; [exact F|]. apply off_inj in F; [exact F| |];
      change (2 ^ 63)%Z with 9223372036854775808%Z; lia.
    + pose proof (decoded_offset _ _ _ _ _ _ _ NP B D) as O. pose proof (decoded_offset _ _ _ _ _ _ _ NP B' D') as O'.
      pose proof (table_ok c) as T. unfold seen_as in Q.
      destruct (imm_table c) as [| |l k [|p]] eqn:TT; try discriminate Q.
      * exfalso. clear - Q TT. destruct c; discriminate.
      * cbn [offset_of desc_ok] in *. apply andb_true_iff in T as [T _]. apply andb_true_iff in T as [T1 T2].
        apply N.ltb_lt in T1.
        assert (E : d_soff d = d_soff d').
        { destruct F as [F|F]; [exact F|]. apply off_inj in F; [exact F| |]; (eapply twos_range; [| |eassumption]); lia. }
        split; [|exact E]. rewrite E in O. eapply twos_inj; eauto; rewrite ?I, ?I'; cbn [imm_of]; now apply imm_value_lt.
  - unfold seen_as in Q.
    assert (NP : c <> X_PF_hint) by (intros ->; discriminate Q).
    pose proof (decoded_offset _ _ _ _ _ _ _ NP B D) as O. pose proof (decoded_offset _ _ _ _ _ _ _ NP B' D') as O'.
    rewrite I, I'. destruct (imm_table c) as [| |l k s]; cbn [imm_of offset_of] in *; try (split; congruence).
    destruct c; discriminate.
Qed.

(** The number of fields, from the name. *)
Lemma sapp_length a b : String.length (a ++ b) = (String.length a + String.length b)%nat.
Proof. induction a; cbn; auto. Qed.
Lemma sapp_split a b c d : a ++ b = c ++ d -> String.length a = String.length c -> a = c /\ b = d.
Proof.
  revert c. induction a as [|x a IH]; intros [|y c] E L; try discriminate L; [auto|].
  injection E as -> E. injection L as L. destruct (IH _ E L) as [-> ->]. auto.
Qed.
Lemma sapp_cancel_r a b q : a ++ q = b ++ q -> a = b.
Proof.
  intros E. assert (L : String.length a = String.length b).
  { apply (f_equal String.length) in E. rewrite !sapp_length in E. lia. }
  apply (sapp_split _ _ _ _ E L).
Qed.
Lemma same_nf c ffm mn ic ic' n : is_vmem c = true -> slice 29 3 ffm = 0 -> slice 26 2 ic = slice 26 2 ic' ->
  named c ffm mn ic n -> named c ffm mn ic' n -> slice 29 3 ic = slice 29 3 ic'.
Proof.
  unfold named, segmented. intros -> -> M. change (N.eqb 0 0) with true. cbn [andb].
  assert (G : forall i j : N, (exists p d q, mn = p ++ q /\ String.length p = mode_letters i /\ n = p ++ "seg" ++ d ++ q /\ numeral 10 d = Some j) -> n <> mn).
  { intros i j (p & d & q & -> & _ & -> & _) E. apply (f_equal String.length) in E. rewrite !sapp_length in E. cbn in E. lia. }
  destruct (N.eqb (slice 29 3 ic) 0) eqn:E, (N.eqb (slice 29 3 ic') 0) eqn:E'; cbn [negb].
  - intros _ _. lia.
  - intros A Z. exfalso. eapply G; eauto.
  - intros Z A. exfalso. eapply G; eauto.
  - intros (p & d & q & Q & L & -> & D) (p' & d' & q' & Q' & L' & N1 & D').
    unfold mode_letters in *. rewrite <- M in L'. rewrite <- L in L'.
    rewrite Q in Q'. apply sapp_split in Q' as [<- <-]; [|auto].
    apply sapp_cancel in N1. change (String "s" (String "e" (String "g" ?x))) with ("seg" ++ x) in N1. apply sapp_cancel in N1. apply sapp_cancel_r in N1.
    rewrite N1 in D. rewrite D in D'. injection D' as D'. lia.
Qed.

Lemma C50_same_text_lemma c ffm m ic ic' mn u u' d d' s :
  plain mn -> ic < 2 ^ 64 -> ic' < 2 ^ 64 ->
  decode_info mn u (ext c ffm) m ic = Ok d -> decode_info mn u' (ext c ffm) m ic' = Ok d' ->
  as_reported c ffm m ic -> as_reported c ffm m ic' -> nameable c ffm mn ic -> nameable c ffm mn ic' ->
  x_dasm (ext c ffm) mn ic m = Ok s -> x_dasm (ext c ffm) mn ic' m = Ok s ->
  (shows_operands c ffm = true -> oi_elems (d_src_oi d) = oi_elems (d_src_oi d') /\ oi_elems (d_dst_oi d) = oi_elems (d_dst_oi d')) /\
  (shows_immediate c ffm = true -> d_imm d = d_imm d' /\ d_soff d = d_soff d') /\
  further c ffm ic (d_imm d) (d_soff d) = further c ffm ic' (d_imm d') (d_soff d') /\
  (is_vmem c = true -> slice 29 3 ffm = 0 -> slice 26 2 ic = slice 26 2 ic' -> slice 29 3 ic = slice 29 3 ic').
Proof.
  intros PL B B' D D' A A' NM NM' X X'.
  destruct (C50_reads_lemma _ _ _ _ _ _ _ PL D A NM) as (s1 & n & E & HN & F).
  destruct (C50_reads_lemma _ _ _ _ _ _ _ PL D' A' NM') as (s2 & n' & E' & HN' & F').
  rewrite X in E. injection E as <-. rewrite X' in E'. injection E' as <-.
  inversion F as [|w ? ws ? W1 F1 Q1]; subst. rewrite <- Q1 in F'. inversion F' as [|? ? ? ? W2 F2]; subst.
  cbn in W1, W2. rewrite W1 in W2. subst n'. unfold line in F1, F2.
  apply says_app in F1 as (a & b & -> & Fa & Fb & La). apply says_app in F2 as (a' & b' & Eq & Fa' & Fb' & La').
  assert (LE : List.length (map Operand (shown c d)) = List.length (map Operand (shown c d'))).
  { destruct (is_pair c) eqn:P.
    - clear - P A A' D D'. destruct A as [PO _], A' as [PO' _]. destruct (PO P) as [PF NZ]. destruct (PO' P) as [_ NZ'].
      assert (PK : pair_ok c ffm) by (intros _; exact PF). unfold shown.
      rewrite (src_list _ _ _ _ _ _ _ PK D), (src_list _ _ _ _ _ _ _ PK D'), (dst_list _ _ _ _ _ _ _ PK D), (dst_list _ _ _ _ _ _ _ PK D').
      clear PK D D' PO PO'. apply N.eqb_neq in NZ, NZ'.
      destruct c; try discriminate P; clear P; cbn [is_pair_load is_pair_store src_slots dst_slots]; unfold pair_srcs, pair_data, pair_dests; cbv zeta; rewrite ?NZ, ?NZ'.
      all: clear NZ NZ'; cbn [pair_first pair_free pair_base] in *; unfold slot_elems.
      all: lazy [arguments flat_map reported]; fids.
      all: try match goal with H : andb _ _ = true |- _ => apply andb_prop in H as [PF PF'] end.
      all: fields0; rewrite ?PF, ?PF'; cbn [negb]; dcase2; fields1; fids; lazy [map app]; reflexivity.
    - rewrite (shown_eq _ _ _ _ _ _ _ P D), (shown_eq _ _ _ _ _ _ _ P D'). now rewrite !map_length. }
  apply app_same_length in Eq as [<- <-]; [|congruence].
  pose proof (oper_vals _ _ _ Fa Fa') as V. pose proof (further_fun _ _ _ _ _ _ _ _ _ Fb Fb') as G.
  split; [|split; [|split]].
  - intros S. destruct (is_pair c) eqn:P; [exact (same_pair_elems _ _ _ _ _ _ _ _ _ _ P A A' D D' V)|exact (same_elems _ _ _ _ _ _ _ _ _ _ P S D D' V)].
  - intros S. exact (same_imm _ _ _ _ _ _ _ _ _ _ B B' S D D' G).
  - exact G.
  - intros V1 V2 V3. exact (same_nf _ _ _ _ _ _ V1 V2 V3 HN HN').
Qed.
