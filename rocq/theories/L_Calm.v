(** Extractors and the decode record never throw the decoder's own exceptions. *)
From Coq Require Import NArith ZArith List Bool String Lia.
From Verif Require Import M_Base M_Field M_Forms M_Meta M_OperandInfo M_Extract M_Decoded.
Import ListNotations.
Local Open Scope N_scope.

Definition calm {A} (r : res A) : Prop :=
  match r with Throw EIllegalOpcode | Throw EUnknownOpcode | Throw EUnknownMnemonic => False | _ => True end.
Lemma calm_bind {A B} (r : res A) (k : A -> res B) : calm r -> (forall a, calm (k a)) -> calm (rbind r k).
Proof. destruct r as [a|e| |]; cbn; auto. Qed.
Record calmX (x : Ext) : Prop := mkCX {
  cx_illop : forall ic, calm (x_illop x ic);
  cx_hint : forall ic, calm (x_hint x ic);
  cx_src : forall ic, calm (x_src x ic);
  cx_addr : forall ic, calm (x_addr x ic);
  cx_data : forall ic, calm (x_data x ic);
  cx_dst : forall ic, calm (x_dst x ic);
  cx_srcT : forall ic m k, calm (x_srcT x ic m k);
  cx_dstT : forall ic m k, calm (x_dstT x ic m k);
  cx_srcI : forall ic m b, calm (x_srcI x ic m b);
  cx_dstI : forall ic m b, calm (x_dstI x ic m b);
  cx_imm : forall ic, calm (x_imm x ic);
  cx_soff : forall ic, calm (x_soff x ic);
  cx_spec : forall s ic, calm (x_spec x s ic) }.
Ltac ox := intros H []; constructor; cbn; auto.
Lemma cx_o_illop v b : (forall ic, calm (v ic)) -> calmX b -> calmX (o_illop v b). Proof. ox. Qed.
Lemma cx_o_hint v b : (forall ic, calm (v ic)) -> calmX b -> calmX (o_hint v b). Proof. ox. Qed.
Lemma cx_o_src v b : (forall ic, calm (v ic)) -> calmX b -> calmX (o_src v b). Proof. ox. Qed.
Lemma cx_o_addr v b : (forall ic, calm (v ic)) -> calmX b -> calmX (o_addr v b). Proof. ox. Qed.
Lemma cx_o_data v b : (forall ic, calm (v ic)) -> calmX b -> calmX (o_data v b). Proof. ox. Qed.
Lemma cx_o_dst v b : (forall ic, calm (v ic)) -> calmX b -> calmX (o_dst v b). Proof. ox. Qed.
Lemma cx_o_srcT v b : (forall ic m k, calm (v ic m k)) -> calmX b -> calmX (o_srcT v b). Proof. ox. Qed.
Lemma cx_o_dstT v b : (forall ic m k, calm (v ic m k)) -> calmX b -> calmX (o_dstT v b). Proof. ox. Qed.
Lemma cx_o_srcI v b : (forall ic m k, calm (v ic m k)) -> calmX b -> calmX (o_srcI v b). Proof. ox. Qed.
Lemma cx_o_dstI v b : (forall ic m k, calm (v ic m k)) -> calmX b -> calmX (o_dstI v b). Proof. ox. Qed.
Lemma cx_o_immT v b : calmX b -> calmX (o_immT v b). Proof. intros []. constructor; cbn; auto. Qed.
Lemma cx_o_imm v b : (forall ic, calm (v ic)) -> calmX b -> calmX (o_imm v b). Proof. ox. Qed.
Lemma cx_o_soff v b : (forall ic, calm (v ic)) -> calmX b -> calmX (o_soff v b). Proof. ox. Qed.
Lemma cx_o_spec v b : (forall s ic, calm (v s ic)) -> calmX b -> calmX (o_spec v b). Proof. ox. Qed.
Lemma cx_o_dasm v b : calmX b -> calmX (o_dasm v b). Proof. intros []. constructor; cbn; auto. Qed.


Lemma calm_add_elem o e : calm (add_elem o e).
Proof.
  unfold add_elem. cbv zeta. destruct (e_fid e) as [f|]; [|exact I]. destruct (oi_fids o f); [|exact I].
  unfold rassert. destruct (fi_matches _ _); exact I.
Qed.
Lemma calm_app_u i o ic m f ffm fl sd sx : calm (app_u i o ic m f ffm fl sd sx).
Proof. unfold app_u. destruct (masked _ _); [exact I|]. destruct (_ || _); [apply calm_add_elem|exact I]. Qed.
Lemma calm_app_c o ic m f ffm fl sd : calm (app_c o ic m f ffm fl sd).
Proof. unfold app_c. destruct (masked _ _); [exact I|apply calm_add_elem]. Qed.
Lemma calm_infos ffm l : forall o ic m sx, calm (infos ffm l o ic m sx).
Proof. induction l as [|[[f g] sd] l IH]; intros; cbn [infos]; [exact I|]. apply calm_bind; [apply calm_app_u|auto]. Qed.
Lemma calm_cinfos ffm l : forall o ic m, calm (cinfos ffm l o ic m).
Proof. induction l as [|[[f g] sd] l IH]; intros; cbn [cinfos]; [exact I|]. apply calm_bind; [apply calm_app_c|auto]. Qed.
Lemma calm_typed all bit ffm l ic m k : (forall ic, calm (all ic)) -> calm (typed all bit ffm l ic m k).
Proof. intros H. unfold typed. destruct (is_none_ot m k); [exact I|]. destruct (is_all_ot m k); [auto|exact I]. Qed.
Lemma calm_typed_x0 all r ic m k : (forall ic, calm (all ic)) -> calm (typed_x0 all r ic m k).
Proof.
  intros H. unfold typed_x0.
  repeat match goal with |- calm (if ?b then _ else _) => destruct b | |- calm (match ?b with _ => _ end) => destruct b end;
  auto; try exact I. 
Qed.
Lemma calm_spec_base s ic : calm (spec_base s ic).
Proof. destruct s; exact I. Qed.
Lemma calm_spec_of ffm l s ic : calm (spec_of ffm l s ic).
Proof.
  unfold spec_of. destruct (find _ _) as [[[? ?] ?]|]; [|apply calm_spec_base]. destruct (_ && _); exact I.
Qed.
Lemma calm_sign_extend v p : calm (sign_extend v p).
Proof. unfold sign_extend. repeat match goal with |- calm (if ?b then _ else _) => destruct b | |- calm (rbind _ _) => apply calm_bind; intros | |- calm (rassert ?b) => destruct b end; exact I. Qed.
Lemma calm_rng x y : calm (rng x y).
Proof. unfold rng. repeat match goal with |- calm (if ?b then _ else _) => destruct b | |- calm (rbind _ _) => apply calm_bind; intros | |- calm (rassert ?b) => destruct b end; exact I. Qed.
Lemma calm_rng1 x : calm (rng1 x).
Proof. unfold rng1. destruct (_ <? _); exact I. Qed.
Lemma calm_sequence {A} (l : list (res A)) : Forall calm l -> calm (sequence l).
Proof. induction 1; cbn [sequence]; [exact I|]. apply calm_bind; [auto|]. intros. apply calm_bind; [auto|intros; exact I]. Qed.
Lemma calm_swz v rs : Forall calm rs -> calm (swz v rs).
Proof. intros H. unfold swz. apply calm_bind; [now apply calm_sequence|intros; exact I]. Qed.
Lemma calm_pair_up m : calm (pair_up m).
Proof. unfold pair_up. repeat match goal with |- calm (if ?b then _ else _) => destruct b | |- calm (rbind _ _) => apply calm_bind; intros | |- calm (rassert ?b) => destruct b end; exact I. Qed.
Lemma calm_second o i f : calm (add_second o i f).
Proof. unfold add_second. destruct (nth_error _ _); [apply calm_add_elem|exact I]. Qed.
Lemma calm_second_rs2 o i f : calm (add_second_rs2 o i f).
Proof. unfold add_second_rs2. destruct (nth_error _ _); [|exact I]. unfold rassert. destruct (ofid_eqb _ _); [apply calm_add_elem|exact I]. Qed.
Lemma calm_x_base it self : calmX self -> calmX (x_base it self).
Proof. intros S. constructor; intros; try exact I; [|apply calm_spec_base]. cbn. apply calm_bind; [apply S|intros; exact I]. Qed.

Ltac calm1 :=
  match goal with
  | |- calm (Ok _) => exact I
  | |- calm UB => exact I
  | |- calm AssertFail => exact I
  | |- calm (rbind _ _) => apply calm_bind; [|intros]
  | |- calm (if ?b then _ else _) => destruct b
  | |- calm (match ?b with _ => _ end) => destruct b
  | |- calm (let _ := _ in _) => cbv zeta
  | |- calm (x_illop ?x _) => apply (cx_illop x)
  | |- calm (x_hint ?x _) => apply (cx_hint x)
  | |- calm (x_src ?x _) => apply (cx_src x)
  | |- calm (x_addr ?x _) => apply (cx_addr x)
  | |- calm (x_data ?x _) => apply (cx_data x)
  | |- calm (x_dst ?x _) => apply (cx_dst x)
  | |- calm (x_srcT ?x _ _ _) => apply (cx_srcT x)
  | |- calm (x_dstT ?x _ _ _) => apply (cx_dstT x)
  | |- calm (x_srcI ?x _ _ _) => apply (cx_srcI x)
  | |- calm (x_dstI ?x _ _ _) => apply (cx_dstI x)
  | |- calm (x_imm ?x _) => apply (cx_imm x)
  | |- calm (x_soff ?x _) => apply (cx_soff x)
  | |- calm (x_spec ?x _ _) => apply (cx_spec x)
  | |- calm (add_elem _ _) => apply calm_add_elem
  | |- calm (app_u _ _ _ _ _ _ _ _ _) => apply calm_app_u
  | |- calm (app_c _ _ _ _ _ _ _) => apply calm_app_c
  | |- calm (infos _ _ _ _ _ _) => apply calm_infos
  | |- calm (cinfos _ _ _ _ _) => apply calm_cinfos
  | |- calm (typed _ _ _ _ _ _ _) => apply calm_typed; intros
  | |- calm (typed_x0 _ _ _ _ _) => apply calm_typed_x0; intros
  | |- calm (spec_of _ _ _ _) => apply calm_spec_of
  | |- calm (spec_base _ _) => apply calm_spec_base
  | |- calm (sign_extend _ _) => apply calm_sign_extend
  | |- calm (rng _ _) => apply calm_rng
  | |- calm (rng1 _) => apply calm_rng1
  | |- calm (swz _ _) => apply calm_swz; repeat constructor
  | |- calm (pair_up _) => apply calm_pair_up
  | |- calm (add_second _ _ _) => apply calm_second
  | |- calm (add_second_rs2 _ _ _) => apply calm_second_rs2
  | |- calm ?t => let h := head_of t in unfold h
  end
with head_of t := match t with ?f _ => head_of f | _ => t end.
Ltac cx1 :=
  match goal with
  | |- calmX (o_illop _ _) => apply cx_o_illop; [intros|]
  | |- calmX (o_hint _ _) => apply cx_o_hint; [intros|]
  | |- calmX (o_src _ _) => apply cx_o_src; [intros|]
  | |- calmX (o_addr _ _) => apply cx_o_addr; [intros|]
  | |- calmX (o_data _ _) => apply cx_o_data; [intros|]
  | |- calmX (o_dst _ _) => apply cx_o_dst; [intros|]
  | |- calmX (o_srcT _ _) => apply cx_o_srcT; [intros|]
  | |- calmX (o_dstT _ _) => apply cx_o_dstT; [intros|]
  | |- calmX (o_srcI _ _) => apply cx_o_srcI; [intros|]
  | |- calmX (o_dstI _ _) => apply cx_o_dstI; [intros|]
  | |- calmX (o_immT _ _) => apply cx_o_immT
  | |- calmX (o_imm _ _) => apply cx_o_imm; [intros|]
  | |- calmX (o_soff _ _) => apply cx_o_soff; [intros|]
  | |- calmX (o_spec _ _) => apply cx_o_spec; [intros|]
  | |- calmX (x_base _ _) => apply calm_x_base
  | |- calmX (let _ := _ in _) => cbv zeta
  | H : calmX ?x |- calmX ?x => exact H
  | |- calmX ?t => let h := head_of t in unfold h
  end.
Lemma body_calm c ffm self : calmX self -> calmX (xcls_body c ffm self).
Proof.
  intros S. destruct c; cbn [xcls_body]; repeat first [cx1|calm1].
Qed.
Lemma bottom_calm : calmX bottom.
Proof. constructor; intros; exact I. Qed.
Lemma ext_calm c ffm : calmX (ext c ffm).
Proof. unfold ext, tie. apply cx_o_dasm. repeat apply body_calm. apply bottom_calm. Qed.

Lemma calm_six f : (forall k, calm (f k)) -> calm (six f).
Proof. intros H. unfold six. repeat (apply calm_bind; [apply H|intros]). exact I. Qed.
Lemma calm_agree_loop l : forall b ot, calm (agree_loop l b ot).
Proof. induction l as [|e l IH]; intros; cbn [agree_loop]; [exact I|]. destruct (_ <=? _); [exact I|]. destruct (_ && _); [exact I|auto]. Qed.
Lemma calm_assert_agree l b ot : calm (assert_agree l b ot).
Proof.
  unfold assert_agree. apply calm_bind; [|intros []; exact I]. unfold agree_opinfo.
  destruct l; [destruct (negb _); [exact I|]|]; apply calm_agree_loop.
Qed.
Lemma calm_assert_agree_kinds l b ks : calm (assert_agree_kinds l b ks).
Proof. induction ks; cbn [assert_agree_kinds]; [exact I|]. apply calm_bind; [apply calm_assert_agree|auto]. Qed.
Lemma calm_decode_info mn uid x m ic : calmX x -> calm (decode_info mn uid x m ic).
Proof.
  intros []. unfold decode_info. repeat (apply calm_bind; [solve [auto|apply calm_six; auto]|intros]).
  apply calm_bind; [|intros; exact I].
  destruct (ic =? 0); [exact I|].
  apply calm_bind; intros; unfold assert_agree_all; (apply calm_bind; [apply calm_assert_agree|intros; apply calm_assert_agree_kinds]).
Qed.
(** Whether an opcode is reserved is always answered. *)
Lemma illop_total c ffm ic : exists b, x_illop (ext c ffm) ic = Ok b.
Proof. destruct c; eexists; reflexivity. Qed.
