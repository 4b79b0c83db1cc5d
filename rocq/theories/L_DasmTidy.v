(** Proofs for the punctuation of the disassembly (C50). *)
From Coq Require Import NArith ZArith List Bool String Ascii Lia.
From Verif Require Import M_Base M_Field M_Forms M_Meta M_OperandInfo M_Extract M_Decoded.
From Verif Require Import S_Bits S_Slots S_Pairs S_Regs S_Dasm S_Imm L_Bits L_Slots L_Imm L_Decoded L_Pairs L_Regs L_Dasm.
Import ListNotations.
Local Open Scope N_scope.
Local Open Scope string_scope.

Lemma tidy_char a s p : is_sep a = false -> tidy_from p (String a s) = tidy_from InWord s.
Proof.
  unfold is_sep. intros W. apply orb_false_iff in W as [W W3]. apply orb_false_iff in W as [W1 W2]. cbn [tidy_from]. now rewrite W1, W2, W3.
Qed.
Lemma tidy_plain w s p : plain w -> tidy_from p (w ++ s) = tidy_from InWord s.
Proof.
  intros [E W]. destruct w as [|a w]; [congruence|]. clear E. revert a p W. induction w as [|b w IH]; intros a p W; cbn [no_sep append] in *.
  - apply tidy_char. apply andb_prop in W as [W _]. now apply negb_true_iff in W.
  - apply andb_prop in W as [W1 W2]. apply negb_true_iff in W1. rewrite tidy_char by exact W1. exact (IH b InWord W2).
Qed.
Lemma tidy_plain_end w p : plain w -> tidy_from p w = true.
Proof. intros P. rewrite <- (sapp_nil w). now rewrite tidy_plain. Qed.
Lemma tidy_vm f ffm ic : tidy_from InWord (vm_text f ffm ic) = true.
Proof. unfold vm_text. destruct (masked f ffm); [reflexivity|]. destruct (N.eqb (f_extract f ic) 0); reflexivity. Qed.
Lemma tidy_tab p s : tidy_from p (tab ++ s) = tidy_from Start s.
Proof. reflexivity. Qed.
Lemma tidy_empty p s : tidy_from p ("" ++ s) = tidy_from p s.
Proof. reflexivity. Qed.
Lemma tidy_end p : tidy_from p "" = match p with AfterComma => false | _ => true end.
Proof. destruct p; reflexivity. Qed.
Lemma tidy_comma l s : tidy_from InWord (String "," l ++ s) = tidy_from AfterComma (l ++ s).
Proof. reflexivity. Qed.
Lemma tidy_blank p l s : tidy_from p (String " " l ++ s) = tidy_from p (l ++ s).
Proof. reflexivity. Qed.
Lemma tidy_lit p a l s : is_sep a = false -> tidy_from p (String a l ++ s) = tidy_from InWord (l ++ s).
Proof. apply tidy_char. Qed.
Lemma tidy_regs get ffm m ic l : forall s,
  tidy_from InWord (reg_list get ffm m ic false l ++ s) = tidy_from InWord s /\
  forall p, tidy_from p (reg_list get ffm m ic true l ++ s) = tidy_from (if forallb (fun q => masked (fst q) ffm) l then p else InWord) s.
Proof.
  induction l as [|[f g] l IH]; intros s; [split; reflexivity|]. destruct (IH s) as [I1 I2]. cbn [reg_list forallb fst]. destruct (masked f ffm); cbn [andb]; [auto|].
  split; [|intros p]; rewrite !sapp_assoc.
  - rewrite tidy_comma, tidy_empty, tidy_plain by apply reg_plain. exact I1.
  - rewrite tidy_empty, tidy_plain by apply reg_plain. exact I1.
Qed.
Lemma tidy_regs_true get ffm m ic l s p :
  tidy_from p (reg_list get ffm m ic true l ++ s) = tidy_from (if forallb (fun q => masked (fst q) ffm) l then p else InWord) s.
Proof. apply tidy_regs. Qed.
Lemma tidy_regs_end get ffm m ic l p :
  tidy_from p (reg_list get ffm m ic true l) = tidy_from (if forallb (fun q => masked (fst q) ffm) l then p else InWord) "".
Proof. rewrite <- (sapp_nil (reg_list _ _ _ _ _ _)). apply tidy_regs. Qed.
Ltac tpl := first [assumption | apply dec_plain | apply shex_plain | apply hex_plain | apply sdec_plain | apply reg_plain].
Ltac tstep := match goal with
  | |- tidy_from InWord (vm_text _ _ _) = _ => apply tidy_vm
  | |- tidy_from ?p "" = _ => rewrite (tidy_end p); reflexivity
  | |- tidy_from ?p ((?a ++ ?b) ++ ?c) = _ => rewrite (sapp_assoc a b c)
  | |- tidy_from ?p (tab ++ ?s) = _ => rewrite (tidy_tab p s)
  | |- tidy_from ?p ("" ++ ?s) = _ => rewrite (tidy_empty p s)
  | |- tidy_from InWord (String "," ?l ++ ?s) = _ => rewrite (tidy_comma l s)
  | |- tidy_from ?p (String " " ?l ++ ?s) = _ => rewrite (tidy_blank p l s)
  | |- tidy_from ?p (String ?a ?l ++ ?s) = _ => rewrite (tidy_lit p a l s) by reflexivity
  | |- tidy_from ?p (reg_list _ _ _ _ true _ ++ _) = _ => rewrite tidy_regs_true
  | |- tidy_from ?p (reg_list _ _ _ _ true _) = _ => rewrite tidy_regs_end
  | |- tidy_from ?p (?w ++ ?s) = _ => rewrite (tidy_plain w s p) by tpl
  | |- tidy_from ?p (String (ascii_of_nat 9) ?l) = _ => change (tidy_from Start l = true)
  | |- tidy_from InWord (String "," ?l) = _ => change (tidy_from AfterComma l = true)
  | |- tidy_from ?p (String " " ?l) = _ => change (tidy_from p l = true)
  | |- tidy_from ?p (String ?a ?l) = _ => rewrite (tidy_char a l p) by reflexivity
  | |- tidy_from ?p ?w = _ => apply (tidy_plain_end w p); tpl
  end.
Lemma tidy_vtype i p : tidy_from p (vtype_text i) = true.
Proof.
  unfold vtype_text. cbv zeta. destruct (N.ltb _ 4), (N.eqb (N.land i 0x40) 0), (N.eqb (N.land i 0x80) 0); repeat tstep.
Qed.

Lemma seg_plain mn k nf n : plain mn -> with_seg mn k nf = Ok n -> plain n.
Proof.
  intros P. unfold with_seg. destruct (Nat.ltb _ _) eqn:L; [discriminate|]. apply Nat.ltb_ge in L. intros [= <-].
  destruct (prefix_split mn k L) as [E _]. apply no_sep_mid; [now rewrite <- E|apply dec_plain].
Qed.
Lemma vmem_plain ffm mn ic n : plain mn -> vmem_name ffm mn ic = Ok n -> plain n.
Proof.
  intros P. unfold vmem_name. destruct (masked _ _); [intros [= <-]; exact P|]. cbv zeta. destruct (N.eqb _ 0); [intros [= <-]; exact P|].
  destruct (f_extract _ _) as [|[[]|[]|]]; try discriminate; now apply seg_plain.
Qed.
Lemma tidy_lemma c ffm m ic mn t : plain mn -> some_operand c ffm -> x_dasm (ext c ffm) mn ic m = Ok t -> tidy t = true.
Proof.
  intros PL SO. rewrite dasm_ext. unfold dasm, tidy. cbv zeta.
  destruct c; unfold some_operand in SO;
  try match type of SO with context [in_opcode ?X] =>
    let s := eval lazy in (in_opcode X) in change (in_opcode X) with s in SO end.
  all: repeat match goal with
    | |- rbind (if ?b then _ else _) _ = _ -> _ => destruct b; cbn [rbind]
    | |- rbind (vmem_name _ _ _) _ = _ -> _ => destruct (vmem_name _ _ _) as [nm| | |] eqn:NM; cbn [rbind]; [apply vmem_plain in NM; [|exact PL]|discriminate..]
    | |- rbind (rbind ?r _) _ = _ -> _ => let v := fresh "v" in destruct r as [v| | |]; cbn [rbind]; [|discriminate..]
    | |- rbind ?r _ = _ -> _ => let v := fresh "v" in destruct r as [v| | |]; cbn [rbind]; [|discriminate..] end.
  all: intros Q; injection Q as <-.
  all: repeat first [apply tidy_vtype | tstep]; lazy [forallb fst]; revert SO; fields0; rewrite ?ci_sp_unfixed; change (N.eqb 0 0) with true; dcase2; cbn [negb andb orb]; intros SO.
  all: try discriminate SO.
  all: try (exfalso; apply SO; [discriminate|reflexivity]).
  all: repeat first [apply tidy_vtype | tstep].
Qed.
