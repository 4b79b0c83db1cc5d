(** Claim C64: registers without a type, and examples. *)
From Coq Require Import NArith List Bool String Lia.
From Verif Require Import M_Base M_Field M_Forms M_Meta M_OperandInfo M_Extract M_Decoded M_Trie M_Builder M_DTable M_Raw.
From Verif Require Import S_Bits S_Trie S_Table S_Shipped S_Manual S_Classes S_Widths.
From Verif Require Import L_Trie L_Table L_Check L_Decode L_Claims L_Shipped L_Manual L_ManualFull L_ManualClaims L_Classes L_ClassCases L_Widths.
Import ListNotations.
Local Open Scope list_scope.
Local Open Scope N_scope.

Definition type_lists (v : info) : list (option kind) * list (option kind) :=
  (map e_type (operands_at Dest (i_di v)), map e_type (operands_at Source (i_di v))).
Definition typings (recs : list irec) (ops : list N) : option (list (option (string * (list (option kind) * list (option kind))))) :=
  match make_decoder [] [] 1 [] [] recs with
  | Ok s => Some (map (fun ic => match pure_info (fst s) (snd s) ic with Ok v => Some (d_mnemonic (i_di v), type_lists v) | _ => None end) ops)
  | _ => None
  end.
Lemma typings_ok recs ops l : typings recs ops = Some l -> exists s, make_decoder [] [] 1 [] [] recs = Ok s /\
  Forall2 (fun ic x => forall n t, x = Some (n, t) -> exists v, decode (A := unit) (U := unit) s ic = Ok v /\ d_mnemonic (i_di v) = n /\ type_lists v = t) ops l.
Proof.
  unfold typings. destruct (make_decoder _ _ _ _ _ _) as [s| | |]; try discriminate. intros [= <-]. exists s. split; [reflexivity|].
  induction ops as [|ic ops IH]; [constructor|]. cbn [map]. constructor; [|exact IH]. intros n t. rewrite decode_pure.
  destruct (pure_info _ _ ic) as [v| | |]; try discriminate. intros [= <- <-]. eauto.
Qed.
(** ** Registers without a type *)
Definition in_mode (m : mode) (n : string) : list irec := filter (fun r => match r_mn r with Some n' => String.eqb n' n | None => false end) (table_of m).
Definition bare (n : string) : N :=
  if String.eqb n "cdiscard.d.l1" then 0xFC250073 else if String.eqb n "cflush.i.l1" then 0xFC150073 else 0xB6A58553.
Definition untypedb (m : mode) (n : string) : bool :=
  match typings (in_mode m n) [bare n] with
  | Some [Some (n', (_, t))] => if String.eqb n' n then existsb (fun x => match x with None => true | Some _ => false end) t else false
  | _ => false
  end.
Lemma untyped_ok m : forallb (untypedb m) (untyped m) = true.
Proof. destruct m; vm_compute; reflexivity. Qed.
Lemma untyped_one m n : untypedb m n = true -> exists s v e, subseq (in_mode m n) (table_of m) /\ make_decoder [] [] 1 [] [] (in_mode m n) = Ok s /\
  decode (A := unit) (U := unit) s (bare n) = Ok v /\ d_mnemonic (i_di v) = n /\ In e (operands_at Source (i_di v)) /\ e_type e = None.
Proof.
  unfold untypedb. destruct (typings _ _) as [l|] eqn:E; [|discriminate]. destruct l as [|x l]; [discriminate|]. destruct x as [[n' [t1 t2]]|]; [|discriminate].
  destruct l; [|discriminate]. destruct (String.eqb_spec n' n) as [EN|]; [|discriminate]. intros X. apply existsb_exists in X as (t & T1 & T2).
  destruct (typings_ok _ _ _ E) as (s & ES & Q). inversion Q as [|? ? ? ? Q1 _ EA EB]; subst. destruct (Q1 _ _ eq_refl) as (v & D & M & TL).
  unfold type_lists in TL. assert (TL2 : map e_type (operands_at Source (i_di v)) = t2) by congruence. rewrite <- TL2 in T1.
  apply in_map_iff in T1 as (e & E1 & E2). exists s, v, e. split; [apply subseq_filter|]. split; [exact ES|]. split; [exact D|]. split; [exact M|].
  split; [exact E2|]. rewrite E1. destruct t; [discriminate|reflexivity].
Qed.
Lemma C64_untyped_lemma m n : In n (untyped m) -> exists recs s ic v e, subseq recs (table_of m) /\ make_decoder [] [] 1 [] [] recs = Ok s /\
  decode (A := unit) (U := unit) s ic = Ok v /\ d_mnemonic (i_di v) = n /\ In e (operands_at Source (i_di v)) /\ e_type e = None.
Proof.
  intros I. pose proof (untyped_ok m) as H. rewrite forallb_forall in H. destruct (untyped_one m n (H _ I)) as (s & v & e & X).
  exists (in_mode m n), s, (bare n), v, e. exact X.
Qed.

(** ** fcvt.d.s, fsd, fcvt.w.s, c.fld, vfadd.vf and fcvt.h.s *)
Definition floaty : list irec := only ["fcvt.d.s"; "fsd"; "fcvt.w.s"; "fld"; "c.fld"; "vfadd.vf"; "fcvt.h.s"]%string.
Definition floaty_ops : list N := [0x42050553; 0x00A53027; 0xC0050553; 0x2108; 0x02A5D557; 0x44050553].
Definition floaty_types : list (string * (list (option kind) * list (option kind))) := [
  ("fcvt.d.s", ([Some KDouble], [Some KSingle])); ("fsd", ([], [Some KLong; Some KDouble])); ("fcvt.w.s", ([Some KWord], [Some KSingle]));
  ("c.fld", ([Some KDouble], [Some KLong])); ("vfadd.vf", ([Some KVector], [Some KDouble; Some KVector])); ("fcvt.h.s", ([Some KSingle], [Some KSingle]))]%string.
Lemma floaty_typings : typings floaty floaty_ops = Some (map Some floaty_types).
Proof. vm_compute. reflexivity. Qed.
Lemma C64_case : exists s, subseq floaty rv64 /\ make_decoder [] [] 1 [] [] floaty = Ok s /\
  Forall2 (fun ic x => exists v, decode (A := unit) (U := unit) s ic = Ok v /\ d_mnemonic (i_di v) = fst x /\ type_lists v = snd x) floaty_ops floaty_types.
Proof.
  destruct (typings_ok _ _ _ floaty_typings) as (s & E & Q). exists s. split; [apply subseq_filter|]. split; [exact E|].
  clear E. revert Q. generalize floaty_ops floaty_types. intros ops l. revert ops. induction l as [|[n t] l IH]; intros ops Q; inversion Q as [|ic x ops' l' Q1 Q2]; subst; constructor; auto.
Qed.
Lemma C64_fcvt_case : operates Rv64 Dest KSingle 0x40150553 /\ operates Rv64 Source KDouble 0x40150553.
Proof.
  split.
  - exists (fp_op "....." "00" any5)%string. split; [left; reflexivity|]. apply fitsb_ok. reflexivity.
  - exists (fp_op "01000" ".." "00001")%string. split; [do 5 right; left; reflexivity|]. apply fitsb_ok. reflexivity.
Qed.
