(** Witnesses: the conditions of [agree_cond] are needed. *)
From Coq Require Import NArith ZArith List Bool Lia String.
From Verif Require Import M_Base M_Field M_Forms M_Meta M_OperandInfo M_Extract M_Decoded.
From Verif Require Import S_Agree.
Import ListNotations.
Local Open Scope N_scope.
Local Open Scope string_scope.

Definition jm_of (f : kind -> option oper_clause) : jmeta := mkJ None None f [].
Definition j_all_w : jmeta := jm_of (fun k => match k with KWord => Some OperAll | _ => None end).
Definition j_all_l : jmeta := jm_of (fun k => match k with KLong => Some OperAll | _ => None end).
Definition j_list (k0 : kind) (l : list string) : jmeta :=
  jm_of (fun k => if kind_eqb k k0 then Some (OperList l) else None).
Definition j_two (k1 : kind) (l1 : list string) (k2 : kind) (l2 : list string) : jmeta :=
  jm_of (fun k => if kind_eqb k k1 then Some (OperList l1) else if kind_eqb k k2 then Some (OperList l2) else None).
Definition agree_witness (c : xcls) : N * jmeta * N :=
  match c with
  | X_CI_rD_only => (0, j_list KDouble ["rd"], 0x4515)
  | X_CJ => (0, j_all_w, 0xA001)
  | X_CJR => (0, j_all_w, 0x8082)
  | X_CJAL => (0, j_list KDouble ["rs1"], 0x2001)
  | X_C2_add => (0, j_two KLong ["rs1"; "rs2"] KDouble ["rd"], 0x953E)
  | X_C2_sp => (0, j_all_l, 0x9502)
  | X_C0_store | X_C0_store_byte | X_C0_store_half | X_C0_store_word | X_C0_store_double =>
      (0, j_list KLong ["rs1"; "rs2"; "rd"], 0xE10C)
  | X_U => (0xF80, j_all_l, 0x37)
  | X_I_load_pair => (0, j_list KLong ["rs1"; "rd"], 0x53503)
  | X_C2_sp_load_word_pair => (0, j_list KLong ["rs1"; "rd"], 0x6502)
  | X_C0_load_word_pair => (0, j_list KLong ["rs1"; "rd"], 0x6108)
  | X_S_pair => (0, j_list KLong ["rs1"; "rs2"], 0xA53023)
  | X_C0_store_word_pair => (0, j_list KLong ["rs1"; "rs2"], 0xE108)
  | _ => (0, j_all_l, 0xE002)
  end%N.
Definition fails {A} (r : res A) : bool := match r with AssertFail | UB => true | _ => false end.
Definition witness_ok (c : xcls) : bool :=
  let '(ffm, j, ic) := agree_witness c in
  match make_meta j false [] with
  | Ok m => (ic <? 2 ^ 64)%N && fails (decode_info "x" 1%N (ext c ffm) m ic) &&
            match x_illop (ext c ffm) ic with Ok false => true | _ => false end
  | _ => false
  end.
Lemma witnesses_ok : forallb witness_ok agree_exceptions = true. Proof. vm_compute. reflexivity. Qed.
Lemma agree_refuted c : In c agree_exceptions ->
  exists ffm j m ic, make_meta j false [] = Ok m /\ (ic < 2 ^ 64)%N /\ x_illop (ext c ffm) ic = Ok false /\
    (decode_info "x" 1%N (ext c ffm) m ic = AssertFail \/ decode_info "x" 1%N (ext c ffm) m ic = UB).
Proof.
  intros I. pose proof witnesses_ok as W. rewrite forallb_forall in W. specialize (W c I). unfold witness_ok in W.
  destruct (agree_witness c) as [[ffm j] ic]. exists ffm, j.
  destruct (make_meta j false []) as [m| | |]; try discriminate W. exists m, ic.
  apply andb_true_iff in W as [W L]. apply andb_true_iff in W as [B W]. apply N.ltb_lt in B.
  destruct (x_illop (ext c ffm) ic) as [[]| | |]; try discriminate L.
  destruct (decode_info "x" 1%N (ext c ffm) m ic); try discriminate W; auto 6.
Qed.
Lemma sdsp_x0 : x_illop (ext X_C2_sp_store_word_pair 0) 0xE002 = Ok false /\
  decode_info "c.sdsp" 1%N (ext X_C2_sp_store_word_pair 0) meta_rv64i 0xE002 = AssertFail.
Proof. split; vm_compute; reflexivity. Qed.
