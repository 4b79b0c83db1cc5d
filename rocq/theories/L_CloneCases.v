(** A register-pair load with a fixed field (C37). *)
From Coq Require Import NArith ZArith List Bool String.
From Verif Require Import M_Base M_Field M_Forms M_Meta M_OperandInfo M_Extract M_Decoded M_Builder M_DTable M_Raw G_Tables S_Shipped.
From Verif Require Import S_Bits S_Trie S_Table L_Check.
Import ListNotations.
Local Open Scope N_scope.

(** The record of ld in isa_rv32zilsd.json, with rs1 fixed to x2. *)
Definition raw_ldsp : list raw := map (fun w => variant w "ldsp" 0x13003 ["rs1"%string]) (pick ["ld"%string] isa_rv32zilsd).
Definition ldsp : list irec := map rec_of raw_ldsp.
Definition dests (recs : list irec) (ics : list N) : option (list (option (list N))) :=
  match make_decoder [] [] 1 [] [] recs with
  | Ok s => Some (map (fun ic => match decode (A := unit) (U := unit) s ic with Ok v => Some (map e_val (oi_elems (d_dst_oi (i_di v)))) | _ => None end) ics)
  | _ => None
  end.
Lemma dests_ok recs ics l : dests recs ics = Some l -> exists s, make_decoder [] [] 1 [] [] recs = Ok s /\
  map (fun ic => match decode (A := unit) (U := unit) s ic with Ok v => Some (map e_val (oi_elems (d_dst_oi (i_di v)))) | _ => None end) ics = l.
Proof. unfold dests. destruct (make_decoder _ _ _ _ _ _) as [s| | |]; try discriminate. intros H. exists s. split; [reflexivity|congruence]. Qed.
Lemma dest_ok (r : res info) l : match r with Ok v => Some (map e_val (oi_elems (d_dst_oi (i_di v)))) | _ => None end = Some l ->
  exists v, r = Ok v /\ map e_val (oi_elems (d_dst_oi (i_di v))) = l.
Proof. destruct r as [v| | |]; try discriminate. intros H. exists v. split; [reflexivity|congruence]. Qed.
Lemma ldsp_dests : dests ldsp [0x13503; 0x13583] = Some [Some [10]; Some [11]].
Proof. vm_compute. reflexivity. Qed.
Lemma ldsp_wf : well_formedb raw_ldsp = true. Proof. vm_compute. reflexivity. Qed.
Lemma ldsp_pair : map rec_class ldsp = [Ok X_I_load_pair]. Proof. vm_compute. reflexivity. Qed.
Lemma C37_fixed_lemma : exists recs s v w, map rec_class recs = [Ok X_I_load_pair] /\ well_formed recs /\
  make_decoder [] [] 1 [] [] recs = Ok s /\
  decode (A := unit) (U := unit) s 0x13503 = Ok v /\ map e_val (oi_elems (d_dst_oi (i_di v))) = [10] /\
  decode (A := unit) (U := unit) s 0x13583 = Ok w /\ map e_val (oi_elems (d_dst_oi (i_di w))) = [11].
Proof.
  destruct (dests_ok _ _ _ ldsp_dests) as (s & E & Q). cbn [map] in Q. injection Q as Q1 Q2.
  destruct (dest_ok _ _ Q1) as (v & V1 & V2). destruct (dest_ok _ _ Q2) as (w & W1 & W2).
  exists ldsp, s, v, w. split; [exact ldsp_pair|]. split; [exact (well_formedb_ok _ ldsp_wf)|]. auto 10.
Qed.
