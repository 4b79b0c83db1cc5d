(** Register-pair extractors (C37). *)
From Coq Require Import NArith ZArith List Bool Lia ZifyBool ZifyN String.
From Verif Require Import M_Base M_Field M_Forms M_Meta M_OperandInfo M_Extract M_Decoded.
From Verif Require Import S_Bits S_Operands S_Slots S_Pairs L_Bits L_OperandInfo L_Slots.
Import ListNotations.
Local Open Scope N_scope.

Lemma pair_up_pow v : v < 63 -> pair_up (2 ^ v) = Ok (N.lor (2 ^ v) (2 ^ (v + 1))).
Proof.
  intros H. unfold pair_up. replace (2 ^ v =? 0) with false.
  2:{ symmetry. apply N.eqb_neq, N.pow_nonzero. discriminate. }
  rewrite N.log2_pow2 by lia. replace (64 <=? v + 1) with false by lia. unfold bit1.
  rewrite bit1_pow by lia. reflexivity.
Qed.
Lemma u32_small x : x < 64 -> u32 x = x. Proof. intros. apply u32_id. change (2 ^ 32) with 4294967296. lia. Qed.
Lemma odd_land x : negb (N.land x 1 =? 0) = N.odd x.
Proof.
  change 1 with (N.ones 1). rewrite N.land_ones. change (2 ^ 1) with 2. rewrite <- N.bit0_mod, N.bit0_odd.
  now destruct (N.odd x).
Qed.
Lemma pairs_le_32 lo ic : slice lo 5 ic + 1 < 64 /\ slice lo 3 ic + 8 + 1 < 64.
Proof. pose proof (slice5 lo ic). pose proof (slice3 lo ic). lia. Qed.

Ltac xpair := xunf; lazy [odd_field add_second add_second_rs2 REGISTER_X0]; fslice.
Ltac dz := try match goal with |- context [slice ?a 5 ?i =? 0] => destruct (slice a 5 i =? 0) eqn:?Z end.
Ltac pfacts ic := pose proof (slice5 7 ic); pose proof (slice5 20 ic); pose proof (slice5 2 ic); pose proof (slice3 2 ic).
Lemma pair_illop c ffm ic : is_pair_load c || is_pair_store c = true ->
  x_illop (ext c ffm) ic = Ok (N.odd (pair_first c ic)).
Proof.
  intros P. destruct c; try discriminate P; clear P; xpair; rewrite odd_land; cbn [pair_first]; try reflexivity;
  rewrite N.odd_add; change (N.odd 8) with false; now rewrite xorb_false_r.
Qed.
Lemma pair_dst c ffm ic : is_pair_load c = true -> pair_free c ffm = true ->
  x_dst (ext c ffm) ic = Ok (mask_of (pair_regs (pair_first c ic))).
Proof.
  intros P F. destruct c; try discriminate P; clear P; cbn [pair_free] in F; pfacts ic; xpair; rewrite F; cbn [negb];
    rewrite ?pair_up_pow by lia; unfold pair_regs; cbn [pair_first];
    try destruct (slice 7 5 ic =? 0); try (replace (slice 2 3 ic + 8 =? 0) with false by lia); xunf; lors.
Qed.
Lemma pair_dstI_eq c ffm ic m : is_pair_load c = true -> pair_free c ffm = true ->
  x_dstI (ext c ffm) ic m false = add_elems oi_empty (pair_dests m (pair_first c ic)).
Proof.
  intros P F. destruct c; try discriminate P; clear P; cbn [pair_free] in F; pfacts ic; xpair; rewrite F; cbn [negb pair_first].
  all: unfold pair_dests; try destruct (slice 7 5 ic =? 0) eqn:Z; try (replace (slice 2 3 ic + 8 =? 0) with false by lia);
      xunf; cbn [nth_error]; xunf; rewrite ?u32_small by lia; reflexivity.
Qed.
Lemma pair_dstI c ffm ic m : is_pair_load c = true -> pair_free c ffm = true ->
  exists o, x_dstI (ext c ffm) ic m false = Ok o /\ oi_elems o = pair_dests m (pair_first c ic) /\ oi_wf o.
Proof.
  intros P F. pose proof (pair_dstI_eq c ffm ic m P F) as E.
  rewrite E. destruct (add_elems_outcome (pair_dests m (pair_first c ic)) oi_empty oi_wf_empty) as [(o & X & _)|[_ C]].
  - exists o. destruct (add_elems_wf _ _ _ oi_wf_empty X). auto.
  - exfalso. apply C. unfold pair_dests. destruct (_ =? 0); intros e1 e2 f I1 I2 F1 F2; cbn in *; [tauto|].
    intuition; subst; cbn in *; congruence.
Qed.
Lemma pair_data_addr c ffm ic : is_pair_store c = true -> pair_free c ffm = true ->
  x_data (ext c ffm) ic = Ok (mask_of (pair_regs (pair_first c ic))) /\
  x_addr (ext c ffm) ic = Ok (2 ^ pair_base c ic) /\
  x_src (ext c ffm) ic =
    Ok (N.lor (N.lor (2 ^ pair_base c ic) (2 ^ pair_first c ic)) (mask_of (pair_regs (pair_first c ic)))).
Proof.
  intros P F. destruct c; try discriminate P; clear P; cbn [pair_free] in F; pfacts ic; xpair;
    try (apply andb_true_iff in F as [F F']; rewrite F'); rewrite F; cbn [negb]; rewrite ?pair_up_pow by lia;
    unfold pair_regs; cbn [pair_first pair_base];
    dz;
    try (replace (slice 2 3 ic + 8 =? 0) with false by lia); xunf; repeat split; lors.
Qed.
Definition pair_srcs (c : xcls) (m : meta) (ic : N) : list elem :=
  let r := pair_first c ic in
  let base := mkE (Some RS1) (mt_otype m RS1) (pair_base c ic) false false in
  match c with
  | X_S_pair => base :: pair_data m false r
  | X_C0_store_word_pair => base :: pair_data m true r
  | _ => if r =? 0 then [] else base :: pair_data m true r
  end.
Lemma pair_srcI_eq c ffm ic m : is_pair_store c = true -> pair_free c ffm = true ->
  x_srcI (ext c ffm) ic m false = add_elems oi_empty (pair_srcs c m ic).
Proof.
  intros P F. destruct c; try discriminate P; clear P; cbn [pair_free] in F; pfacts ic; xpair;
    try (apply andb_true_iff in F as [F F']; rewrite F'); rewrite F; cbn [negb].
  all: unfold pair_srcs; cbn [pair_first pair_base]; unfold pair_data; 
      dz;
      try (replace (slice 2 3 ic + 8 =? 0) with false by lia);
      do 3 (xunf; lazy [N.eqb Pos.eqb nth_error ofid_eqb rassert]); rewrite ?u32_small by lia; reflexivity.
Qed.
Lemma pair_srcI c ffm ic m : is_pair_store c = true -> pair_free c ffm = true ->
  exists o, x_srcI (ext c ffm) ic m false = Ok o /\ oi_elems o = pair_srcs c m ic /\ oi_wf o.
Proof.
  intros P F. pose proof (pair_srcI_eq c ffm ic m P F) as E.
  rewrite E. destruct (add_elems_outcome (pair_srcs c m ic) oi_empty oi_wf_empty) as [(o & X & _)|[_ C]].
  - exists o. destruct (add_elems_wf _ _ _ oi_wf_empty X). auto.
  - exfalso. apply C. unfold pair_srcs, pair_data.
    destruct c; try discriminate P; destruct (_ =? 0); intros e1 e2 f I1 I2 F1 F2; cbn in *; try tauto;
    intuition; subst; cbn in *; congruence.
Qed.
