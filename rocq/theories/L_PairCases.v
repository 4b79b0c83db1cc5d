(** Claims C49 and C69: cases with register pairs. *)
From Coq Require Import NArith ZArith List Bool String.
From Verif Require Import M_Base M_OperandInfo M_Decoded M_Builder M_DTable.
From Verif Require Import S_Bits S_Imm S_Shipped S_Manual S_Manual32 S_Expand S_PairRows S_ExpandPairs L_ExpandCases L_PairRows.
Import ListNotations.
Local Open Scope N_scope.

(** c.sd x10, 0(x8) and its expansion; c.ld x10, 0(x8) and its expansion. *)
Lemma pair_views : views rv32p [0xE008; 0xA43023; 0x6008; 0x43503] = Some [
  Some ("c.sd"%string, [], [(Some BX, 8, false, false); (Some BX, 10, true, false); (Some BX, 11, true, false)], 0%Z, 0);
  Some ("sd"%string, [], [(Some BX, 8, false, false); (Some BX, 10, false, false); (Some BX, 11, false, false)], 0%Z, 0);
  Some ("c.ld"%string, [(Some BX, 10, false, false); (Some BX, 11, false, false)], [(Some BX, 8, false, false)], 0%Z, 0);
  Some ("ld"%string, [(Some BX, 10, false, false); (Some BX, 11, false, false)], [(Some BX, 8, false, false)], 0%Z, 0)].
Proof. vm_compute. reflexivity. Qed.
Lemma C49_sd_lemma : exists s ic v p, make_decoder [] [] 1 [] [] rv32p = Ok s /\ decode (A := unit) (U := unit) s ic = Ok v /\
  d_mnemonic (i_di v) = "sd"%string /\ In p pair_manual /\ pi_name p = "sd"%string /\ place_val (pi_first p) ic <> 0 /\ ~ pair_reports true p ic (i_di v).
Proof.
  destruct (views_ok _ _ _ pair_views) as (s & E & Q). cbn [map] in Q. injection Q as _ Q _ _. apply view_ok in Q as (v & D & N & _ & Q2 & _).
  exists s, 0xA43023, v, (pins "sd" false (At5 15) (At5 20) imm_s). split; [exact E|]. split; [exact D|]. split; [exact N|]. split; [cbn; auto|]. split; [reflexivity|]. split; [discriminate|].
  intros (_ & R & _). rewrite Q2 in R. vm_compute in R. discriminate R.
Qed.
Lemma C49_pairs_case : exists s v w, make_decoder [] [] 1 [] [] rv32p = Ok s /\
  book_of rv32p (mkBook (m_shared ++ m_shifts ++ m_zilsd ++ m_zclsd) reserved32p odd_patterns32 odd_operands32 pairs32) /\
  decode (A := unit) (U := unit) s 0xE008 = Ok v /\ d_mnemonic (i_di v) = "c.sd"%string /\ In "c.sd"%string pairs32 /\
  map shown (oi_elems (d_src_oi (i_di v))) = [(Some BX, 8, false, false); (Some BX, 10, true, false); (Some BX, 11, true, false)] /\
  decode (A := unit) (U := unit) s 0x43503 = Ok w /\ d_mnemonic (i_di w) = "ld"%string /\ In "ld"%string pairs32 /\
  map shown (oi_elems (d_dst_oi (i_di w))) = [(Some BX, 10, false, false); (Some BX, 11, false, false)].
Proof.
  destruct (views_ok _ _ _ pair_views) as (s & E & Q). cbn [map] in Q. injection Q as Q _ _ Q'.
  apply view_ok in Q as (v & D & N & _ & Q2 & _), Q' as (w & D' & N' & Q1' & _).
  exists s, v, w. split; [exact E|]. split; [constructor|]. split; [exact D|]. split; [exact N|]. split; [cbn; auto|]. split; [exact Q2|].
  split; [exact D'|]. split; [exact N'|]. split; [cbn; auto|exact Q1'].
Qed.
Lemma C69_marks_lemma : exists s ic v ps w, make_decoder [] [] 1 [] [] rv32p = Ok s /\ decode (A := unit) (U := unit) s ic = Ok v /\
  In (d_mnemonic (i_di v), ps) zclsd_expansions /\ decode (A := unit) (U := unit) s (expanded ps ic) = Ok w /\ ~ alike v w.
Proof.
  destruct (views_ok _ _ _ pair_views) as (s & E & Q). cbn [map] in Q. injection Q as Q Q' _ _.
  apply view_ok in Q as (v & D & N & _ & Q2 & _), Q' as (w & D' & N' & _ & Q2' & _).
  exists s, 0xE008, v, (c_store8 STORE), w. split; [exact E|]. split; [exact D|]. split; [rewrite N; cbn [zclsd_expansions In]; auto|].
  split; [|intros (_ & R & _); rewrite Q2, Q2' in R; discriminate R].
  assert (X : expanded (c_store8 STORE) 0xE008 = 0xA43023) by (vm_compute; reflexivity). rewrite X. exact D'.
Qed.
Lemma C69_pairs_case : exists s v w, make_decoder [] [] 1 [] [] rv32p = Ok s /\ decode (A := unit) (U := unit) s 0x6008 = Ok v /\
  In (d_mnemonic (i_di v), c_load8 "011" LOAD) zclsd_expansions /\ In (d_mnemonic (i_di v)) zclsd_loads /\ expanded (c_load8 "011" LOAD) 0x6008 = 0x43503 /\
  decode (A := unit) (U := unit) s 0x43503 = Ok w /\ alike v w.
Proof.
  destruct (views_ok _ _ _ pair_views) as (s & E & Q). cbn [map] in Q. injection Q as _ _ Q Q'.
  apply view_ok in Q as (v & D & N & Q1 & Q2 & Q3 & _), Q' as (w & D' & N' & Q1' & Q2' & Q3' & _).
  exists s, v, w. split; [exact E|]. split; [exact D|]. rewrite N. split; [cbn [zclsd_expansions In]; auto|]. split; [cbn; auto|].
  split; [vm_compute; reflexivity|]. split; [exact D'|]. unfold alike. rewrite Q1, Q2, Q3, Q1', Q2', Q3'. auto.
Qed.
