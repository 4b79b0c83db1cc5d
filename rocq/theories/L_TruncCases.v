(** Cases for C70. *)
From Coq Require Import NArith ZArith List Bool String Lia.
From Verif Require Import M_Base M_Meta M_OperandInfo M_Extract M_Decoded M_Builder M_DTable M_Raw G_Tables S_Shipped.
From Verif Require Import S_Bits S_Trie S_Table S_Trunc L_Check L_Shipped L_Claims L_TruncShipped.
Import ListNotations.
Local Open Scope N_scope.

Definition few : list irec := filter (fun r => match r_mn r with Some n => existsb (String.eqb n) ["addi"; "li"; "nop"; "c.addi"; "c.nop"]%string | None => false end) rv64.
Lemma few_names : names few [0xABCD0085; 0x85; 0x700000013; 0x13; 0xABCD0000; 0; 0xABCD9002; 0x9002] =
  Some [Ok "c.addi"; Ok "c.addi"; Ok "nop"; Ok "nop"; Throw EUnknownOpcode; Throw EUnknownOpcode; Throw EUnknownOpcode; Throw EUnknownOpcode]%string.
Proof. vm_compute. reflexivity. Qed.
Lemma C70_case : exists s, subseq few rv64 /\ make_decoder [] [] 1 [] [] few = Ok s /\
  own_bits 0xABCD0085 = 0x85 /\ own_bits 0x700000013 = 0x13 /\
  (exists v, decode (A := unit) (U := unit) s 0xABCD0085 = Ok v /\ d_mnemonic (i_di v) = "c.addi"%string) /\
  (exists v, decode (A := unit) (U := unit) s 0x700000013 = Ok v /\ d_mnemonic (i_di v) = "nop"%string).
Proof.
  destruct (names_ok _ _ _ few_names) as (s & E & Q). exists s. split; [apply subseq_filter|]. split; [exact E|].
  split; [vm_compute; reflexivity|]. split; [vm_compute; reflexivity|]. cbn [map] in Q. injection Q as Q1 _ Q2 _ _ _ _ _.
  split; now apply name_ok.
Qed.
Lemma small_tidy : tidyb small = true. Proof. vm_compute. reflexivity. Qed.
Lemma C70_any_case : exists s, make_decoder [] [] 1 [] [] small = Ok s /\ well_formed (kept [] [] small) /\ tidy (kept [] [] small) /\
  exists v, decode (A := unit) (U := unit) s 0x85 = Ok v /\ d_mnemonic (i_di v) = "c.addi"%string.
Proof.
  destruct small_decoder as (s & E & _ & WF & Q). exists s. split; [exact E|]. split; [exact WF|].
  split; [rewrite kept_all; apply tidy_ok; exact small_tidy|]. cbn [map] in Q. injection Q as _ _ _ _ _ _ _ Q _ _. now apply name_ok.
Qed.

(** addi under another name, with the stencil of a 16-bit instruction. *)
Definition raw_short : list raw := map (fun w => variant w "a" 0x1 []) (pick ["addi"%string] raw_rv64).
Definition short_addi : list irec := map rec_of raw_short.
Definition imms (recs : list irec) (ics : list N) : option (list (option N)) :=
  match make_decoder [] [] 1 [] [] recs with
  | Ok s => Some (map (fun ic => match decode (A := unit) (U := unit) s ic with Ok v => Some (d_imm (i_di v)) | _ => None end) ics)
  | _ => None
  end.
Lemma short_imms : imms short_addi [0x100001; 0x1] = Some [Some 1; Some 0].
Proof. vm_compute. reflexivity. Qed.
Lemma imms_ok recs ics l : imms recs ics = Some l -> exists s, make_decoder [] [] 1 [] [] recs = Ok s /\
  map (fun ic => match decode (A := unit) (U := unit) s ic with Ok v => Some (d_imm (i_di v)) | _ => None end) ics = l.
Proof. unfold imms. destruct (make_decoder _ _ _ _ _ _) as [s| | |]; try discriminate. intros H. exists s. split; [reflexivity|congruence]. Qed.
Lemma imm_differs (r r' : res info) a b : match r with Ok v => Some (d_imm (i_di v)) | _ => None end = Some a ->
  match r' with Ok v => Some (d_imm (i_di v)) | _ => None end = Some b -> a <> b -> ~ same_report r r'.
Proof.
  destruct r as [v| | |], r' as [v'| | |]; try discriminate. intros H1 H2 N (D & _). rewrite D in H1. congruence.
Qed.
Lemma short_wf : well_formedb raw_short = true. Proof. vm_compute. reflexivity. Qed.
Lemma short_own : own_bits 0x100001 = 1. Proof. vm_compute. reflexivity. Qed.
Lemma C70_untidy_lemma : exists recs s ic, make_decoder [] [] 1 [] [] recs = Ok s /\ well_formed recs /\
  ~ same_report (decode (A := unit) (U := unit) s ic) (decode (A := unit) (U := unit) s (own_bits ic)).
Proof.
  destruct (imms_ok _ _ _ short_imms) as (s & E & Q). cbn [map] in Q. injection Q as Q1 Q2.
  exists short_addi, s, 0x100001. split; [exact E|]. split; [exact (well_formedb_ok _ short_wf)|]. rewrite short_own.
  eapply imm_differs; [exact Q1|exact Q2|discriminate].
Qed.
