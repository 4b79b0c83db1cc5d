(** Cases for C71. *)
From Coq Require Import NArith ZArith List Bool String Lia.
From Verif Require Import M_Base M_Meta M_OperandInfo M_Extract M_Decoded M_Builder M_DTable M_Raw G_Tables S_Shipped.
From Verif Require Import S_Bits S_Trie S_Table S_Both L_Check L_Shipped L_Claims L_Both L_BothShipped L_BothShifts.
Import ListNotations.
Local Open Scope N_scope.

Definition some_of (T : list irec) : list irec :=
  filter (fun r => match r_mn r with Some n => existsb (String.eqb n) ["addi"; "li"; "nop"; "c.addi"; "c.nop"; "slli"; "clz"; "ld"]%string | None => false end) T.
(** For each opcode: the name, the number of destinations, the immediate, the text. *)
Definition looks (recs : list irec) (ics : list N) : option (list (option (string * nat * N * res string))) :=
  match make_decoder [] [] 1 [] [] recs with
  | Ok s => Some (map (fun ic => match decode (A := unit) (U := unit) s ic with
      | Ok v => Some (d_mnemonic (i_di v), List.length (oi_elems (d_dst_oi (i_di v))), d_imm (i_di v), info_dasm v) | _ => None end) ics)
  | _ => None
  end.
Lemma looks_ok recs ics l : looks recs ics = Some l -> exists s, make_decoder [] [] 1 [] [] recs = Ok s /\
  map (fun ic => match decode (A := unit) (U := unit) s ic with
      | Ok v => Some (d_mnemonic (i_di v), List.length (oi_elems (d_dst_oi (i_di v))), d_imm (i_di v), info_dasm v) | _ => None end) ics = l.
Proof. unfold looks. destruct (make_decoder _ _ _ _ _ _) as [s| | |]; try discriminate. intros H. exists s. split; [reflexivity|congruence]. Qed.
Lemma look_ok (r : res info) n k i t : match r with Ok v => Some (d_mnemonic (i_di v), List.length (oi_elems (d_dst_oi (i_di v))), d_imm (i_di v), info_dasm v) | _ => None end = Some (n, k, i, t) ->
  exists v, r = Ok v /\ d_mnemonic (i_di v) = n /\ List.length (oi_elems (d_dst_oi (i_di v))) = k /\ d_imm (i_di v) = i /\ info_dasm v = t.
Proof. destruct r as [v| | |]; try discriminate. intros H. exists v. injection H as <- <- <- <-. auto 10. Qed.

Definition codes : list N := [0x85; 0x13; 0x509093; 0x60009093; 0x43503].
Definition tab : string := String (Ascii.ascii_of_nat 9) "".
Lemma looks64 : looks (some_of rv64) codes =
  Some [Some ("c.addi", 1%nat, 1, Ok ("c.addi" ++ tab ++ "x1,x1, +0x1")); Some ("nop", 1%nat, 0, Ok ("nop" ++ tab ++ "x0,x0, +0x0"));
        Some ("slli", 1%nat, 5, Ok ("slli" ++ tab ++ "x1,x1, SHAMT=5")); Some ("clz", 1%nat, 0, Ok ("clz" ++ tab ++ "x1,x1"));
        Some ("ld", 1%nat, 0, Ok ("ld" ++ tab ++ "x10,x8, +0x0"))]%string.
Proof. vm_compute. reflexivity. Qed.
Lemma looks32 : looks (some_of rv32p) codes =
  Some [Some ("c.addi", 1%nat, 1, Ok ("c.addi" ++ tab ++ "x1,x1, +0x1")); Some ("nop", 1%nat, 0, Ok ("nop" ++ tab ++ "x0,x0, +0x0"));
        Some ("slli", 1%nat, 5, Ok ("slli" ++ tab ++ "x1,x1, SHAMTW=5")); Some ("clz", 1%nat, 0, Ok ("clz" ++ tab ++ "x1,x1, SHAMTW=0"));
        Some ("ld", 2%nat, 0, Ok ("ld" ++ tab ++ "x10,x8, +0x0"))]%string.
Proof. vm_compute. reflexivity. Qed.

Lemma C71_case : exists s s', subseq (some_of rv64) rv64 /\ subseq (some_of rv32p) rv32p /\
  make_decoder [] [] 1 [] [] (some_of rv64) = Ok s /\ make_decoder [] [] 1 [] [] (some_of rv32p) = Ok s' /\
  (exists v v', decode (A := unit) (U := unit) s 0x85 = Ok v /\ decode (A := unit) (U := unit) s' 0x85 = Ok v' /\
    d_mnemonic (i_di v) = "c.addi"%string /\ d_mnemonic (i_di v') = "c.addi"%string /\ ~ In "c.addi"%string (shifts ++ pairs)) /\
  (exists v v', decode (A := unit) (U := unit) s 0x13 = Ok v /\ decode (A := unit) (U := unit) s' 0x13 = Ok v' /\
    d_mnemonic (i_di v) = "nop"%string /\ d_mnemonic (i_di v') = "nop"%string /\ ~ In "nop"%string (shifts ++ pairs)) /\
  (exists v v', decode (A := unit) (U := unit) s 0x509093 = Ok v /\ decode (A := unit) (U := unit) s' 0x509093 = Ok v' /\
    d_mnemonic (i_di v) = "slli"%string /\ d_mnemonic (i_di v') = "slli"%string /\ In "slli"%string shifts).
Proof.
  destruct (looks_ok _ _ _ looks64) as (s & E & Q), (looks_ok _ _ _ looks32) as (s' & E' & Q'). exists s, s'.
  split; [apply subseq_filter|]. split; [apply subseq_filter|]. split; [exact E|]. split; [exact E'|].
  unfold codes in Q, Q'. cbn [map] in Q, Q'. 
  pose proof (f_equal (fun l => nth 0 l None) Q) as A1. pose proof (f_equal (fun l => nth 0 l None) Q') as A2.
  pose proof (f_equal (fun l => nth 1 l None) Q) as B1. pose proof (f_equal (fun l => nth 1 l None) Q') as B2.
  pose proof (f_equal (fun l => nth 2 l None) Q) as C1. pose proof (f_equal (fun l => nth 2 l None) Q') as C2.
  cbn [nth] in A1, A2, B1, B2, C1, C2.
  apply look_ok in A1 as (v1 & A1 & N1 & _), A2 as (v2 & A2 & N2 & _), B1 as (v3 & B1 & N3 & _), B2 as (v4 & B2 & N4 & _), C1 as (v5 & C1 & N5 & _), C2 as (v6 & C2 & N6 & _).
  split; [|split].
  - exists v1, v2. do 4 (split; [assumption|]). intros H. apply mem_in in H. vm_compute in H. discriminate H.
  - exists v3, v4. do 4 (split; [assumption|]). intros H. apply mem_in in H. vm_compute in H. discriminate H.
  - exists v5, v6. do 4 (split; [assumption|]). cbn. auto.
Qed.
Lemma C71_text_lemma : exists recs recs' s s' ic v v', subseq recs rv64 /\ subseq recs' rv32p /\
  make_decoder [] [] 1 [] [] recs = Ok s /\ make_decoder [] [] 1 [] [] recs' = Ok s' /\
  decode (A := unit) (U := unit) s ic = Ok v /\ decode (A := unit) (U := unit) s' ic = Ok v' /\
  d_mnemonic (i_di v) = "clz"%string /\ d_mnemonic (i_di v') = "clz"%string /\
  info_dasm v = Ok ("clz" ++ tab ++ "x1,x1")%string /\ info_dasm v' = Ok ("clz" ++ tab ++ "x1,x1, SHAMTW=0")%string.
Proof.
  destruct (looks_ok _ _ _ looks64) as (s & E & Q), (looks_ok _ _ _ looks32) as (s' & E' & Q').
  unfold codes in Q, Q'. cbn [map] in Q, Q'.
  pose proof (f_equal (fun l => nth 3 l None) Q) as A1. pose proof (f_equal (fun l => nth 3 l None) Q') as A2. cbn [nth] in A1, A2.
  apply look_ok in A1 as (v1 & A1 & N1 & _ & _ & T1), A2 as (v2 & A2 & N2 & _ & _ & T2).
  exists (some_of rv64), (some_of rv32p), s, s', 0x60009093, v1, v2. split; [apply subseq_filter|]. split; [apply subseq_filter|]. auto 10.
Qed.
Lemma C71_pairs_lemma : exists recs recs' s s' ic v v', subseq recs rv64 /\ subseq recs' rv32p /\
  make_decoder [] [] 1 [] [] recs = Ok s /\ make_decoder [] [] 1 [] [] recs' = Ok s' /\
  decode (A := unit) (U := unit) s ic = Ok v /\ decode (A := unit) (U := unit) s' ic = Ok v' /\
  d_mnemonic (i_di v) = "ld"%string /\ d_mnemonic (i_di v') = "ld"%string /\
  List.length (oi_elems (d_dst_oi (i_di v))) = 1%nat /\ List.length (oi_elems (d_dst_oi (i_di v'))) = 2%nat.
Proof.
  destruct (looks_ok _ _ _ looks64) as (s & E & Q), (looks_ok _ _ _ looks32) as (s' & E' & Q').
  unfold codes in Q, Q'. cbn [map] in Q, Q'.
  pose proof (f_equal (fun l => nth 4 l None) Q) as A1. pose proof (f_equal (fun l => nth 4 l None) Q') as A2. cbn [nth] in A1, A2.
  apply look_ok in A1 as (v1 & A1 & N1 & K1 & _), A2 as (v2 & A2 & N2 & K2 & _).
  exists (some_of rv64), (some_of rv32p), s, s', 0x43503, v1, v2. split; [apply subseq_filter|]. split; [apply subseq_filter|]. auto 10.
Qed.
