(** Claim C49: which of li and mv "addi rd, x0, 0" is. *)
From Coq Require Import Ascii NArith ZArith Arith List Bool String Lia.
From Verif Require Import M_Base M_Field M_Forms M_Meta M_OperandInfo M_Extract M_Decoded M_Trie M_Builder M_DTable M_Raw.
From Verif Require Import S_Bits L_Bits S_Trie S_Table S_Shipped S_Reserved S_Manual S_Manual32 S_Sdsp.
From Verif Require Import L_Trie L_Table L_Check L_Decode L_Readable L_Claims L_Shipped L_Reserved L_Manual L_ManualFull L_Sdsp L_ManualClaims.
Import ListNotations.
Local Open Scope N_scope.

Definition tieb (T : list irec) (a b : string) : bool :=
  let R := rows T in
  forallb (fun o => forallb (fun o' => if disjointb (o_q o') (o_q o) then true else beatsb o' o) (named_in R a)) (named_in R b).
Lemma book_tie T B : book_of T B -> tieb T "li" "mv" = true.
Proof. intros []; vm_compute; reflexivity. Qed.

Section Books.
Context (T : list irec) (B : book) (BO : book_of T B).
Context (recs : list irec) (uids : list (string * N)) (annos : list (string * anno)) (nu : N) (incl excl : list pattern) (s : builder * tree).
Context (SB : subseq recs T) (HN : 0 < nu < w32) (HD : make_decoder uids annos nu incl excl recs = Ok s).
Let K := kept incl excl recs.
Let SI : forall r, In r K -> In r T := subseq_in _ _ (kept_sub incl excl recs T SB).
Context (A U : Type) (ic : N).
Lemma tie_lemma v m : decode (A := A) (U := U) s ic = Ok v -> provided K "li" -> In m (bk_rows B) -> mi_name m = "li"%string -> fits (mi_pat m) ic ->
  d_mnemonic (i_di v) <> "mv"%string.
Proof.
  intros E PL IM NM F MV. pose proof (C38_decodes_lemma T recs uids annos nu incl excl s (book_shipped T B BO) SB HN HD A U ic) as D. rewrite E in D.
  pose proof (book_ok T B BO) as CK. unfold bookb in CK. cbv zeta in CK. repeat (apply andb_true_iff in CK as [CK ?]).
  assert (X : exists o e y, In o (rows T) /\ selected (encodings K) e ic /\ read_as K o e ic y /\ d_mnemonic (i_di v) = rd_mn y /\ provided K (rd_mn y)) by (eapply part_row; eauto).
  destruct X as (o & e & y & I & S & R & EN & _). rewrite MV in EN. assert (RN : o_n o = "mv"%string) by (rewrite EN; apply R).
  assert (C : exists o', In o' (rows T) /\ o_n o' = mi_name m /\ inside (o_q o') ic) by (eapply covered_ok; eauto). destruct C as (o' & C1 & C2 & C3).
  pose proof (book_tie T B BO) as TT. unfold tieb in TT. cbv zeta in TT. rewrite forallb_forall in TT.
  assert (I1 : In o (named_in (rows T) "mv")) by (apply filter_In; split; [exact I|now apply String.eqb_eq]). specialize (TT _ I1). rewrite forallb_forall in TT.
  assert (I2 : In o' (named_in (rows T) "li")) by (apply filter_In; split; [exact C1|apply String.eqb_eq; congruence]). specialize (TT _ I2).
  destruct (disjointb (o_q o') (o_q o)) eqn:DJ; [apply (disjointb_ok _ _ _ DJ C3); apply R|].
  rewrite <- NM, <- C2 in PL. eapply beats; eauto.
Qed.
Lemma complete_lemma m : ic < 2 ^ 64 -> (T = rv32p -> ~ sdsp_x0 ic) -> provided K (mi_name m) -> closest (bk_rows B) K m ic ->
  (exists v, decode (A := A) (U := U) s ic = Ok v /\
     (d_mnemonic (i_di v) = mi_name m \/ In (d_mnemonic (i_di v)) (bk_patterns B) \/
      mi_name m = "mv"%string /\ d_mnemonic (i_di v) = "li"%string)) \/
  (decode (A := A) (U := U) s ic = Throw EIllegalOpcode /\
     ((exists p, In p (bk_reserved B) /\ fits p ic) \/ exists m, In m (bk_rows B) /\ fits (mi_pat m) ic /\ ~ provided K (mi_name m))).
Proof.
  intros BD NP P C. destruct (C49_complete_lemma T B BO recs uids annos nu incl excl s SB HN HD A U ic BD m NP P C) as [(v & E & X)|X]; [|right; exact X].
  left. exists v. split; [exact E|]. destruct X as [X|[X|[X Y]]]; [auto|auto|]. destruct C as (I & F & _).
  destruct X as [X|[X|[]]], Y as [Y|[Y|[]]]; [left; congruence| |right; right; auto|left; congruence].
  exfalso. rewrite <- X in P. exact (tie_lemma v m E P I (eq_sym X) F (eq_sym Y)).
Qed.
End Books.
Definition tied : option (string * string) :=
  match make_decoder [] [] 1 [] [] rv64 with
  | Ok s => match decode (A := unit) (U := unit) s 0x00000513, decode (A := unit) (U := unit) s 0x00058513 with
            | Ok v, Ok w => Some (d_mnemonic (i_di v), d_mnemonic (i_di w)) | _, _ => None end
  | _ => None
  end.
Lemma tied_ok a b : tied = Some (a, b) -> exists s v w, make_decoder [] [] 1 [] [] rv64 = Ok s /\
  decode (A := unit) (U := unit) s 0x00000513 = Ok v /\ d_mnemonic (i_di v) = a /\ decode (A := unit) (U := unit) s 0x00058513 = Ok w /\ d_mnemonic (i_di w) = b.
Proof.
  unfold tied. generalize rv64. intros T. destruct (make_decoder [] [] 1 [] [] T) as [s|e| |]; try discriminate.
  destruct (decode s 0x00000513) as [v|e| |] eqn:E1; try discriminate. destruct (decode s 0x00058513) as [w|e| |] eqn:E2; try discriminate.
  intros [= <- <-]. exists s, v, w. auto 10.
Qed.
Lemma tied_case : exists s v w, make_decoder [] [] 1 [] [] rv64 = Ok s /\
  decode (A := unit) (U := unit) s 0x00000513 = Ok v /\ d_mnemonic (i_di v) = "li"%string /\
  decode (A := unit) (U := unit) s 0x00058513 = Ok w /\ d_mnemonic (i_di w) = "mv"%string.
Proof. apply tied_ok. vm_compute. reflexivity. Qed.
Lemma tied_rows : provided rv64 "li" /\ forall n, In n ["li"; "mv"]%string -> exists m, In m manual64 /\ mi_name m = n /\ fits (mi_pat m) 0x00000513.
Proof.
  assert (F : forall n, existsb (fun m => if String.eqb (mi_name m) n then fitsb (mi_pat m) 0x00000513 else false) manual64 = true ->
    exists m, In m manual64 /\ mi_name m = n /\ fits (mi_pat m) 0x00000513).
  { intros n E. apply existsb_exists in E as (m & E1 & E2). destruct (String.eqb (mi_name m) n) eqn:Q; [|discriminate].
    apply String.eqb_eq in Q. apply fitsb_ok in E2. eauto. }
  assert (G : forall n, In n ["li"; "mv"]%string -> exists m, In m manual64 /\ mi_name m = n /\ fits (mi_pat m) 0x00000513)
    by (intros n [<-|[<-|[]]]; apply F; vm_compute; reflexivity).
  split; [|exact G]. destruct (G "li"%string (or_introl eq_refl)) as (m & I & N & _). rewrite <- N. exact (book_provides _ _ m book64 I).
Qed.
