(** Claim C64: precision and width of the operands of the shipped tables. *)
From Coq Require Import NArith List Bool String Lia.
From Verif Require Import M_Base M_Field M_Forms M_Meta M_OperandInfo M_Extract M_Decoded M_Trie M_Builder M_DTable M_Raw.
From Verif Require Import S_Bits L_Bits S_Trie S_Table S_Shipped S_Reserved S_Slots S_Pairs S_Regs S_Manual S_Manual32 S_Classes S_Widths.
From Verif Require Import L_Trie L_Table L_Check L_Decode L_Readable L_Claims L_Shipped L_Reserved L_Manual L_ManualFull L_ManualClaims L_DasmTables.
From Verif Require Import L_Pairs L_Dasm L_Classes.
Import ListNotations.
Local Open Scope list_scope.
Local Open Scope N_scope.

Definition types (q : port) (c : xcls) (ffm : N) (mt : meta) : list (option kind) :=
  match q with
  | Dest => if is_pair_load c then [mt_otype mt RD] else map (slot_otype mt) (live ffm (dst_slots c))
  | Source => if is_pair_store c then [mt_otype mt RS1; mt_otype mt RS2] else map (slot_otype mt) (live ffm (src_slots c))
  end.
Lemma types_ok q c ffm mt n u ic d e : pair_ok c ffm -> decode_info n u (ext c ffm) mt ic = Ok d -> In e (operands_at q d) ->
  In (e_type e) (types q c ffm mt).
Proof.
  intros P D I. unfold operands_at in I. destruct q; cbn [types].
  - rewrite (dst_list _ _ _ _ _ _ _ P D) in I. destruct (is_pair_load c).
    + unfold pair_dests in I. destruct (_ =? 0); [destruct I|]. destruct I as [<-|[<-|[]]]; now left.
    + unfold slot_elems in I. apply in_map_iff in I as (s & <- & I). apply in_map_iff. exists s. auto.
  - rewrite (src_list _ _ _ _ _ _ _ P D) in I. destruct (is_pair_store c).
    + assert (X : forall sd, In e (mkE (Some RS1) (mt_otype mt RS1) (pair_base c ic) false false :: pair_data mt sd (pair_first c ic)) ->
        In (e_type e) [mt_otype mt RS1; mt_otype mt RS2]).
      { intros sd [<-|H]; [now left|]. unfold pair_data in H. destruct (_ =? 0); [destruct H|]. destruct H as [<-|[<-|[]]]; right; now left. }
      unfold pair_srcs in I. destruct c; try (exact (X _ I)); (destruct (pair_first _ ic =? 0); [destruct I|exact (X _ I)]).
    + unfold slot_elems in I. apply in_map_iff in I as (s & <- & I). apply in_map_iff. exists s. auto.
Qed.
Definition words (q : port) : list string := match q with Dest => word_dests | Source => word_sources end.
Definition floats (m : mode) (q : port) (k : kind) : list string := match q with Dest => float_dests m k | Source => float_sources m k end.
Definition width_okb (m : mode) (p : port) (t : option kind) (X : list (xcls * N)) (q : N * N) : bool :=
  match t with
  | None | Some KVector => true
  | Some KLong => forallb (fun w => disjointb q (pat_mv w)) (words p)
  | Some KWord => forallb (fun cf => coverb reg_bits q (map pat_mv (words p) ++ res_sets cf)) X
  | Some k => forallb (fun cf => coverb reg_bits q (map pat_mv (floats m p k) ++ res_sets cf)) X
  end.
Lemma cover_ok l X q cf ic : forallb (fun cf => coverb reg_bits q (map pat_mv l ++ res_sets cf)) X = true -> In cf X ->
  (match res_set (fst cf) (snd cf) with Some z => ~ inside z ic | None => True end) -> inside q ic -> some_fits l ic.
Proof.
  intros FA H6 H7 H5. rewrite forallb_forall in FA. specialize (FA _ H6).
  destruct (coverb_ok _ _ _ _ FA H5) as (z & Q1 & Q2). apply in_app_or in Q1 as [Q1|Q1].
  - apply in_pats. exists z. auto.
  - exfalso. unfold res_sets in Q1. destruct (res_set _ _) as [z'|]; [|destruct Q1]. destruct Q1 as [<-|[]]. exact (H7 Q2).
Qed.
Lemma width_ok m p k X q cf ic : width_okb m p (Some k) X q = true -> In cf X ->
  (match res_set (fst cf) (snd cf) with Some z => ~ inside z ic | None => True end) -> inside q ic -> operates m p k ic.
Proof.
  intros W IX NR IQ. destruct k; cbn [width_okb operates] in *; try exact I; try exact (cover_ok _ _ _ _ _ W IX NR IQ).
  intros (w & W1 & W2). rewrite forallb_forall in W. specialize (W w W1). apply pat_fits in W2. exact (disjointb_ok _ _ _ W IQ W2).
Qed.
Definition pairfb (c : xcls) (ffm : N) : bool := if is_pair c then pair_free c ffm else true.
Definition typedb (m : mode) (n : string) (t : option kind) : bool := match t with Some _ => true | None => mem n (untyped m) end.
Definition widthsb (m : mode) : bool :=
  let T := table_of m in let R := rows T in
  forallb (fun r => let X := exts r in forallb (fun y => let '(n, c, ffm, mt) := y in
    if pairfb c ffm then forallb (fun p => let t := types p c ffm mt in
      if forallb (typedb m n) t then forallb (fun o => forallb (fun t => width_okb m p t X (o_q o)) t) (named_in R n) else false) [Dest; Source]
    else false) (readings T r)) T.
Lemma widths_ok m : widthsb m = true.
Proof. destruct m; vm_compute; reflexivity. Qed.

(** ** One kind of each bank *)
Definition apartb (l l' : list string) : bool := forallb (fun p => forallb (fun p' => disjointb (pat_mv p) (pat_mv p')) l') l.
Lemma apart_ok l l' ic : apartb l l' = true -> some_fits l ic -> some_fits l' ic -> False.
Proof.
  intros A (p & P1 & P2) (p' & P3 & P4). unfold apartb in A. rewrite forallb_forall in A. specialize (A _ P1). rewrite forallb_forall in A.
  specialize (A _ P3). apply pat_fits in P2, P4. exact (disjointb_ok _ _ _ A P2 P4).
Qed.
Lemma apart_all m p : apartb (floats m p KSingle) (floats m p KDouble) = true /\ apartb (floats m p KSingle) (floats m p KQuad) = true /\
  apartb (floats m p KDouble) (floats m p KQuad) = true.
Proof. destruct m, p; vm_compute; auto. Qed.
Lemma C64_one_lemma m p k k' ic : bank_of k = bank_of k' -> operates m p k ic -> operates m p k' ic -> k = k'.
Proof.
  destruct (apart_all m p) as (A1 & A2 & A3). intros B O O'. destruct k, k'; try reflexivity; try discriminate B; exfalso; cbn [operates] in O, O'; try contradiction.
  all: first [exact (apart_ok _ _ _ A1 O O')|exact (apart_ok _ _ _ A1 O' O)|exact (apart_ok _ _ _ A2 O O')|exact (apart_ok _ _ _ A2 O' O)
    |exact (apart_ok _ _ _ A3 O O')|exact (apart_ok _ _ _ A3 O' O)].
Qed.

Section Modes.
Context (m : mode) (recs : list irec) (uids : list (string * N)) (annos : list (string * anno)) (nu : N) (incl excl : list pattern) (s : builder * tree).
Context (SB : subseq recs (table_of m)) (HN : 0 < nu < w32) (HD : make_decoder uids annos nu incl excl recs = Ok s).
Context (A U : Type) (ic : N) (v : info) (BD : ic < 2 ^ 64) (DC : decode (A := A) (U := U) s ic = Ok v).
Let K := kept incl excl recs.
Let T := table_of m.
Let SI : forall r, In r K -> In r T := subseq_in _ _ (kept_sub incl excl recs T SB).
Lemma widths_read p e : In e (operands_at p (i_di v)) ->
  typedb m (d_mnemonic (i_di v)) (e_type e) = true /\ forall k, e_type e = Some k -> operates m p k ic.
Proof.
  intros IE. destruct (mode_checks m) as (_ & _ & C3 & _ & C5 & _).
  destruct (read_rows' _ _ _ _ _ C3 C5 SI BD (mode_decodes m recs uids annos nu incl excl s SB HN HD A U ic v DC))
    as (r & c & ffm & o & cf & e0 & y & H1 & H2 & H3 & H4 & H5 & H6 & H7 & _ & _ & _ & n & w & H8).
  pose proof (widths_ok m) as W. unfold widthsb in W. cbv zeta in W. rewrite forallb_forall in W. specialize (W _ H1). rewrite forallb_forall in W. specialize (W _ H2).
  cbv beta iota in W. destruct (pairfb c ffm) eqn:PF; [|discriminate].
  assert (PO : pair_ok c ffm) by (intros Q; unfold pairfb in PF; rewrite Q in PF; exact PF).
  pose proof (types_ok p c ffm _ _ _ _ _ _ PO H8 IE) as TY. rewrite forallb_forall in W. specialize (W p).
  assert (IP : In p [Dest; Source]) by (destruct p; cbn; auto). specialize (W IP). destruct (forallb (typedb m _) _) eqn:TB; [|discriminate].
  rewrite forallb_forall in TB. specialize (TB _ TY). split; [exact TB|]. intros k E. rewrite forallb_forall in W. specialize (W o).
  rewrite forallb_forall in W.
  assert (NI : In o (named_in (rows (table_of m)) (d_mnemonic (i_di v)))) by (apply filter_In; split; [auto|now apply String.eqb_eq]).
  specialize (W NI _ TY). rewrite E in W. exact (width_ok _ _ _ _ _ _ _ W H6 H7 H5).
Qed.
Lemma C64_width_lemma p e k : In e (operands_at p (i_di v)) -> e_type e = Some k -> operates m p k ic.
Proof. intros I. now apply widths_read. Qed.
Lemma C64_typed_lemma p e : In e (operands_at p (i_di v)) -> ~ In (d_mnemonic (i_di v)) (untyped m) -> e_type e <> None.
Proof. intros I N E. destruct (widths_read p e I) as [H _]. rewrite E in H. cbn [typedb] in H. now apply mem_in in H. Qed.
End Modes.
