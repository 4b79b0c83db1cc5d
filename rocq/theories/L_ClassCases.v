(** Claim C62: where the tables differ from the opcode map, and examples. *)
From Coq Require Import NArith List Bool String Lia.
From Verif Require Import M_Base M_Field M_Forms M_Meta M_OperandInfo M_Extract M_Decoded M_Trie M_Builder M_DTable M_Raw.
From Verif Require Import S_Bits S_Trie S_Table S_Shipped S_Reserved S_Manual S_Manual32 S_Classes.
From Verif Require Import L_Trie L_Table L_Check L_Decode L_Readable L_Claims L_Shipped L_Manual L_ManualFull L_ManualClaims L_Classes.
Import ListNotations.
Local Open Scope list_scope.
Local Open Scope N_scope.

Definition in_classb (c : class) (ic : N) : bool := existsb (fun p => fitsb p ic) (cl_pats c).
Lemma in_classb_ok c ic : in_classb c ic = true -> in_class c ic.
Proof. unfold in_classb. intros H. apply existsb_exists in H as (p & H1 & H2). exists p. split; [auto|]. now apply fitsb_ok. Qed.
(** ** An opcode of the class that is not flagged, for every pattern left out *)
Definition left_outb (s : builder * tree) (R : list orow) (c : class) (p : string) : bool :=
  let q := pat_mv p in
  existsb (fun o => if disjointb q (o_q o) then false else let ic := snd (both q (o_q o)) in
    if ic <? 2 ^ 64 then if fitsb p ic then if in_classb c ic then
      match pure_info (fst s) (snd s) ic with Ok v => negb (is_inst_type (i_meta v) (2 ^ cl_bit c)) | _ => false end else false else false else false) R.
Definition pf : N := 0x00106013.
Definition size_of (m : mode) (ic : N) : bool := existsb (fun e => existsb (fun p => fitsb p ic) (snd e)) (sizes m).
Definition omittedb (T : list irec) (m : mode) : bool :=
  match make_decoder [] [] 1 [] [] T with
  | Ok s => let R := rows T in
      if forallb (fun c => forallb (left_outb s R c) (cl_omitted c)) (classes m) then
        match pure_info (fst s) (snd s) pf with Ok v => if d_dsize (i_di v) =? 8 then negb (size_of m pf) else false | _ => false end
      else false
  | _ => false
  end.
Lemma omitted_ok : omittedb rv64 Rv64 = true.
Proof. vm_compute. reflexivity. Qed.
Lemma omitted_all T m : omittedb T m = true -> exists s, make_decoder [] [] 1 [] [] T = Ok s /\
  (forall c p, In c (classes m) -> In p (cl_omitted c) -> exists ic v, ic < 2 ^ 64 /\ decode (A := unit) (U := unit) s ic = Ok v /\
     fits p ic /\ in_class c ic /\ is_inst_type (i_meta v) (2 ^ cl_bit c) = false) /\
  (exists ic v, decode (A := unit) (U := unit) s ic = Ok v /\ d_dsize (i_di v) = 8 /\ forall n, ~ has_size m ic n).
Proof.
  unfold omittedb. intros H.
  destruct (make_decoder [] [] 1 [] [] T) as [s| | |]; try discriminate. exists s. split; [reflexivity|]. cbv zeta in H.
  destruct (forallb _ (classes m)) eqn:FA; [|discriminate]. split.
  - intros c p HC HP. rewrite forallb_forall in FA. specialize (FA _ HC). rewrite forallb_forall in FA. specialize (FA _ HP).
    unfold left_outb in FA. cbv zeta in FA. apply existsb_exists in FA as (o & _ & FA). destruct (disjointb _ _); [discriminate|].
    set (ic := snd (both (pat_mv p) (o_q o))) in FA. destruct (N.ltb_spec ic (2 ^ 64)) as [LT|]; [|discriminate]. destruct (fitsb p ic) eqn:F1; [|discriminate]. destruct (in_classb c ic) eqn:F2; [|discriminate].
    exists ic. rewrite decode_pure. destruct (pure_info _ _ ic) as [v| | |]; try discriminate. exists v. split; [exact LT|]. split; [reflexivity|].
    apply fitsb_ok in F1. apply in_classb_ok in F2. apply negb_true_iff in FA. auto.
  - exists pf. rewrite decode_pure. destruct (pure_info _ _ pf) as [v| | |]; try discriminate. exists v. split; [reflexivity|].
    destruct (N.eqb_spec (d_dsize (i_di v)) 8) as [E|]; [|discriminate]. split; [exact E|]. apply negb_true_iff in H.
    intros n (l & p & P1 & P2 & P3). apply not_true_iff_false in H. apply H. unfold size_of. apply existsb_exists. exists (n, l). split; [auto|].
    apply existsb_exists. exists p. split; [auto|]. now apply fitsb_ok.
Qed.

Lemma C62_omitted_lemma : exists s, make_decoder [] [] 1 [] [] rv64 = Ok s /\
  (forall c p, In c (classes Rv64) -> In p (cl_omitted c) -> exists ic v, ic < 2 ^ 64 /\ decode (A := unit) (U := unit) s ic = Ok v /\
     fits p ic /\ in_class c ic /\ is_inst_type (i_meta v) (2 ^ cl_bit c) = false) /\
  (exists ic v, decode (A := unit) (U := unit) s ic = Ok v /\ d_dsize (i_di v) = 8 /\ forall n, ~ has_size Rv64 ic n).
Proof. exact (omitted_all rv64 Rv64 omitted_ok). Qed.

(** ** Parts of a table: without c.jalr its opcodes are read as c.add *)
Definition only (l : list string) : list irec := filter (fun r => match r_mn r with Some n => mem n l | None => false end) rv64.
Definition adds : list irec := only ["add"; "c.add"]%string.
Definition jalr_c : class := nth 6 (classes Rv64) (mkClass "" 0 [] []).
Definition views (recs : list irec) (ops : list N) : option (list (option (N * N))) :=
  match make_decoder [] [] 1 [] [] recs with
  | Ok s => Some (map (fun ic => match pure_info (fst s) (snd s) ic with Ok v => Some (mt_types (i_meta v), d_dsize (i_di v)) | _ => None end) ops)
  | _ => None
  end.
Lemma views_ok recs ops l : views recs ops = Some l -> exists s, make_decoder [] [] 1 [] [] recs = Ok s /\
  Forall2 (fun ic x => forall t d, x = Some (t, d) -> exists v, decode (A := unit) (U := unit) s ic = Ok v /\ mt_types (i_meta v) = t /\ d_dsize (i_di v) = d) ops l.
Proof.
  unfold views. destruct (make_decoder _ _ _ _ _ _) as [s| | |]; try discriminate. intros [= <-]. exists s. split; [reflexivity|].
  induction ops as [|ic ops IH]; [constructor|]. cbn [map]. constructor; [|exact IH]. intros t d. rewrite decode_pure.
  destruct (pure_info _ _ ic) as [v| | |]; try discriminate. intros [= <- <-]. eauto.
Qed.
Lemma adds_views : views adds [0x9502] = Some [Some (5, 0)].
Proof. vm_compute. reflexivity. Qed.
Lemma C62_part_lemma : exists recs s ic v c, subseq recs rv64 /\ make_decoder [] [] 1 [] [] recs = Ok s /\ decode (A := unit) (U := unit) s ic = Ok v /\
  In c (classes Rv64) /\ in_class c ic /\ ~ omitted c ic /\ is_inst_type (i_meta v) (2 ^ cl_bit c) = false.
Proof.
  destruct (views_ok _ _ _ adds_views) as (s & E & Q). inversion Q as [|? ? ? ? Q1 _ EA EB]; subst. destruct (Q1 _ _ eq_refl) as (v & D & M & _).
  exists adds, s, 0x9502, v, jalr_c. split; [apply subseq_filter|]. split; [exact E|]. split; [exact D|].
  split; [do 6 right; left; reflexivity|]. split; [apply in_classb_ok; vm_compute; reflexivity|]. split; [intros (p & [] & _)|].
  unfold is_inst_type. rewrite M. reflexivity.
Qed.
(** lw, sc.d, amoadd.w, c.jalr x10, c.sw and vle8.v. *)
Definition mixed : list irec := only ["lw"; "sw"; "sc.d"; "amoadd.w"; "jalr"; "add"; "c.add"; "c.jalr"; "c.sw"; "vle8.v"]%string.
Definition mixed_ops : list N := [0x00052503; 0x18A5352F; 0x00A5252F; 0x9502; 0xC108; 0x02050007].
Lemma mixed_views : views mixed mixed_ops =
  Some [Some (2 ^ 0 + 2 ^ 10, 32); Some (2 ^ 0 + 2 ^ 11 + 2 ^ 60, 64); Some (2 ^ 0 + 2 ^ 10 + 2 ^ 60, 32); Some (2 ^ 5 + 2 ^ 9, 0);
        Some (2 ^ 0 + 2 ^ 11, 32); Some (2 ^ 10 + 2 ^ 18 + 2 ^ 19 + 2 ^ 20 + 2 ^ 24, 8)].
Proof. vm_compute. reflexivity. Qed.
Definition flags (m : mode) (v : info) : list string :=
  flat_map (fun c => if is_inst_type (i_meta v) (2 ^ cl_bit c) then [cl_name c] else []) (classes m).
Lemma flags_of m v t : mt_types (i_meta v) = t -> flags m v = flat_map (fun c => if N.land (2 ^ cl_bit c) t =? 2 ^ cl_bit c then [cl_name c] else []) (classes m).
Proof. intros <-. reflexivity. Qed.
Lemma C62_case : exists s, subseq mixed rv64 /\ make_decoder [] [] 1 [] [] mixed = Ok s /\
  Forall2 (fun ic x => exists v, decode (A := unit) (U := unit) s ic = Ok v /\ flags Rv64 v = fst x /\ d_dsize (i_di v) = snd x) mixed_ops
    [(["load"], 32); (["store"; "atomic"], 64); (["load"; "atomic"], 32); (["branch"; "jalr"], 0); (["store"], 32); (["load"; "vector"; "unit_stride"], 8)]%string.
Proof.
  destruct (views_ok _ _ _ mixed_views) as (s & E & Q). exists s. split; [apply subseq_filter|]. split; [exact E|].
  repeat (let H := fresh in let t := fresh in inversion Q as [|? ? ? ? H t]; subst; clear Q; rename t into Q;
    constructor; [destruct (H _ _ eq_refl) as (v & D & M & Z); exists v; split; [exact D|]; split; [rewrite (flags_of _ _ _ M); vm_compute; reflexivity|exact Z]|]).
  constructor.
Qed.
Lemma C62_whole_case : exists s ic v, make_decoder [] [] 1 [] [] rv64 = Ok s /\ kept [] [] rv64 = table_of Rv64 /\ ic < 2 ^ 64 /\
  decode (A := unit) (U := unit) s ic = Ok v /\ flags Rv64 v <> [].
Proof.
  destruct C62_omitted_lemma as (s & E & Q & _).
  destruct (Q (mkClass "store" 11 stores rmw) "...0... ..... ..... ... ..... 0101111"%string) as (ic & v & LT & D & F & _ & _).
  { right. left. reflexivity. }
  { left. reflexivity. }
  exists s, ic, v. split; [exact E|]. split; [apply kept_all|]. split; [exact LT|]. split; [exact D|].
  set (c := mkClass "atomic" 60 amos []). assert (HC : In c (classes Rv64)) by (right; right; left; reflexivity).
  assert (HN : 0 < 1 < w32) by (split; reflexivity).
  assert (FL : is_inst_type (i_meta v) (2 ^ cl_bit c) = true).
  { apply (C62_full_lemma Rv64 rv64 [] [] 1 [] [] s (subseq_refl _) HN E unit unit ic v LT D (kept_all _) c HC). split.
    - exists "....... ..... ..... ... ..... 0101111"%string. split; [now left|]. apply pat_fits in F. apply pat_fits.
      exact (within_ok (pat_mv "...0... ..... ..... ... ..... 0101111") (pat_mv "....... ..... ..... ... ..... 0101111") ic eq_refl F).
    - intros (p & [] & _). }
  intros N. enough (In "atomic"%string []) by auto. rewrite <- N. apply in_flat_map. exists c. split; [exact HC|]. rewrite FL. now left.
Qed.
