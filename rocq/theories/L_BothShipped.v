(** The shipped RV32 and RV64 tables define most instructions alike (C71). *)
From Coq Require Import NArith List Bool String Lia.
From Verif Require Import M_Base M_Field M_Forms M_Meta M_OperandInfo M_Extract M_Decoded M_Registry M_Trie M_Builder M_DTable M_Raw G_Tables.
From Verif Require Import S_Bits L_Bits S_Trie S_Table S_Shipped S_Both L_Trie L_Table L_Decode L_Total L_Shipped L_Claims L_Both.
Import ListNotations.
Local Open Scope N_scope.

Definition oc_dec (a b : oper_clause) : {a = b} + {a <> b}.
Proof. repeat decide equality. Defined.
Definition raw_dec (a b : raw) : {a = b} + {a <> b}.
Proof. repeat decide equality. Defined.
Definition jm_dec (a b : option (list string) * option N * list (kind * oper_clause) * list (option N * string) * list string * option string * option (option string * option (list N))) : {a = b} + {a <> b}.
Proof. repeat decide equality. Defined.
(** What a record says about its meta-data, but for the names of fixed fields. *)
Definition says_meta (w : raw) := (w_type w, w_data w, w_oper w, w_isa w, w_tags w, w_expand w, w_overlay w).
Definition ls_dec (a b : list string) : {a = b} + {a <> b}.
Proof. repeat decide equality. Defined.
Definition no_operands (l : list string) : bool := match l with [n] => String.eqb n "shamt" || String.eqb n "shamtw" | _ => false end.
Definition same_fixed (a b : list string) : bool := if ls_dec a b then true else no_operands a && no_operands b.
Definition named_w (w : raw) (n : string) : bool := match w_mn w with Some m => String.eqb m n | None => false end.
Definition mem (n : string) (l : list string) : bool := existsb (String.eqb n) l.
Definition reshaped : list string := shifts ++ pairs.
Definition alike_w (n : string) (w w' : raw) : bool :=
  if jm_dec (says_meta w) (says_meta w') then
    if same_fixed (w_fixed w) (w_fixed w') then if raw_dec w w' then true else mem n reshaped else false
  else false.
Definition alikeb (all : list raw) : bool :=
  forallb (fun w => match w_mn w with
    | None => true
    | Some n =>
        if forallb (fun w' => if named_w w' n then alike_w n w w' else true) all then
          match w_overlay w with
          | Some (Some b, _) => negb (mem b reshaped)
          | Some (None, _) => true
          | None => negb (String.eqb n "nop" || String.eqb n "cmov")
          end
        else false
    end) all.
Definition all_raw : list raw := raw_rv64 ++ raw_rv32 (isa_rv32cf ++ isa_rv32zclsd).
Lemma all_alike : alikeb all_raw = true.
Proof. vm_compute. reflexivity. Qed.

Lemma mem_in n l : mem n l = true <-> In n l.
Proof.
  unfold mem. rewrite existsb_exists. split; [intros (x & H & E); apply String.eqb_eq in E; now subst|].
  intros H. exists n. split; [exact H|apply String.eqb_refl].
Qed.
Lemma alikeb_ok all : alikeb all = true -> forall w w' n, In w all -> In w' all -> w_mn w = Some n -> w_mn w' = Some n ->
  says_meta w = says_meta w' /\ same_fixed (w_fixed w) (w_fixed w') = true /\ (w = w' \/ In n reshaped) /\
  (forall b m, w_overlay w = Some (Some b, m) -> ~ In b reshaped) /\ (w_overlay w = None -> ~ custom n).
Proof.
  intros H w w' n I I' N N'. unfold alikeb in H. rewrite forallb_forall in H. specialize (H w I). rewrite N in H.
  destruct (forallb _ all) eqn:F; [|discriminate]. rewrite forallb_forall in F. specialize (F w' I'). unfold named_w in F. rewrite N', String.eqb_refl in F.
  unfold alike_w in F. destruct (jm_dec _ _) as [E|]; [|discriminate]. destruct (same_fixed _ _) eqn:E2; [|discriminate].
  split; [exact E|]. split; [reflexivity|]. split; [|split].
  - destruct (raw_dec w w'); [now left|right]. now apply mem_in.
  - intros b m O B. rewrite O in H. apply mem_in in B. rewrite B in H. discriminate.
  - intros O [->| ->]; rewrite O in H; discriminate.
Qed.
Lemma fixed_meta_alike l l' m : same_fixed l l' = true ->
  match l with [] => m | fl => add_fixed_fields fl m end = match l' with [] => m | fl => add_fixed_fields fl m end.
Proof.
  unfold same_fixed. destruct (ls_dec l l') as [->|_]; [reflexivity|]. intros H. apply andb_true_iff in H as [H H'].
  assert (Q : forall l, no_operands l = true -> l = ["shamt"]%string \/ l = ["shamtw"]%string).
  { intros [|n [|]]; cbn [no_operands]; try discriminate. intros E. apply orb_true_iff in E as [E|E]; apply String.eqb_eq in E; subst; auto. }
  apply Q in H. apply Q in H'. destruct H as [->| ->], H' as [->| ->]; reflexivity.
Qed.
Lemma own_meta_alike w w' : says_meta w = says_meta w' -> same_fixed (w_fixed w) (w_fixed w') = true -> own_meta (rec_of w) = own_meta (rec_of w').
Proof.
  unfold says_meta. intros E F. injection E as E1 E2 E3 E4 E5 E6 E7. unfold own_meta, rec_of, jmeta_of. cbn [r_meta r_expand r_tags r_fixed].
  rewrite E1, E2, E3, E4, E5, E6. destruct (make_meta _ _ _) as [m| | |]; cbn [rbind]; try reflexivity. f_equal.
  pose proof (fixed_meta_alike (w_fixed w) (w_fixed w') m F) as Q. destruct (w_fixed w), (w_fixed w'); exact Q.
Qed.
Lemma shipped_all T r : shipped T -> In r T -> exists w, In w all_raw /\ r = rec_of w.
Proof.
  assert (Q : forall x, incl x (isa_rv32cf ++ isa_rv32zclsd) -> forall w, In w (raw_rv32 x) -> In w all_raw).
  { intros x X w H. unfold all_raw. apply in_or_app. right. unfold raw_rv32 in *. apply in_concat in H as (l & L & H). apply in_concat.
    cbn [In] in L. repeat (destruct L as [<-|L]; [eexists; split; [|exact H]; cbn [In]; tauto|]).
    destruct L as [<-|[]]. exists (isa_rv32cf ++ isa_rv32zclsd)%list. split; [cbn [In]; tauto|now apply X]. }
  intros [] H; apply in_map_iff in H as (w & <- & H); exists w; (split; [|reflexivity]).
  - apply in_or_app. now left.
  - apply (Q isa_rv32cf); [|exact H]. intros a A. apply in_or_app. now left.
  - apply (Q isa_rv32zclsd); [|exact H]. intros a A. apply in_or_app. now right.
Qed.

Section Parts.
Context (K K' : list irec) (HK : forall r, In r K -> exists w, In w all_raw /\ r = rec_of w) (HK' : forall r, In r K' -> exists w, In w all_raw /\ r = rec_of w).
Lemma part_record n : ~ In n reshaped -> one_record K K' n.
Proof.
  intros NR r r' I I' N N'. destruct (HK r I) as (w & W & ->), (HK' r' I') as (w' & W' & ->).
  destruct (alikeb_ok _ all_alike w w' n W W' N N') as (_ & _ & [->|Q] & _); [reflexivity|contradiction].
Qed.
Lemma part_meta n : one_meta K K' n.
Proof.
  split.
  - intros r r' I I' [N _] [N' _]. destruct (HK r I) as (w & W & ->), (HK' r' I') as (w' & W' & ->).
    destruct (alikeb_ok _ all_alike w w' n W W' N N') as (E1 & E2 & _). now apply own_meta_alike.
  - intros C. assert (Q : forall X, (forall r, In r X -> exists w, In w all_raw /\ r = rec_of w) -> ~ exists r, In r X /\ is_inst r n).
    { intros X HX (r & I & N & O). destruct (HX r I) as (w & W & ->). destruct (alikeb_ok _ all_alike w w n W W N N) as (_ & _ & _ & _ & Q).
      apply Q; [|exact C]. cbn [rec_of r_overlay] in O. destruct (w_overlay w) as [[? ?]|]; [discriminate|reflexivity]. }
    split; intros H; exfalso; [apply (Q K HK H)|apply (Q K' HK' H)].
Qed.
Lemma part_alike n : ~ In n reshaped -> defined_alike K K' n.
Proof.
  intros NR. split; [now apply part_record|]. intros r I N. split; [intros _; apply part_meta|].
  intros base mask value (_ & jo & O & B & _). apply part_record. destruct (HK r I) as (w & W & ->).
  destruct (alikeb_ok _ all_alike w w n W W N N) as (_ & _ & _ & Q & _). cbn [rec_of r_overlay] in O.
  destruct (w_overlay w) as [[b m]|]; [|discriminate]. injection O as <-. cbn [jo_base] in B. subst b. now apply (Q base m).
Qed.
End Parts.
Lemma part_all incl excl recs T : shipped T -> subseq recs T -> forall r, In r (kept incl excl recs) -> exists w, In w all_raw /\ r = rec_of w.
Proof. intros H S r I. apply (shipped_all T); [exact H|]. exact (subseq_in _ _ (kept_sub incl excl recs T S) r I). Qed.

Lemma shipped_alike T T' recs recs' uids uids' annos annos' nu nu' incl excl incl' excl' s s' :
  shipped T -> shipped T' -> subseq recs T -> subseq recs' T' -> 0 < nu < w32 -> 0 < nu' < w32 ->
  make_decoder uids annos nu incl excl recs = Ok s -> make_decoder uids' annos' nu' incl' excl' recs' = Ok s' ->
  forall A U ic v v', decode (A := A) (U := U) s ic = Ok v -> decode (A := A) (U := U) s' ic = Ok v' ->
  d_mnemonic (i_di v) = d_mnemonic (i_di v') -> ~ In (d_mnemonic (i_di v)) reshaped -> same_answer (Ok v) (Ok v').
Proof.
  intros HT HT' S S' HN HN' HD HD' A U ic v v' H H' EM NR.
  apply (both_alike _ _ _ _ _ _ _ _ _ _ _ _ _ _ ic HN HN' HD HD' (shipped_kept_wf _ _ _ _ HT S) (shipped_kept_wf _ _ _ _ HT' S') (A := A) (U := U) v v' H H' EM).
  apply part_alike; [exact (part_all _ _ _ _ HT S)|exact (part_all _ _ _ _ HT' S')|exact NR].
Qed.
