(** By which names the shipped RV32 and RV64 tables call an opcode (C71). *)
From Coq Require Import NArith List Bool String Lia PeanoNat.
From Verif Require Import M_Base M_Field M_Forms M_Meta M_OperandInfo M_Extract M_Decoded M_Builder M_DTable M_Raw G_Tables.
From Verif Require Import S_Bits S_Trie S_Table S_Shipped S_Both S_BothNames L_Check L_Decode L_Total L_Shipped L_Claims L_Manual.
Import ListNotations.
Local Open Scope N_scope.

(** ** Encodings *)
Lemma apartp_ok e e' : apartp (prep_of e) (prep_of e') = true -> apartb e e' = true.
Proof.
  unfold apartp, apartb. cbn [prep_of pr_lc pr_all pr_st]. destruct (length_class (en_stencil e) =? length_class (en_stencil e')); auto.
Qed.
(** An opcode that is an instance of [a] and of [b] is one of [c]. *)
Definition forced (a b c : prep) : bool :=
  if pr_lc c =? pr_lc a then
    match pr_all a, pr_all b, pr_all c with
    | Some ma, Some mb, Some mc =>
        if N.land mc (N.lor ma mb) =? mc then
          N.land (pr_st c) mc =? N.land (N.lor (N.land (pr_st a) ma) (N.land (pr_st b) mb)) mc
        else false
    | _, _, _ => false
    end
  else false.
Lemma forced_ok a b c ic : enc_ok a -> enc_ok b -> enc_ok c -> forced (prep_of a) (prep_of b) (prep_of c) = true ->
  matches a ic -> matches b ic -> matches c ic.
Proof.
  intros OA OB OC H MA MB. unfold forced in H. cbn [prep_of pr_lc pr_all pr_st] in H.
  destruct (N.eqb_spec (length_class (en_stencil c)) (length_class (en_stencil a))) as [LC|]; [|discriminate].
  destruct (all_mask a) as [ma|] eqn:EA; [|discriminate]. destruct (all_mask b) as [mb|] eqn:EB; [|discriminate].
  destruct (all_mask c) as [mc|] eqn:EC; [|discriminate].
  destruct (N.eqb_spec (N.land mc (N.lor ma mb)) mc) as [S|]; [|discriminate]. apply N.eqb_eq in H.
  apply (all_mask_matches _ _ _ OA EA) in MA as [MA1 MA2]. apply (all_mask_matches _ _ _ OB EB) in MB as [_ MB].
  apply (all_mask_matches _ _ _ OC EC). split; [congruence|]. rewrite H. apply N.bits_inj. intros i.
  apply (f_equal (fun x => N.testbit x i)) in MA2, MB, S.
  rewrite !N.land_spec, ?N.lor_spec in *. rewrite !N.land_spec, <- MA2, <- MB.
  destruct (N.testbit ma i), (N.testbit mb i), (N.testbit mc i), (N.testbit ic i); cbn in *; congruence.
Qed.
Definition msp (a b : prep) : bool :=
  if earlierb (pr_spec a) (pr_spec b) then true else
  if beqb (pr_spec a) (pr_spec b) then Nat.ltb (pr_n b) (pr_n a) else false.
Lemma msp_ok a b : msp (prep_of a) (prep_of b) = true -> more_specific a b.
Proof.
  intros H. apply more_specificb_ok. unfold msp, more_specificb in *. cbn [prep_of pr_spec pr_n] in H.
  destruct (earlierb _ _); [reflexivity|]. destruct (beqb _ _); [exact H|discriminate].
Qed.
(** Something more specific than [a] is matched by whatever [a] and [b] match. *)
Definition hidden (P : list (string * prep)) (a b : prep) : bool :=
  existsb (fun c => if forced a b (snd c) then msp (snd c) a else false) P.
Definition prepped (E : list enc) : list (string * prep) := map (fun e => (en_mn e, prep_of e)) E.
Lemma hidden_ok E a b ic : Forall enc_ok E -> enc_ok a -> enc_ok b -> hidden (prepped E) (prep_of a) (prep_of b) = true ->
  selected E a ic -> matches b ic -> False.
Proof.
  intros OE OA OB H (S1 & S2 & S3) M. unfold hidden in H. apply existsb_exists in H as (c & I & H).
  unfold prepped in I. apply in_map_iff in I as (e & <- & I). cbn [snd] in H.
  destruct (forced _ _ _) eqn:F; [|discriminate]. rewrite Forall_forall in OE.
  apply (S3 e I); [exact (forced_ok _ _ _ _ OA OB (OE e I) F S2 M)|now apply msp_ok].
Qed.

(** ** Names *)
Definition pmem (n m : string) (L : list (string * string)) : bool := existsb (fun p => if String.eqb (fst p) n then String.eqb (snd p) m else false) L.
Lemma pmem_in n m L : pmem n m L = true -> In (n, m) L.
Proof.
  unfold pmem. intros H. apply existsb_exists in H as ([a b] & I & H). cbn [fst snd] in H. destruct (String.eqb a n) eqn:E; [|discriminate].
  apply String.eqb_eq in E, H. now subst.
Qed.
(** Does an overlay have this base? *)
Definition based (K : list irec) (n : string) : bool :=
  existsb (fun r => match ovb r with Some (b, _, _) => String.eqb b n | None => false end) K.
Lemma based_hit K r mn b m v : In r K -> overlays r mn b m v -> based K b = true.
Proof. intros I O. unfold based. apply existsb_exists. exists r. split; [exact I|]. rewrite (ovb_ok _ _ _ _ _ O). apply String.eqb_refl. Qed.
Definition pair_ok (K K' : list irec) (L : list (string * string)) (n m : string) : bool :=
  if String.eqb n m then true else if based K n then false else if based K' m then false else pmem n m L.
Definition pairsb (K K' : list irec) (L : list (string * string)) (P P' : list (string * prep)) : bool :=
  forallb (fun p => forallb (fun q => if apartp (snd p) (snd q) then true else if hidden P (snd p) (snd q) then true else
    if hidden P' (snd q) (snd p) then true else pair_ok K K' L (fst p) (fst q)) P') P.
(** The overlay [r] is one of [K] too. *)
Definition has_ov (K : list irec) (r : irec) : bool :=
  existsb (fun r' => match r_mn r, r_mn r', ovb r, ovb r' with
    | Some n, Some n', Some (b, m, v), Some (b', m', v') =>
        if String.eqb n n' then if String.eqb b b' then if m =? m' then v =? v' else false else false else false
    | _, _, _, _ => false
    end) K.
Lemma ovb_overlays r n b m v : r_mn r = Some n -> ovb r = Some (b, m, v) -> overlays r n b m v.
Proof.
  intros N H. split; [exact N|]. unfold ovb in H. rewrite N in H. destruct (r_overlay r) as [jo|]; [|discriminate]. exists jo. split; [reflexivity|].
  destruct (jo_base jo) as [b'|]; [|discriminate]. destruct (jo_match jo) as [[|m' [|v' []]]|]; try discriminate. injection H as -> -> ->. auto.
Qed.
Lemma has_ov_ok K r n b m v : overlays r n b m v -> has_ov K r = true -> exists r', In r' K /\ overlays r' n b m v.
Proof.
  intros O H. unfold has_ov in H. apply existsb_exists in H as (r' & I & H). pose proof (ovb_ok _ _ _ _ _ O) as OV. destruct O as (N & _).
  rewrite N, OV in H. destruct (r_mn r') as [n'|] eqn:N'; [|discriminate]. destruct (ovb r') as [[[b' m'] v']|] eqn:O'; [|discriminate].
  destruct (String.eqb n n') eqn:E1; [|discriminate]. destruct (String.eqb b b') eqn:E2; [|discriminate].
  destruct (m =? m') eqn:E3; [|discriminate]. apply String.eqb_eq in E1, E2. apply N.eqb_eq in E3, H. subst n' b' m' v'.
  exists r'. split; [exact I|now apply ovb_overlays].
Qed.
(** The overlays of [K'] are overlays of [K]; one that only [K] has is listed, and its base has no other. *)
Definition ovsb (K K' : list irec) (L : list (string * string)) : bool :=
  if forallb (fun r => match ovb r with Some _ => has_ov K r | None => true end) K' then
    forallb (fun r => match ovb r, r_mn r with
      | Some (b, _, _), Some n => if has_ov K' r then true else if based K' b then false else pmem n b L
      | _, _ => true
      end) K
  else false.

Definition namesb (K K' : list irec) (L : list (string * string)) : bool :=
  let E := encodings K in let E' := encodings K' in
  if enc_oks E then if enc_oks E' then if ovsb K K' L then pairsb K K' L (prepped E) (prepped E') else false else false else false.

Lemma reads_name K r e ic y : reads K r e ic y ->
  (rd_mn y = en_mn e /\ forall mn mask, ~ overlay_hit K mn (en_mn e) mask ic) \/
  exists ro mask, In ro K /\ overlays ro (rd_mn y) (en_mn e) mask (N.land ic mask) /\
    forall mn mask', overlay_hit K mn (en_mn e) mask' ic -> popcount mask' <= popcount mask.
Proof.
  intros [[(N & _) H]|(ro & mask & I & (O & _) & M)]; [left; auto|right]. exists ro, mask. auto.
Qed.
Lemma overlay_mn r n b m v n' b' m' v' : overlays r n b m v -> overlays r n' b' m' v' -> n = n'.
Proof. intros (H & _) (H' & _). congruence. Qed.
Lemma names_ok K K' L ic r e y r' e' y' : namesb K K' L = true -> well_formed K ->
  listed K r e -> selected (encodings K) e ic -> reads K r e ic y ->
  listed K' r' e' -> selected (encodings K') e' ic -> reads K' r' e' ic y' ->
  rd_mn y = rd_mn y' \/ In (rd_mn y, rd_mn y') L.
Proof.
  intros H WF LI S R LI' S' R'. unfold namesb in H. cbv zeta in H.
  destruct (enc_oks (encodings K)) eqn:OE; [|discriminate]. destruct (enc_oks (encodings K')) eqn:OE'; [|discriminate].
  destruct (ovsb K K' L) eqn:OV; [|discriminate]. apply enc_oks_ok in OE, OE'.
  pose proof S as (I & M & _). pose proof S' as (I' & M' & _).
  assert (O : enc_ok e) by (rewrite Forall_forall in OE; auto). assert (O' : enc_ok e') by (rewrite Forall_forall in OE'; auto).
  unfold pairsb in H. rewrite forallb_forall in H. specialize (H (en_mn e, prep_of e)). cbn [fst snd] in H.
  assert (J : In (en_mn e, prep_of e) (prepped (encodings K))) by (unfold prepped; apply in_map_iff; eauto).
  assert (J' : In (en_mn e', prep_of e') (prepped (encodings K'))) by (unfold prepped; apply in_map_iff; eauto).
  specialize (H J). rewrite forallb_forall in H. specialize (H _ J'). cbn [fst snd] in H.
  destruct (apartp _ _) eqn:AP; [exfalso; exact (apartb_ok _ _ _ O O' (apartp_ok _ _ AP) M M')|].
  destruct (hidden (prepped (encodings K)) _ _) eqn:H1; [exfalso; exact (hidden_ok _ _ _ _ OE O O' H1 S M')|].
  destruct (hidden (prepped (encodings K')) _ _) eqn:H2; [exfalso; exact (hidden_ok _ _ _ _ OE' O' O H2 S' M)|].
  unfold ovsb in OV. destruct (forallb _ K') eqn:V'; [|discriminate]. rewrite forallb_forall in V', OV.
  apply reads_name in R. apply reads_name in R'. unfold pair_ok in H. destruct (String.eqb (en_mn e) (en_mn e')) eqn:EQ.
  - apply String.eqb_eq in EQ. rewrite <- EQ in R'.
    assert (UP : forall ro n b m v, In ro K' -> overlays ro n b m v -> exists ro', In ro' K /\ overlays ro' n b m v).
    { intros ro n b m v I0 O0. specialize (V' ro I0). rewrite (ovb_ok _ _ _ _ _ O0) in V'. exact (has_ov_ok _ _ _ _ _ _ O0 V'). }
    destruct R' as [[N' Z']|(ro' & m' & IO' & O1' & T')].
    + destruct R as [[N Z]|(ro & m & IO & O1 & T)]; [left; congruence|].
      specialize (OV ro IO). rewrite (ovb_ok _ _ _ _ _ O1) in OV. destruct (r_mn ro) as [n|] eqn:RN; [|destruct O1; congruence].
      assert (n = rd_mn y) by (destruct O1; congruence). subst n.
      destruct (has_ov K' ro) eqn:HO.
      * exfalso. destruct (has_ov_ok _ _ _ _ _ _ O1 HO) as (r2 & I2 & O2). apply (Z' (rd_mn y) m). exists r2. auto.
      * destruct (based K' (en_mn e)); [discriminate|]. right. rewrite N'. now apply pmem_in.
    + destruct (UP _ _ _ _ _ IO' O1') as (r2 & I2 & O2).
      destruct R as [[N Z]|(ro & m & IO & O1 & T)]; [exfalso; apply (Z (rd_mn y') m'); exists r2; auto|].
      specialize (OV ro IO). rewrite (ovb_ok _ _ _ _ _ O1) in OV. destruct (r_mn ro) as [n|] eqn:RN; [|destruct O1; congruence].
      destruct (has_ov K' ro) eqn:HO.
      * left. destruct (has_ov_ok _ _ _ _ _ _ O1 HO) as (r3 & I3 & O3).
        assert (P1 : popcount m <= popcount m') by (apply (T' (rd_mn y)); exists r3; auto).
        assert (P2 : popcount m' <= popcount m) by (apply (T (rd_mn y')); exists r2; auto).
        destruct (wf_overlays _ WF _ _ _ _ _ _ _ _ IO I2 O1 O2) as [->|Q]; [exact (overlay_mn _ _ _ _ _ _ _ _ _ O1 O2)|lia].
      * rewrite (based_hit _ _ _ _ _ _ IO' O1') in OV. discriminate.
  - destruct (based K (en_mn e)) eqn:B; [discriminate|]. destruct (based K' (en_mn e')) eqn:B'; [discriminate|].
    destruct R as [[N _]|(ro & m & IO & O1 & _)]; [|rewrite (based_hit _ _ _ _ _ _ IO O1) in B; discriminate].
    destruct R' as [[N' _]|(ro' & m' & IO' & O1' & _)]; [|rewrite (based_hit _ _ _ _ _ _ IO' O1') in B'; discriminate].
    right. rewrite N, N'. now apply pmem_in.
Qed.

(** ** Known opcodes *)
Definition coversb (K K' : list irec) : bool :=
  let E := encodings K in let E' := encodings K' in
  if enc_oks E then if enc_oks E' then let P := map prep_of E in forallb (fun e' => let q := prep_of e' in existsb (forced q q) P) E' else false else false.
Lemma covers_ok K K' ic e' : coversb K K' = true -> In e' (encodings K') -> matches e' ic -> exists e, In e (encodings K) /\ matches e ic.
Proof.
  intros H I M. unfold coversb in H. cbv zeta in H. destruct (enc_oks (encodings K)) eqn:OE; [|discriminate].
  destruct (enc_oks (encodings K')) eqn:OE'; [|discriminate]. apply enc_oks_ok in OE, OE'. rewrite Forall_forall in OE, OE'.
  rewrite forallb_forall in H. specialize (H e' I). apply existsb_exists in H as (p & J & F). apply in_map_iff in J as (e & <- & J).
  exists e. split; [exact J|]. exact (forced_ok _ _ _ _ (OE' _ I) (OE' _ I) (OE _ J) F M M).
Qed.

(** ** The shipped tables *)
Lemma names32p : namesb rv64 rv32p renamed = true.
Proof. vm_compute. reflexivity. Qed.
Lemma names32f : namesb rv64 rv32f renamed = true.
Proof. vm_compute. reflexivity. Qed.
Lemma covers32p : coversb rv64 rv32p = true.
Proof. vm_compute. reflexivity. Qed.
Lemma covers32f : coversb rv64 rv32f = true.
Proof. vm_compute. reflexivity. Qed.
