(** A boolean check that every record of a table can be read without failing assertions. *)
From Coq Require Import NArith ZArith Arith List Bool String Lia.
From Verif Require Import M_Base M_Field M_Forms M_Meta M_OperandInfo M_Extract M_Decoded M_Trie M_Builder M_DTable M_Raw.
From Verif Require Import S_Bits S_Trie S_Agree S_Table L_Meta L_Agree L_Trie L_Check L_Decode.
Import ListNotations.
Local Open Scope N_scope.

(** [agree_cond] for every opcode. *)
Definition always (c : xcls) (ffm : N) (m : meta) : bool :=
  match c with X_C2_sp | X_C2_sp_store_word_pair => false | _ => agree_cond c ffm m 0 end.
Lemma always_ok c ffm m ic : always c ffm m = true -> agree_cond c ffm m ic = true.
Proof. unfold always, agree_cond. destruct c; auto; discriminate. Qed.

Definition expansion_metas (recs : list irec) (xp : string) : list meta :=
  flat_map (fun r => if oseqb (instb r) xp then match own_meta r with Ok m => [m] | _ => [] end else []) recs ++
  (if String.eqb xp "nop" then [set_inst_type [IT_INT; IT_ARITH] meta_rv64i]
   else if String.eqb xp "cmov" then [set_inst_type [IT_CONDITIONAL; IT_MOVE] meta_rv64i] else []).
Definition inst_metas (recs : list irec) (r : irec) : list meta :=
  match own_meta r with
  | Ok m => if String.eqb (r_expand r) "" then [m] else map (fun m0 => meta_merge m0 m) (expansion_metas recs (r_expand r))
  | _ => []
  end.
Definition exts (r : irec) : list (xcls * N) :=
  match rec_class r with
  | Ok c => match r_fixed r with
            | [] => [(c, 0)]
            | _ => flat_map (fun e => match fx_mask e with Some m => [(clone_cls c, m)] | None => [] end) (rec_encs r)
            end
  | _ => []
  end.
Definition overlay_metas (r ro : irec) : list meta :=
  match own_meta r with
  | Ok m0 => match meta_overrides (r_meta ro) (r_tags ro) m0 with Ok m => [m] | _ => [] end
  | _ => []
  end.
Definition overlay_exts (r ro : irec) : list (xcls * N) :=
  match r_xform ro with
  | None => exts r
  | Some n => match get_extractor n with Ok c => [(c, 0)] | _ => [] end
  end.
(** What has to be checked: name, class, fixed bits, meta-data. *)
Definition readings (recs : list irec) (r : irec) : list (string * xcls * N * meta) :=
  match instb r with
  | None => []
  | Some mn =>
      flat_map (fun m => map (fun c => (mn, fst c, snd c, m)) (exts r)) (inst_metas recs r) ++
      flat_map (fun ro => match r_mn ro, ovb ro with
                          | Some omn, Some (b, _, _) =>
                              if String.eqb b mn then flat_map (fun m => map (fun c => (omn, fst c, snd c, m)) (overlay_exts r ro)) (overlay_metas r ro)
                              else []
                          | _, _ => []
                          end) recs
  end.
(** [agree_cond] for every opcode with something else than zero in bits 6:2. *)
Definition mostly (c : xcls) (ffm : N) (m : meta) : bool := agree_cond c ffm m 4.
Lemma mostly_ok c ffm m ic : slice 2 5 ic <> 0 -> mostly c ffm m = true -> agree_cond c ffm m ic = true.
Proof.
  intros H. apply N.eqb_neq in H. unfold mostly, agree_cond. destruct c; auto; rewrite H; auto.
Qed.
Definition readableb (chk : xcls -> N -> meta -> bool) (recs : list irec) : bool :=
  forallb (fun r => forallb (fun e => match fx_mask e with Some _ => true | None => false end) (rec_encs r) &&
                    forallb (fun q => chk (snd (fst (fst q))) (snd (fst q)) (snd q)) (readings recs r)) recs.

Lemma expansion_metas_in recs xp m : expansion_meta recs xp m -> In m (expansion_metas recs xp).
Proof.
  unfold expansion_metas. intros [(r & H1 & H2 & H3)|(_ & [[-> ->]|[-> ->]])]; apply in_or_app; [left|right; now left..].
  apply in_flat_map. exists r. split; [auto|]. apply instb_ok in H2. rewrite H2. cbn [oseqb]. rewrite String.eqb_refl, H3. now left.
Qed.
Lemma inst_metas_in recs r m : inst_meta recs r m -> In m (inst_metas recs r).
Proof.
  unfold inst_metas. intros [(H1 & H2)|(H1 & m0 & m1 & H2 & H3 & ->)].
  - rewrite H2, H1. now left.
  - rewrite H3. apply String.eqb_neq in H1. rewrite H1. apply in_map_iff. eauto using expansion_metas_in.
Qed.
Lemma exts_in r e x : In e (rec_encs r) -> fx_mask e <> None -> extractor_of r e x -> exists c, In c (exts r) /\ x = ext (fst c) (snd c).
Proof.
  intros He F (c & Hc & D). destruct (listed_mn _ _ He) as (_ & EF & fn & Hfn). unfold exts. rewrite Hc.
  destruct D as [[D ->]|(D & mask & D1 & ->)]; rewrite EF in D.
  - rewrite D. exists (c, 0). split; [now left|reflexivity].
  - destruct (r_fixed r) as [|f0 fr] eqn:ER; [contradiction|]. exists (clone_cls c, mask). split; [|reflexivity].
    apply in_flat_map. exists e. split; [auto|]. unfold fx_mask in *. destruct (fixed_mask _ _) as [m| | |] eqn:EM; [|contradiction..].
    assert (m = mask) as ->; [|now left]. apply (fixed_bits_fun e); [|exact D1]. intros i.
    apply fixed_mask_bits; [exact (registry_ok _ _ Hfn)|exact EM].
Qed.
