(** Concrete instructions made from given operands. *)
From Coq Require Import NArith ZArith List Bool String Lia.
From Verif Require Import M_Base M_Field M_Forms M_Meta M_OperandInfo M_Extract M_Decoded M_Registry M_Trie M_Builder M_DTable M_Direct M_Raw.
From Verif Require Import S_Bits S_Meta S_Trie S_Table S_Shipped S_Regs S_History S_Direct L_Table L_Check L_Claims L_Direct.
Import ListNotations.
Local Open Scope N_scope.

(** Shipped instructions with fixed fields and with mixed types. *)
Definition mixed : list irec := map rec_of (pick ["sfence.vma"; "fsd"; "lr.w"; "fmadd.d"; "addi"]%string raw_rv64).
Lemma mixed_wf : well_formed mixed.
Proof. apply well_formedb_ok. vm_compute. reflexivity. Qed.

(** What a call makes. *)
Definition made {T} (recs : list irec) (mn : string) (d : direct) (q : dinfo -> T) : option (res T) :=
  match make_decoder [] [] 1 [] [] recs with
  | Ok s =>
      Some (match snd (step (A := N) 0 (dt_new s) (ODirect mn INVALID_UID (direct_ext d) 0)) with
            | Ok (AObj _ o) => Ok (q (i_di (ob_info o)))
            | Ok _ => UB
            | Throw e => Throw e
            | AssertFail => AssertFail
            | UB => UB
            end)
  | _ => None
  end.
Lemma made_ok {T} recs mn d (q : dinfo -> T) x : made recs mn d q = Some (Ok x) ->
  exists s k o, make_decoder [] [] 1 [] [] recs = Ok s /\
    snd (step (A := N) 0 (dt_new s) (ODirect mn INVALID_UID (direct_ext d) 0)) = Ok (AObj k o) /\ q (i_di (ob_info o)) = x.
Proof.
  unfold made. destruct (make_decoder [] [] 1 [] [] recs) as [s| | |]; try discriminate.
  destruct (snd (step _ _ _)) as [[v|k o|]| | |] eqn:E; try discriminate. intros [= <-]. exists s, k, o. auto.
Qed.
(** The operands of one side. *)
Definition ops_of (o : opinfo) := map (fun e => (e_fid e, e_type e, e_val e, e_sdata e)) (oi_elems o).
Lemma inst_of recs mn r : find (fun r => match r_mn r with Some n => String.eqb n mn | None => false end) recs = Some r ->
  In r recs /\ r_mn r = Some mn.
Proof.
  intros H. apply find_some in H as [H E]. split; [exact H|]. destruct (r_mn r) as [n|]; [|discriminate]. apply String.eqb_eq in E. now subst.
Qed.
Definition the (recs : list irec) (mn : string) : option irec :=
  find (fun r => match r_mn r with Some n => String.eqb n mn | None => false end) recs.
Definition is_plain (r : irec) : bool :=
  match r_overlay r with Some _ => false | None => String.eqb (r_expand r) "" end.
Lemma the_inst recs mn r : well_formed recs -> the recs mn = Some r -> is_plain r = true ->
  In r (kept [] [] recs) /\ is_inst r mn /\ r_expand r = ""%string /\ uniform (kept [] [] recs) r mn.
Proof.
  intros WF H P. apply inst_of in H as [H M]. unfold is_plain in P. destruct (r_overlay r) eqn:O; [discriminate|]. apply String.eqb_eq in P.
  rewrite kept_all. split; [exact H|]. split; [split; assumption|]. split; [exact P|].
  apply (wf_meta _ WF); [exact H|split; assumption|exact P].
Qed.

(** sfence.vma fixes rd. *)
Definition to_x5 (srcs : list N) : direct := direct_named "" None (DInfo srcs [5] []).
Lemma fixed_dest_lemma : exists recs s r mn d k o e, make_decoder [] [] 1 [] [] recs = Ok s /\
  In r recs /\ is_inst r mn /\ fixes r RD = true /\
  snd (step (A := N) 0 (dt_new s) (ODirect mn INVALID_UID (direct_ext d) 0)) = Ok (AObj k o) /\
  In e (oi_elems (d_dst_oi (i_di (ob_info o)))) /\ e_fid e = Some RD /\ e_val e = 5.
Proof.
  assert (Q : made mixed "sfence.vma" (to_x5 [1; 2]) (fun v => map (fun e => (e_fid e, e_val e)) (oi_elems (d_dst_oi v))) = Some (Ok [(Some RD, 5)])) by (vm_compute; reflexivity).
  destruct (made_ok _ _ _ _ _ Q) as (s & k & o & E & C & R).
  assert (X : exists r, the mixed "sfence.vma" = Some r /\ is_plain r = true /\ fixes r RD = true) by (eexists; repeat split; vm_compute; reflexivity).
  destruct X as (r & X1 & X2 & X3). destruct (the_inst _ _ _ mixed_wf X1 X2) as (I1 & I2 & _). rewrite kept_all in I1.
  destruct (oi_elems (d_dst_oi (i_di (ob_info o)))) as [|e l] eqn:EL; [discriminate R|]. cbn [map] in R. injection R as R1 R2 _.
  exists mixed, s, r, "sfence.vma"%string, (to_x5 [1; 2]), k, o, e. split; [exact E|]. split; [exact I1|]. split; [exact I2|]. split; [exact X3|].
  split; [exact C|]. split; [rewrite EL; now left|]. auto.
Qed.
(** fsd has an integer base register and floating-point data: both registers are reported as
    both. *)
Definition base_data : direct := direct_named "" None (DInfo [1; 2] [] []).
Lemma typed_lemma : exists recs s mn d k o e, make_decoder [] [] 1 [] [] recs = Ok s /\
  snd (step (A := N) 0 (dt_new s) (ODirect mn INVALID_UID (direct_ext d) 0)) = Ok (AObj k o) /\
  let v := i_di (ob_info o) in
  oi_elems (d_src_oi v) = [e; mkE (Some RS2) (Some KDouble) 2 false false] /\
  e = mkE (Some RS1) (Some KLong) 1 false false /\ in_mask 1 (M_Decoded.d_srcT v KDouble) /\ in_mask 2 (M_Decoded.d_srcT v KLong).
Proof.
  assert (Q : made mixed "fsd" base_data (fun v => (oi_elems (d_src_oi v), M_Decoded.d_srcT v KDouble, M_Decoded.d_srcT v KLong)) =
    Some (Ok ([mkE (Some RS1) (Some KLong) 1 false false; mkE (Some RS2) (Some KDouble) 2 false false], 6, 6))) by (vm_compute; reflexivity).
  destruct (made_ok _ _ _ _ _ Q) as (s & k & o & E & C & R). injection R as R1 R2 R3.
  exists mixed, s, "fsd"%string, base_data, k, o. eexists. split; [exact E|]. split; [exact C|]. cbn zeta. split; [exact R1|]. split; [reflexivity|].
  unfold in_mask. rewrite R2, R3. split; reflexivity.
Qed.
(** A record that types its two destinations differently. *)
Definition two_dests : list irec :=
  [mkIRec (Some "two"%string) None 0x33 [] [] None None "" (Some "R"%string) None [] []
     (mkJ None None (fun k => match k with KWord => Some (OperList ["rd"%string]) | KLong => Some (OperList ["rd2"%string]) | _ => None end) [])].
Definition to_two : direct := direct_named "" None (DInfo [] [3; 4] []).
Lemma two_types : one_type (fun k => match k with KWord => Some (OperList ["rd"%string]) | KLong => Some (OperList ["rd2"%string]) | _ => None end).
Proof.
  intros f [] []; cbn; try tauto; intros (n & [<-|[]] & E) (n' & [<-|[]] & E'); cbn in E, E'; congruence.
Qed.
Lemma dest_type_lemma : exists recs s r mn d k o e, make_decoder [] [] 1 [] [] recs = Ok s /\
  In r recs /\ is_inst r mn /\ one_type (jm_oper (r_meta r)) /\
  clause_lists (jm_oper (r_meta r) KLong) RD2 /\
  snd (step (A := N) 0 (dt_new s) (ODirect mn INVALID_UID (direct_ext d) 0)) = Ok (AObj k o) /\
  In e (oi_elems (d_dst_oi (i_di (ob_info o)))) /\ e_fid e = Some RD2 /\ e_type e = Some KWord.
Proof.
  assert (Q : made two_dests "two" to_two (fun v => map (fun e => (e_fid e, e_type e)) (oi_elems (d_dst_oi v))) =
    Some (Ok [(Some RD, Some KWord); (Some RD2, Some KWord)])) by (vm_compute; reflexivity).
  destruct (made_ok _ _ _ _ _ Q) as (s & k & o & E & C & R).
  destruct (oi_elems (d_dst_oi (i_di (ob_info o)))) as [|e1 [|e2 l]] eqn:EL; cbn [map] in R; try discriminate R. cbn [map] in R. injection R as _ _ R1 R2 _.
  exists two_dests, s, (hd (rec_of (mkRaw None None None None None [] [] [] None None None [] None None [] [])) two_dests), "two"%string, to_two, k, o, e2.
  split; [exact E|]. split; [now left|]. split; [split; reflexivity|]. split; [exact two_types|]. split; [cbn; exists "rd2"%string; split; [now left|reflexivity]|].
  split; [exact C|]. split; [rewrite EL; right; now left|]. auto.
Qed.

(** lr.w has rs2 fixed; fmadd.d has three typed sources. *)
Lemma mixed_decoder : exists s, make_decoder [] [] 1 [] [] mixed = Ok s /\ 0 < 1 < w32 /\ separated (encodings (kept [] [] mixed)).
Proof.
  assert (Q : made mixed "fsd" base_data (fun v => d_sources v) = Some (Ok 6)) by (vm_compute; reflexivity).
  destruct (made_ok _ _ _ _ _ Q) as (s & _ & _ & E & _). exists s. split; [exact E|]. split; [split; reflexivity|]. rewrite kept_all. exact (wf_cells _ mixed_wf).
Qed.
