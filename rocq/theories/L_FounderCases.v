(** Concrete tables whose instructions share a factory (C60). *)
From Coq Require Import NArith List Bool String.
From Verif Require Import M_Base M_Meta M_Decoded M_Builder M_DTable S_Trie S_Table S_Shipped S_Founder L_Check L_Claims L_Founder.
Import ListNotations.
Local Open Scope string_scope.
Local Open Scope N_scope.

(** The record with another factory. *)
Definition made_by (F : string) (r : irec) : irec :=
  mkIRec (r_mn r) (r_pseudo r) (r_stencil r) (r_fixed r) (r_ignore r) (r_xform r) (Some F) (r_expand r) (r_form r)
         (r_overlay r) (r_alias r) (r_tags r) (r_meta r).
(** An overlay. *)
Definition over (mn base : string) (mask value : N) : irec :=
  mkIRec (Some mn) None 0 [] [] None None "" None (Some (mkJO (Some base) (Some [mask; value]))) [] [] (mkJ None None (fun _ => None) []).
(** addi and lw share the factory "unit". *)
Definition shared : list irec := map (fun w => made_by "unit" (M_Raw.rec_of w)) (pick ["addi"; "lw"] raw_rv64).
Definition addi_rec : irec := nth 0 shared (over "" "" 0 0).
Definition lw_rec : irec := nth 1 shared (over "" "" 0 0).
Lemma shared_is : shared = [addi_rec; lw_rec].
Proof. reflexivity. Qed.
(** What decoding one opcode says, and the opcode of that instruction. *)
Definition look (recs : list irec) (ic : N) (mn : string) : option (string * list N * res N) :=
  match make_decoder [] [] 1 [] [] recs with
  | Ok s => match decode (A := unit) (U := unit) s ic with
            | Ok v => Some (d_mnemonic (i_di v), [mt_types (i_meta v); mt_data (i_meta v)], get_opcode s mn)
            | _ => None end
  | _ => None
  end.
Lemma look_ok recs ic mn r : look recs ic mn = Some r -> exists s v, make_decoder [] [] 1 [] [] recs = Ok s /\
  decode (A := unit) (U := unit) s ic = Ok v /\ d_mnemonic (i_di v) = fst (fst r) /\ [mt_types (i_meta v); mt_data (i_meta v)] = snd (fst r) /\
  get_opcode s mn = snd r.
Proof.
  unfold look. destruct (make_decoder _ _ _ _ _ _) as [s| | |]; try discriminate. destruct (decode s ic) as [v| | |] eqn:E; try discriminate.
  intros H. assert (r = (d_mnemonic (i_di v), [mt_types (i_meta v); mt_data (i_meta v)], get_opcode s mn)) as -> by congruence. exists s, v. auto.
Qed.
Lemma shared_ok : separated (encodings (kept [] [] shared)) /\ alone (kept [] [] shared) "unit" /\ founder (kept [] [] shared) "unit" addi_rec.
Proof.
  rewrite kept_all. split; [apply separatedb_ok; vm_compute; reflexivity|]. split; [apply aloneb_ok; vm_compute; reflexivity|].
  rewrite shared_is. exists [], [lw_rec]. split; [reflexivity|]. split; [exists "addi"; repeat split|intros r []].
Qed.
Lemma no_overlays mn base mask ic : ~ overlay_hit (kept [] [] shared) mn base mask ic.
Proof. rewrite kept_all, shared_is. intros (r & [<-|[<-|[]]] & _ & jo & E & _); discriminate E. Qed.
Lemma shared_case : exists s v, make_decoder [] [] 1 [] [] shared = Ok s /\ decode (A := unit) (U := unit) s 0x12003 = Ok v /\
  d_mnemonic (i_di v) = "lw" /\ [mt_types (i_meta v); mt_data (i_meta v)] = [N.lor IT_INT IT_ARITH; 0] /\ get_opcode s "lw" = Ok 0x13.
Proof. exact (look_ok shared 0x12003 "lw" ("lw", [N.lor IT_INT IT_ARITH; 0], Ok 0x13) ltac:(vm_compute; reflexivity)). Qed.
Lemma lw_own : exists m, own_meta lw_rec = Ok m /\ mt_types m = N.lor IT_INT IT_LOAD /\ mt_data m = 32.
Proof. eexists. split; [vm_compute; reflexivity|]. split; vm_compute; reflexivity. Qed.
Lemma meta_refuted : exists recs s ic v r m, make_decoder [] [] 1 [] [] recs = Ok s /\ (forall r, In r recs -> r_overlay r = None) /\
  decode (A := unit) (U := unit) s ic = Ok v /\ In r recs /\ is_inst r (d_mnemonic (i_di v)) /\ r_expand r = "" /\ own_meta r = Ok m /\
  mt_types m = N.lor IT_INT IT_LOAD /\ mt_data m = 32 /\ mt_types (i_meta v) = N.lor IT_INT IT_ARITH /\ mt_data (i_meta v) = 0.
Proof.
  destruct shared_case as (s & v & E & D & M & Q & _), lw_own as (m & O & O1 & O2). injection Q as Q1 Q2.
  exists shared, s, 0x12003, v, lw_rec, m. split; [exact E|]. rewrite shared_is. split; [intros r [<-|[<-|[]]]; reflexivity|].
  split; [exact D|]. split; [right; now left|]. rewrite M. split; [split; reflexivity|]. split; [reflexivity|]. auto.
Qed.
(** isa_rv64zicsr.json, as shipped. *)
Definition zicsr : list irec := map M_Raw.rec_of G_Tables.isa_rv64zicsr.
Definition csrrw_rec : irec := nth 0 zicsr (over "" "" 0 0).
Definition csrrs_rec : irec := nth 1 zicsr (over "" "" 0 0).
Lemma zicsr_case : exists s, make_decoder [] [] 1 [] [] zicsr = Ok s /\ get_opcode s "csrrs" = Ok 0x1073 /\ get_opcode s "csrrw" = Ok 0x1073.
Proof.
  assert (H : match make_decoder [] [] 1 [] [] zicsr with Ok s => Some (get_opcode s "csrrs", get_opcode s "csrrw") | _ => None end = Some (Ok 0x1073, Ok 0x1073))
    by (vm_compute; reflexivity).
  destruct (make_decoder [] [] 1 [] [] zicsr) as [s| | |]; try discriminate. exists s. split; [reflexivity|]. split; congruence.
Qed.
Lemma csrrs_in : In csrrs_rec zicsr /\ is_inst csrrs_rec "csrrs" /\ r_expand csrrs_rec = "" /\ r_stencil csrrs_rec = 0x2073.
Proof. split; [right; now left|]. repeat split. Qed.
Lemma zicsr_ok : separated (encodings (kept [] [] zicsr)) /\ alone (kept [] [] zicsr) "csr" /\ founder (kept [] [] zicsr) (fname_of csrrs_rec "csrrs") csrrw_rec.
Proof.
  rewrite kept_all. split; [apply separatedb_ok; vm_compute; reflexivity|]. split; [apply aloneb_ok; vm_compute; reflexivity|].
  exists [], (tl zicsr). split; [reflexivity|]. split; [exists "csrrw"; repeat split|intros r []].
Qed.
Lemma opcode_refuted : exists s r, make_decoder [] [] 1 [] [] zicsr = Ok s /\ In r zicsr /\ is_inst r "csrrs" /\
  r_stencil r = 0x2073 /\ get_opcode s "csrrs" = Ok 0x1073.
Proof.
  destruct zicsr_case as (s & E & Q & _), csrrs_in as (H1 & H2 & _ & H3). exists s, csrrs_rec. auto.
Qed.
(** addi and lw share a factory; "lz" is an overlay of lw, and "mv" one of addi for more bits. *)
Definition hidden : list irec := (shared ++ [over "lz" "lw" 0xff000000 0; over "mv" "addi" 0xfff00000 0])%list.
Definition seen : list irec := (shared ++ [over "lz" "lw" 0xff000000 0])%list.
Lemma hidden_refuted : exists recs recs' s s' ic r, make_decoder [] [] 1 [] [] recs = Ok s /\ make_decoder [] [] 1 [] [] recs' = Ok s' /\
  recs' = (recs ++ [r])%list /\ (exists mask value, overlays r "mv" "addi" mask value) /\
  name_of (decode (A := unit) (U := unit) s ic) = Ok "lz" /\ name_of (decode (A := unit) (U := unit) s' ic) = Ok "lw".
Proof.
  destruct (names_ok seen [0x12003] [Ok "lz"] ltac:(vm_compute; reflexivity)) as (s & E & Q).
  destruct (names_ok hidden [0x12003] [Ok "lw"] ltac:(vm_compute; reflexivity)) as (s' & E' & Q').
  cbn [map] in Q, Q'. injection Q as Q. injection Q' as Q'.
  exists seen, hidden, s, s', 0x12003, (over "mv" "addi" 0xfff00000 0). split; [exact E|]. split; [exact E'|].
  split; [reflexivity|]. split; [|split; [exact Q|exact Q']]. exists 0xfff00000, 0. split; [reflexivity|]. eexists. repeat split.
Qed.
