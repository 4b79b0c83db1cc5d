(** A table with an instruction called cmov and one that asks for the factory nop (C72). *)
From Coq Require Import NArith List Bool String.
From Verif Require Import M_Base M_Meta M_Decoded M_Trie M_Builder M_DTable S_Trie S_Table S_Shipped S_Anno S_Builtin L_Check L_Claims L_FounderCases.
Import ListNotations.
Local Open Scope string_scope.
Local Open Scope N_scope.

(** The record under another name. *)
Definition called (mn : string) (r : irec) : irec :=
  mkIRec (Some mn) (r_pseudo r) (r_stencil r) (r_fixed r) (r_ignore r) (r_xform r) (r_factory r) (r_expand r) (r_form r)
         (r_overlay r) (r_alias r) (r_tags r) (r_meta r).
(** lw under the name cmov, and addi with the factory nop. *)
Definition taken : list irec :=
  (map (fun w => called "cmov" (M_Raw.rec_of w)) (pick ["lw"] raw_rv64) ++ map (fun w => made_by "nop" (M_Raw.rec_of w)) (pick ["addi"] raw_rv64))%list.
Definition cmov_rec : irec := nth 0 taken (over "" "" 0 0).
Definition addin_rec : irec := nth 1 taken (over "" "" 0 0).
Lemma taken_is : taken = [cmov_rec; addin_rec].
Proof. reflexivity. Qed.
Definition pipes : list (string * anno) := [("nop", [[("pipe", "n")]]); ("addi", [[("pipe", "a")]]); ("cmov", [[("pipe", "c")]])].
Lemma taken_ok : separated (encodings (kept [] [] taken)) /\ stays (kept [] [] taken) "nop" /\ stays (kept [] [] taken) "cmov" /\
  (forall mn base mask ic, ~ overlay_hit (kept [] [] taken) mn base mask ic).
Proof.
  rewrite kept_all. split; [apply separatedb_ok; vm_compute; reflexivity|]. rewrite taken_is. split; [|split].
  - intros r [<-|[<-|[]]] (H & _) _; [discriminate H|discriminate H].
  - intros r [<-|[<-|[]]] (H & _) _; [reflexivity|discriminate H].
  - intros mn base mask ic (r & [<-|[<-|[]]] & _ & jo & E & _); discriminate E.
Qed.
Lemma taken_in : In cmov_rec (kept [] [] taken) /\ is_inst cmov_rec "cmov" /\ r_expand cmov_rec = "" /\ fname_of cmov_rec "cmov" = "cmov" /\
  In addin_rec (kept [] [] taken) /\ is_inst addin_rec "addi" /\ r_expand addin_rec = "" /\ fname_of addin_rec "addi" = "nop".
Proof. rewrite kept_all, taken_is. cbn [In]. repeat split; auto. Qed.
Definition seen (s : builder * tree) (ic : N) : option (string * list N * option anno) :=
  match decode (A := unit) (U := unit) s ic with Ok v => Some (d_mnemonic (i_di v), [mt_types (i_meta v); mt_data (i_meta v)], i_anno v) | _ => None end.
Definition all_seen (annos : list (string * anno)) (recs : list irec) (ics : list N) (ns : list string) :=
  match make_decoder [] annos 1 [] [] recs with
  | Ok s => Some (map (seen s) ics, map (get_opcode s) ns)
  | _ => None
  end.
Lemma all_seen_ok annos recs ics ns r : all_seen annos recs ics ns = Some r -> exists s, make_decoder [] annos 1 [] [] recs = Ok s /\
  map (seen s) ics = fst r /\ map (get_opcode s) ns = snd r.
Proof. unfold all_seen. destruct (make_decoder [] annos 1 [] [] recs) as [s| | |]; try discriminate. intros H. injection H as <-. exists s. auto. Qed.
Lemma seen_ok s ic n t d a : seen s ic = Some (n, [t; d], a) -> exists v, decode (A := unit) (U := unit) s ic = Ok v /\ d_mnemonic (i_di v) = n /\
  mt_types (i_meta v) = t /\ mt_data (i_meta v) = d /\ i_anno v = a.
Proof. unfold seen. destruct (decode s ic) as [v| | |]; try discriminate. intros H. injection H as <- <- <- <-. exists v. auto. Qed.
Lemma taken_seen : exists s, make_decoder [] pipes 1 [] [] taken = Ok s /\
  map (seen s) [0x12003; 0x13] = [Some ("cmov", [N.lor IT_INT (N.lor IT_CONDITIONAL IT_MOVE); 0], Some [[("pipe", "c")]]); Some ("addi", [N.lor IT_INT IT_ARITH; 0], Some [[("pipe", "n")]])] /\
  map (get_opcode s) ["cmov"; "addi"] = [Ok 0; Ok 0].
Proof.
  exact (all_seen_ok pipes taken [0x12003; 0x13] ["cmov"; "addi"]
    ([Some ("cmov", [N.lor IT_INT (N.lor IT_CONDITIONAL IT_MOVE); 0], Some [[("pipe", "c")]]); Some ("addi", [N.lor IT_INT IT_ARITH; 0], Some [[("pipe", "n")]])], [Ok 0; Ok 0])
    ltac:(vm_compute; reflexivity)).
Qed.
Lemma taken_case : exists s, make_decoder [] pipes 1 [] [] taken = Ok s /\ get_opcode s "cmov" = Ok 0 /\ get_opcode s "addi" = Ok 0 /\
  (exists v, decode (A := unit) (U := unit) s 0x12003 = Ok v /\ d_mnemonic (i_di v) = "cmov" /\ mt_types (i_meta v) = N.lor IT_INT (N.lor IT_CONDITIONAL IT_MOVE) /\
     mt_data (i_meta v) = 0 /\ i_anno v = Some [[("pipe", "c")]]) /\
  (exists v, decode (A := unit) (U := unit) s 0x13 = Ok v /\ d_mnemonic (i_di v) = "addi" /\ mt_types (i_meta v) = N.lor IT_INT IT_ARITH /\
     mt_data (i_meta v) = 0 /\ i_anno v = Some [[("pipe", "n")]]).
Proof.
  destruct taken_seen as (s & E & H & G). cbn [map] in H, G. injection H as H1 H2. injection G as H3 H4. exists s. split; [exact E|]. split; [exact H3|].
  split; [exact H4|]. split; [exact (seen_ok s _ _ _ _ _ H1)|exact (seen_ok s _ _ _ _ _ H2)].
Qed.
Lemma cmov_own : exists m, own_meta cmov_rec = Ok m /\ mt_types m = N.lor IT_INT IT_LOAD /\ mt_data m = 32.
Proof. eexists. split; [vm_compute; reflexivity|]. split; vm_compute; reflexivity. Qed.
Lemma own_refuted : exists recs annos s ic v r m, make_decoder [] annos 1 [] [] recs = Ok s /\ decode (A := unit) (U := unit) s ic = Ok v /\
  In r recs /\ is_inst r (d_mnemonic (i_di v)) /\ r_expand r = "" /\ r_factory r = None /\ own_meta r = Ok m /\
  mt_types m = N.lor IT_INT IT_LOAD /\ mt_data m = 32 /\ mt_types (i_meta v) = N.lor IT_INT (N.lor IT_CONDITIONAL IT_MOVE) /\ mt_data (i_meta v) = 0 /\
  r_stencil r = 0x2003 /\ get_opcode s (d_mnemonic (i_di v)) = Ok 0.
Proof.
  destruct taken_case as (s & E & O & _ & (v & D & M & T & W & _) & _). destruct cmov_own as (m & OM & T' & W').
  exists taken, pipes, s, 0x12003, v, cmov_rec, m. split; [exact E|]. split; [exact D|]. rewrite M.
  destruct taken_in as (_ & HI & X & _). split; [rewrite taken_is; now left|]. split; [exact HI|]. split; [exact X|]. split; [reflexivity|].
  do 5 (split; [assumption|]). split; [reflexivity|exact O].
Qed.
(** addi, and c.addi under the name nop. *)
Definition short : list irec :=
  (map M_Raw.rec_of (pick ["addi"] raw_rv64) ++ map (fun w => called "nop" (M_Raw.rec_of w)) (pick ["c.addi"] raw_rv64))%list.
Definition short_rec : irec := nth 1 short (over "" "" 0 0).
Definition uids_seen (recs : list irec) (ic : N) (n : string) :=
  match make_decoder [] [] 1 [] [] recs with
  | Ok s => match decode (A := unit) (U := unit) s ic with Ok v => Some (d_mnemonic (i_di v), d_uid (i_di v), lookup_uid s (d_mnemonic (i_di v)), lookup_uid s n) | _ => None end
  | _ => None
  end.
Lemma uids_seen_ok recs ic n r : uids_seen recs ic n = Some r -> exists s v, make_decoder [] [] 1 [] [] recs = Ok s /\ decode (A := unit) (U := unit) s ic = Ok v /\
  r = (d_mnemonic (i_di v), d_uid (i_di v), lookup_uid s (d_mnemonic (i_di v)), lookup_uid s n).
Proof.
  unfold uids_seen. destruct (make_decoder [] [] 1 [] [] recs) as [s| | |]; try discriminate. destruct (decode s ic) as [v| | |] eqn:E; try discriminate.
  intros H. injection H as <-. exists s, v. auto.
Qed.
Lemma short_seen : uids_seen short 0x85 "addi" = Some ("nop", 3, 1, 3).
Proof. vm_compute. reflexivity. Qed.
Lemma short_is : short = [nth 0 short (over "" "" 0 0); short_rec].
Proof. vm_compute. reflexivity. Qed.
Lemma short_in : In short_rec short /\ is_inst short_rec "nop" /\ r_expand short_rec = "addi".
Proof. split; [rewrite short_is; right; left; reflexivity|]. split; [split|]; vm_compute; reflexivity. Qed.
Lemma short_lemma recs ic r n : uids_seen recs ic "addi" = Some (n, 3, 1, 3) -> In r recs -> is_inst r n -> r_expand r = "addi" ->
  exists recs s ic v r, make_decoder [] [] 1 [] [] recs = Ok s /\ decode (A := unit) (U := unit) s ic = Ok v /\
  In r recs /\ is_inst r (d_mnemonic (i_di v)) /\ r_expand r = "addi" /\ d_uid (i_di v) = lookup_uid s "addi" /\ d_uid (i_di v) <> lookup_uid s (d_mnemonic (i_di v)).
Proof.
  intros H I1 I2 I3. destruct (uids_seen_ok _ _ _ _ H) as (s & v & E & D & Q). injection Q as Q1 Q2 Q3 Q4.
  exists recs, s, ic, v, r. split; [exact E|]. split; [exact D|]. split; [exact I1|]. split; [congruence|]. split; [exact I3|]. split; [congruence|].
  rewrite <- Q2, <- Q3. discriminate.
Qed.
Lemma short_refuted : exists recs s ic v r, make_decoder [] [] 1 [] [] recs = Ok s /\ decode (A := unit) (U := unit) s ic = Ok v /\
  In r recs /\ is_inst r (d_mnemonic (i_di v)) /\ r_expand r = "addi" /\ d_uid (i_di v) = lookup_uid s "addi" /\ d_uid (i_di v) <> lookup_uid s (d_mnemonic (i_di v)).
Proof. exact (short_lemma short 0x85 short_rec "nop" short_seen (proj1 short_in) (proj1 (proj2 short_in)) (proj2 (proj2 short_in))). Qed.
