(** Claims about the disassembly of pseudo-instructions (C59).  [pcalls b h] is the state of a
    configured builder [b] after the calls [h] of setPseudoInstDisassembler and makePseudoInst,
    in any order; [text_of v] is dasmString() of an instruction [v]; the specification is
    S_PseudoDasm. *)
From Coq Require Import NArith List Bool String.
From Verif Require Import M_Base M_Meta M_OperandInfo M_Extract M_Decoded M_Registry M_Builder M_DTable M_Direct M_Pseudo M_PseudoDasm.
From Verif Require Import S_Direct S_Pseudo L_PseudoCases S_PseudoDasm L_PseudoDasm L_PseudoDasmCases.
From Verif Require S_Dasm.
Import ListNotations.
Local Open Scope N_scope.

(** C59.  A pseudo-instruction is the same whatever disassemblers are installed.  Its text is what
    the disassembler installed last for its own UID, before it was made, says of its name, the
    opcode 0, its meta-data, its operands and the annotation of its extractor. *)
Theorem C59_installed : forall uids annos nu recs b, 0 < nu < w32 -> make_pseudos uids annos nu recs = Ok b ->
  forall h p mn g v, Forall call_fits h -> call_fits (Make g) -> In p recs -> r_pseudo (fst p) = Some mn -> asks b mn (gv_direct g) ->
  snd (make_shown (pcalls b h) g) = Ok v ->
  snd (make_pseudo b (gv_direct g)) = Ok (sw_info v) /\
  forall f, newest (pseudo_uid b mn) h f -> text_of v = f mn 0 (i_meta (sw_info v)) (i_x (sw_info v)) (gv_note g).
Proof. exact installed_lemma. Qed.
Print Assumptions C59_installed.
(** C59.  If none was installed for its UID, the words of the text are its name and the
    operands of the extractor as for an instruction made directly (C50). *)
Theorem C59_default : forall uids annos nu recs b, 0 < nu < w32 -> make_pseudos uids annos nu recs = Ok b ->
  forall h p mn g v, Forall call_fits h -> call_fits (Make g) -> In p recs -> r_pseudo (fst p) = Some mn -> asks b mn (gv_direct g) ->
  snd (make_shown (pcalls b h) g) = Ok v -> untouched (pseudo_uid b mn) h -> masks_fit (dx_ops (gv_direct g)) -> S_Dasm.plain mn ->
  exists t, text_of v = Ok t /\ Forall2 S_Dasm.says (S_Dasm.words t) (S_Dasm.Lit mn :: S_Dasm.direct_line (gv_direct g)).
Proof. exact default_lemma. Qed.
Print Assumptions C59_default.
(** C59.  A disassembler can be installed for the UID of every pseudo-instruction, at any time;
    a UID of the user's list that is no pseudo-instruction, and a UID that nobody has, are
    refused. *)
Theorem C59_refused : forall uids annos nu recs b, 0 < nu < w32 -> make_pseudos uids annos nu recs = Ok b ->
  forall h u f, Forall call_fits h -> call_fits (Install u (Some f)) ->
  let ans := snd (set_dasm (pcalls b h) u (Some f)) in
  (pseudo_id b recs u -> ans = Ok tt) /\
  (~ pseudo_id b recs u -> (exists mn, In (mn, u) uids) -> ans = Throw EUnknownPseudoUID) /\
  (~ pseudo_id b recs u -> (forall mn, ~ In (mn, u) uids) -> ans = Throw EUnassignedIndex \/ ans = Throw EStdOutOfRange).
Proof. exact refused_lemma. Qed.
Print Assumptions C59_refused.
(** C59 is not true in full: the text given to dasmAnnotate is not shown unless the disassembler
    is replaced. *)
Theorem C59_annotation_refuted : exists recs b h p mn g v t, make_pseudos [] [] 1 recs = Ok b /\ Forall call_fits h /\ In p recs /\ r_pseudo (fst p) = Some mn /\
  asks b mn (gv_direct g) /\ g = annotate (mkGiven (ask mn) "") "hot" /\ snd (make_shown (pcalls b h) g) = Ok v /\
  text_of v = Ok t /\ ~ In "hot"%string (S_Dasm.words t).
Proof.
  destruct case_default as (t & C & N). apply shown_ok in C as (b & v & E1 & E2 & E3 & E4).
  exists test_pseudos, b, [Install 2 (Some (terse "?"))], (hd (pseudo_rec "" (fun _ => None), mkPC [] [] []) test_pseudos), "P0"%string, p0, v, t.
  split; [exact E1|]. split; [repeat constructor|]. split; [now left|]. split; [reflexivity|]. split; [left; split; reflexivity|]. auto.
Qed.
Print Assumptions C59_annotation_refuted.
(** P0 was made, then disassemblers were installed for P0, for P1 and for a UID that nobody
    has, and a null pointer was refused; P0 is shown by its own disassembler. *)
Example C59_ex : exists b v p, 0 < 1 < w32 /\ make_pseudos [] [] 1 test_pseudos = Ok b /\ Forall call_fits calls /\ call_fits (Make p0) /\
  In p test_pseudos /\ r_pseudo (fst p) = Some "P0"%string /\ asks b "P0" (gv_direct p0) /\ newest (pseudo_uid b "P0") calls (terse "!") /\
  snd (make_shown (pcalls b calls) p0) = Ok v /\ text_of v = Ok "P0 hot!"%string.
Proof.
  destruct (shown_ok _ _ _ _ _ case_installed) as (b & v & E1 & E2 & E3 & E4).
  exists b, v, (hd (pseudo_rec "" (fun _ => None), mkPC [] [] []) test_pseudos). split; [split; reflexivity|]. split; [exact E1|].
  split; [exact calls_fit|]. split; [reflexivity|]. split; [now left|]. split; [reflexivity|]. split; [left; split; reflexivity|].
  split; [|auto]. rewrite E2. exists [Make p0], later. split; [reflexivity|].
  exact calls_after.
Qed.
Example C59_default_ex : exists b v p t, make_pseudos [] [] 1 test_pseudos = Ok b /\ In p test_pseudos /\ r_pseudo (fst p) = Some "P0"%string /\
  asks b "P0" (gv_direct p0) /\ untouched (pseudo_uid b "P0") [Install 2 (Some (terse "?"))] /\ masks_fit (dx_ops (gv_direct p0)) /\ S_Dasm.plain "P0" /\
  snd (make_shown (pcalls b [Install 2 (Some (terse "?"))]) p0) = Ok v /\ text_of v = Ok t.
Proof.
  destruct case_default as (t & C & _). apply shown_ok in C as (b & v & E1 & E2 & E3 & E4).
  exists b, v, (hd (pseudo_rec "" (fun _ => None), mkPC [] [] []) test_pseudos), t. split; [exact E1|]. split; [now left|]. split; [reflexivity|].
  split; [left; split; reflexivity|]. split; [rewrite E2; intros f [H|[]]; discriminate|]. split; [exact I|]. split; [|auto].
  split; [discriminate|reflexivity].
Qed.
Example C59_refused_ex : exists b, make_pseudos [("bystander"%string, 5)] [] 1 test_pseudos = Ok b /\ ~ pseudo_id b test_pseudos 5 /\
  snd (set_dasm (pcalls b calls) 5 (Some (terse ""))) = Throw EUnknownPseudoUID.
Proof. destruct (refusal_ok 5 (Throw EUnknownPseudoUID) true) as (b & E & R & N); [vm_compute; reflexivity|]. exists b. auto. Qed.
