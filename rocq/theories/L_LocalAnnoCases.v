(** A concrete table with annotations for C61. *)
From Coq Require Import NArith List Bool String.
From Verif Require Import M_Base M_Decoded M_Builder M_DTable S_Trie S_Table S_Local L_Local L_LocalCases.
Import ListNotations.
Local Open Scope N_scope.

Definition notes : list (string * anno) := [("mv", [[("pipe", "m")]]); ("addi", [[("pipe", "i")]]); ("lw", [[("pipe", "l")]]); ("li", [[("pipe", "l")]]); ("nop", [[("pipe", "n")]])]%string.
Definition note_is (a : option anno) (x : string) : bool :=
  match a with Some [[(k, y)]] => (String.eqb k "pipe" && String.eqb y x)%bool | _ => false end.
Definition noted recs ic x : bool :=
  match make_decoder [] notes 1 [] [] recs with
  | Ok s => match decode (A := unit) (U := unit) s ic with Ok v => note_is (i_anno v) x | _ => false end
  | _ => false
  end.
Lemma note_is_ok a x : note_is a x = true -> a = Some [[("pipe"%string, x)]].
Proof.
  destruct a as [[|[|[k y] [|? ?]] [|? ?]]|]; try discriminate. cbn. intros H. apply andb_true_iff in H as [H1 H2].
  apply String.eqb_eq in H1, H2. subst. reflexivity.
Qed.
Lemma noted_ok recs ic x : noted recs ic x = true -> exists s, make_decoder [] notes 1 [] [] recs = Ok s /\
  exists v, decode (A := unit) (U := unit) s ic = Ok v /\ i_anno v = Some [[("pipe"%string, x)]].
Proof.
  unfold noted. destruct (make_decoder [] notes 1 [] [] recs) as [s| | |]; try discriminate. intros H. exists s. split; [reflexivity|].
  destruct (decode s ic) as [v| | |]; try discriminate. exists v. split; [reflexivity|]. now apply note_is_ok.
Qed.
Lemma anno_case : exists s s', make_decoder [] notes 1 [] [] start = Ok s /\ make_decoder [] notes 1 [] [] (start ++ more) = Ok s' /\
  well_formed (kept [] [] start) /\ well_formed (kept [] [] (start ++ more)) /\
  unconcerned (kept [] [] more) 0x8093 /\
  exists v, decode (A := unit) (U := unit) s 0x8093 = Ok v /\ i_anno v = Some [[("pipe", "m")]]%string.
Proof.
  assert (F : noted start 0x8093 "m" = true) by (vm_compute; reflexivity).
  assert (F' : noted (start ++ more) 0x8093 "m" = true) by (vm_compute; reflexivity).
  apply noted_ok in F as (s & E & V). apply noted_ok in F' as (s' & E' & _). exists s, s'.
  split; [exact E|]. split; [exact E'|]. split; [exact start_wf|]. split; [exact longer_wf|].
  split; [apply more_unconcerned; cbn [In]; auto|]. exact V.
Qed.
Lemma local_anno_case : exists s s', make_decoder [] notes 1 [] [] start = Ok s /\ make_decoder [] notes 1 [] [] (start ++ more) = Ok s' /\
  well_formed (kept [] [] start) /\ well_formed (kept [] [] (start ++ more)) /\
  (forall r, concerns (kept [] [] start) 0x85 r <-> concerns (kept [] [] (start ++ more)) 0x85 r) /\
  exists v, decode (A := unit) (U := unit) s 0x85 = Ok v /\ i_anno v = Some [[("pipe", "i")]]%string.
Proof.
  assert (F : noted start 0x85 "i" = true) by (vm_compute; reflexivity).
  assert (F' : noted (start ++ more) 0x85 "i" = true) by (vm_compute; reflexivity).
  apply noted_ok in F as (s & E & V). apply noted_ok in F' as (s' & E' & _). exists s, s'.
  split; [exact E|]. split; [exact E'|]. split; [exact start_wf|]. split; [exact longer_wf|].
  split; [exact more_concerns|]. exact V.
Qed.
