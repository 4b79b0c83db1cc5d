(** The pseudo-instructions of the library's own test (test/basic/isa_pseudo.json). *)
From Coq Require Import NArith ZArith List Bool String Lia.
From Verif Require Import M_Base M_Field M_Forms M_Meta M_OperandInfo M_Extract M_Decoded M_Registry M_Trie M_Builder M_DTable M_Direct M_Pseudo.
From Verif Require Import S_Operands S_Direct S_Pseudo.
Import ListNotations.
Local Open Scope N_scope.
Local Open Scope string_scope.

Definition pseudo_rec (mn : string) (oper : kind -> option oper_clause) : irec :=
  mkIRec None (Some mn) 0 [] [] None None "" None None [] [] (mkJ (Some ["branch"; "cond"]) None oper []).
Definition test_pseudos : list prec :=
  [(pseudo_rec "P0" (fun k => match k with KWord => Some (OperList ["rs1"; "rd"]) | KDouble => Some (OperList ["rs2"]) | _ => None end),
    mkPC ["rs1"; "rs2"] ["rd"] ["vm"]);
   (pseudo_rec "P1" (fun k => match k with KLong => Some OperAll | _ => None end), mkPC ["rs1"; "rs2"] ["rd"] ["vm"]);
   (pseudo_rec "blt" (fun k => match k with KLong => Some OperAll | _ => None end), mkPC [] [] [])].
(** Operands x3, x1 (already called rs3) and x2; destination x9; special value 7. *)
Definition three : list elem := [mkE None None 3 false false; mkE (Some RS3) (Some KQuad) 1 false false; mkE None None 2 true false].
Definition oi_of (es : list elem) : opinfo := match add_elems oi_empty es with Ok o => o | _ => oi_empty end.
Definition ask (mn : string) : direct := direct_named mn (Some 4) (DList (oi_of three) (oi_of [mkE None None 9 false false]) [7]).
Definition pseudo_sum (recs : list prec) (d : direct) :=
  match make_pseudos [] [] 1 recs with
  | Ok b => match snd (make_pseudo b d) with
            | Ok v => Some (oi_elems (d_src_oi (i_di v)), oi_elems (d_dst_oi (i_di v)), x_spec (i_x v) SF_VM 0)
            | _ => None
            end
  | _ => None
  end.
Lemma pseudo_sum_ok recs d x : pseudo_sum recs d = Some x -> exists b v, make_pseudos [] [] 1 recs = Ok b /\ snd (make_pseudo b d) = Ok v /\
  x = (oi_elems (d_src_oi (i_di v)), oi_elems (d_dst_oi (i_di v)), x_spec (i_x v) SF_VM 0).
Proof.
  unfold pseudo_sum. destruct (make_pseudos [] [] 1 recs) as [b| | |]; try discriminate. destruct (snd (make_pseudo b d)) as [v| | |] eqn:E; try discriminate.
  intros [= <-]. exists b, v. auto.
Qed.
Lemma test_case : exists b v, make_pseudos [] [] 1 test_pseudos = Ok b /\ snd (make_pseudo b (ask "P0")) = Ok v /\
  oi_elems (d_src_oi (i_di v)) = [mkE (Some RS1) (Some KWord) 3 false false; mkE (Some RS3) (Some KQuad) 1 false false; mkE None None 2 true false] /\
  oi_elems (d_dst_oi (i_di v)) = [mkE (Some RD) (Some KWord) 9 false false] /\ x_spec (i_x v) SF_VM 0 = Ok 7.
Proof.
  destruct (pseudo_sum_ok test_pseudos (ask "P0") ([mkE (Some RS1) (Some KWord) 3 false false; mkE (Some RS3) (Some KQuad) 1 false false; mkE None None 2 true false],
    [mkE (Some RD) (Some KWord) 9 false false], Ok 7)) as (b & v & E & Q & R); [vm_compute; reflexivity|].
  injection R as R1 R2 R3. exists b, v. auto.
Qed.
