(** Instruction records as they appear in the JSON files, clause by clause, and the record
    that parseInstInfo_ and InstMetaData read from them. *)
From Coq Require Import NArith List Bool String.
From Verif Require Import M_Base M_Meta M_Builder.
Import ListNotations.
Local Open Scope N_scope.

(** impl/DTable.tcc:23-100, 131-171, mavis/Overlay.hpp:36-70 and mavis/InstMetaData.h:316-376.
    Texts of numbers are given as numbers, an "isa" text as its width and letter
    (mavis/InstMetaData.h:346-376); how they are read is in M_Text. *)
Record raw := mkRaw {
  w_mn : option string;
  w_pseudo : option string;
  w_form : option string;
  w_xform : option string;
  w_stencil : option N;
  w_fixed : list string;
  w_ignore : list string;
  w_alias : list N;
  w_factory : option string;
  w_expand : option string;
  w_overlay : option (option string * option (list N));
  w_tags : list string;
  w_type : option (list string);
  w_data : option N;
  w_oper : list (kind * oper_clause);
  w_isa : list (option N * string) }.

(** mavis/InstMetaData.h:316-345: the clause of each operand kind. *)
Fixpoint oper_of (l : list (kind * oper_clause)) (k : kind) : option oper_clause :=
  match l with
  | [] => None
  | (k', c) :: r => if kind_eqb k' k then Some c else oper_of r k
  end.
Definition jmeta_of (w : raw) : jmeta := mkJ (w_type w) (w_data w) (oper_of (w_oper w)) (w_isa w).
Definition rec_of (w : raw) : irec :=
  mkIRec (w_mn w) (w_pseudo w)
    (match w_stencil w with Some n => n | None => 0 end)
    (w_fixed w) (w_ignore w) (w_xform w) (w_factory w)
    (match w_expand w with Some s => s | None => ""%string end)
    (w_form w)
    (match w_overlay w with Some (b, m) => Some (mkJO b m) | None => None end)
    (w_alias w) (w_tags w) (jmeta_of w).
