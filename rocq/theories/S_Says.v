(** Specification: what a decoded instruction says of itself, in terms of the texts of its record
    (C68). *)
From Coq Require Import NArith List Bool String.
From Verif Require Import M_Base M_Meta M_OperandInfo M_Extract M_Decoded M_Builder M_DTable S_Meta S_Table S_Widths.
Import ListNotations.
Local Open Scope N_scope.

(** Record [d] lists the type with number [i]. *)
Definition of_type (d : irec) (i : N) : Prop :=
  exists ts n, jm_type (r_meta d) = Some ts /\ In n ts /\ type_name i = Some n.
(** The operand clause of record [d] for the type [k] covers operand [f]. *)
Definition covers (d : irec) (k : kind) (f : fid) : Prop :=
  match jm_oper (r_meta d) k with
  | None => False
  | Some OperAll => True
  | Some (OperList l) => exists n, In n l /\ field_name f = Some n
  end.
(** Of two clauses that cover an operand the later one counts, in this order. *)
Definition rank (k : kind) : N :=
  match k with KWord => 0 | KLong => 1 | KSingle => 2 | KDouble => 3 | KQuad => 4 | KVector => 5 end.
Definition typed_as (d : irec) (f : fid) (t : option kind) : Prop :=
  match t with
  | Some k => covers d k f /\ forall k', covers d k' f -> rank k' <= rank k
  | None => forall k, ~ covers d k f
  end.
Definition size_in (d : irec) (otherwise : N) : N :=
  match jm_data (r_meta d) with Some n => n | None => otherwise end.

(** The two instructions that exist before any record is read, as records. *)
Definition built_rec (mn : string) : irec :=
  mkIRec (Some mn) None 0 [] [] None None "" None None [] []
    (mkJ (Some (if String.eqb mn "nop" then ["int"; "arith"] else ["int"; "cond"; "move"])%string) None
         (fun k => match k with KLong => Some OperAll | _ => None end) []).
(** Record [r] is described by record [d]: itself, or what it expands to. *)
Definition described_by (recs : list irec) (r d : irec) : Prop :=
  if String.eqb (r_expand r) "" then d = r
  else (In d recs /\ is_inst d (r_expand r)) \/ (untouched recs (r_expand r) /\ d = built_rec (r_expand r)).

(** The instruction formats with a register operand that takes the type of another operand
    (an implicit register, or the second of a pair) or has a type of its own. *)
Definition borrowing : list xcls :=
  [X_CB; X_C1_rsd_zext_I0; X_CI_rD_only; X_CIW_sp; X_CJ; X_CJR; X_CJAL; X_CJALR;
   X_I_load_pair; X_C0_load_word_pair; X_C2_sp_load_word_pair; X_S_pair; X_C0_store_word_pair; X_C2_sp_store_word_pair].
(** The format by which record [r], overlaid by [o], is read. *)
Definition format_of (r : irec) (o : option irec) (c : xcls) : Prop :=
  match o with
  | Some ro => match r_xform ro with Some n => get_extractor n = Ok c | None => rec_class r = Ok c end
  | None => rec_class r = Ok c
  end.

(** The decoded instruction [v] of record [r], described by [d] and overlaid by [o]: *)
Record says (d r : irec) (o : option irec) (v : info) : Prop := mkSays {
  (* isInstType *)
  sy_type : forall i, is_inst_type (i_meta v) (2 ^ i) = true <->
    of_type d i \/ of_type r i \/ exists ro, o = Some ro /\ of_type ro i;
  (* getDataSize, and the data size of the decoded information *)
  sy_size : mt_data (i_meta v) = match o with Some ro => size_in ro (size_in d 0) | None => size_in d 0 end;
  sy_dsize : d_dsize (i_di v) = mt_data (i_meta v);
  (* isISA and isISAWidth *)
  sy_isa : forall letter i, isa_number letter = Some i ->
    (is_isa (i_meta v) (2 ^ i) = true <-> exists w, In (w, letter) (jm_isa (r_meta d))) /\
    forall k, is_isa_width (i_meta v) i (2 ^ k) = true <-> In (Some (2 ^ k), letter) (jm_isa (r_meta d));
  (* getTags *)
  sy_tags : forall t, In t (mt_tags (i_meta v)) <-> In t (r_tags d) \/ exists ro, o = Some ro /\ In t (r_tags ro);
  (* the types of the operands *)
  sy_operands : forall c, format_of r o c -> ~ In c borrowing ->
    forall p e, In e (operands_at p (i_di v)) -> exists f, e_fid e = Some f /\ typed_as d f (e_type e) }.
