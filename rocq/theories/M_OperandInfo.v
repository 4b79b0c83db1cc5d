(** Model of mavis/OperandInfo.hpp. *)
From Coq Require Import NArith List Bool.
From Verif Require Import M_Base M_Meta.
Import ListNotations.
Open Scope N_scope.

(** OperandInfo.hpp:16-37, struct Element. *)
Record elem := mkE {
  e_fid : option fid;
  e_type : option kind;
  e_val : N;                 (* uint32_t *)
  e_sdata : bool;
  e_implied : bool }.

(** OperandInfo.hpp:48-59, struct FieldIDInfo; an invalid entry is [None]. *)
Record fidinfo := mkFI { fi_val : N; fi_type : option kind; fi_sdata : bool; fi_implied : bool }.

(** OperandInfo.hpp:41-62, the data members.  [oi_elems] is in insertion order. *)
Record opinfo := mkOI {
  oi_elems : list elem;
  oi_n : N;                          (* n_opers_, uint32_t *)
  oi_implied : bool;
  oi_ntypes : kind -> N;             (* n_types_ *)
  oi_fids : fid -> option fidinfo }. (* field_id_list_ *)

(** OperandInfo.hpp:65, default construction. *)
Definition oi_empty : opinfo := mkOI [] 0 false (fun _ => 0) (fun _ => None).

(** OperandInfo.hpp:55-58, FieldIDInfo::operator==. *)
Definition fi_matches (fi : fidinfo) (e : elem) : bool :=
  (fi_val fi =? e_val e) && okind_eqb (fi_type fi) (e_type e) &&
  Bool.eqb (fi_sdata fi) (e_sdata e) && Bool.eqb (fi_implied fi) (e_implied e).

Definition bump (o : option kind) (n : kind -> N) : kind -> N :=
  match o with
  | None => n
  | Some k => fun k' => if kind_eqb k' k then u32 (n k' + 1) else n k'
  end.

(** OperandInfo.hpp:77-98, addElement. *)
Definition add_elem (o : opinfo) (e : elem) : res opinfo :=
  let es := oi_elems o ++ [e] in
  let n := u32 (oi_n o + 1) in
  let imp := oi_implied o || e_implied e in
  match e_fid e with
  | None => Ok (mkOI es n imp (bump (e_type e) (oi_ntypes o)) (oi_fids o))
  | Some f =>
      match oi_fids o f with
      | Some fi =>
          let* _ := rassert (fi_matches fi e) in
          Ok (mkOI es n imp (oi_ntypes o) (oi_fids o))
      | None =>
          Ok (mkOI es n imp (bump (e_type e) (oi_ntypes o))
                (fun g => if fid_eqb g f
                          then Some (mkFI (e_val e) (e_type e) (e_sdata e) (e_implied e))
                          else oi_fids o g))
      end
  end.
(** OperandInfo.hpp:67-72, construction from a list. *)
Fixpoint add_elems (o : opinfo) (es : list elem) : res opinfo :=
  match es with
  | [] => Ok o
  | e :: r => let* o' := add_elem o e in add_elems o' r
  end.

(** OperandInfo.hpp:121-127, hasFieldID. *)
Definition oi_has (o : opinfo) (f : option fid) : bool :=
  match f with
  | None => false
  | Some f => match oi_fids o f with Some _ => true | None => false end
  end.
(** OperandInfo.hpp:129-163, getFieldValue / getFieldType / isStoreData / isImplied.
    For NONE the exception's argument getFieldIDName asserts. *)
Definition oi_query {A} (proj : fidinfo -> A) (o : opinfo) (f : option fid) : res A :=
  match f with
  | None => AssertFail
  | Some f => match oi_fids o f with
              | Some fi => Ok (proj fi)
              | None => Throw EOperandInfoInvalidFieldID
              end
  end.
Definition oi_field_value := oi_query fi_val.
Definition oi_field_type := oi_query fi_type.
Definition oi_is_store_data := oi_query fi_sdata.
Definition oi_is_implied := oi_query fi_implied.
