(** Specification: instruction types as sets of bits (C30), and operand typings. *)
From Coq Require Import NArith List Bool String.
From Verif Require Import M_Meta.
Import ListNotations.
Local Open Scope N_scope.

(** [t] has the type with number [i]. *)
Definition has (t i : N) : Prop := N.testbit t i = true.
Definition all_in (q t : N) : Prop := forall i, has q i -> has t i.
(** [a] and [b] do not differ on the types of [q]. *)
Definition same_on (q a b : N) : Prop := forall i, has q i -> N.testbit a i = N.testbit b i.

(** The typing written in a JSON record: clause [c] lists field [f]. *)
Definition clause_lists (c : option oper_clause) (f : fid) : Prop :=
  match c with
  | None => False
  | Some OperAll => True
  | Some (OperList l) => exists n, In n l /\ get_fid n = Some f
  end.
(** Each field is listed under at most one type. *)
Definition one_type (j : kind -> option oper_clause) : Prop :=
  forall f k1 k2, clause_lists (j k1) f -> clause_lists (j k2) f -> k1 = k2.

(** The names of the operand fields in a record. *)
Definition field_name (f : fid) : option string :=
  match f with
  | RS1 => Some "rs1" | RS2 => Some "rs2" | RS3 => Some "rs3" | RS4 => Some "rs4"
  | RD => Some "rd" | RD2 => Some "rd2"
  | FUSED_SD_0 => Some "fused_sd_0" | FUSED_SD_1 => Some "fused_sd_1"
  | FUSED_RD_0 => Some "fused_rd_0" | FUSED_RD_1 => Some "fused_rd_1"
  | TEMP_RS1 => Some "temp_rs1" | TEMP_RS2 => Some "temp_rs2" | TEMP_RS3 => Some "temp_rs3"
  | TEMP_RD => Some "temp_rd" | TEMP_RD2 => Some "temp_rd2"
  | RS_MAX | RD_MAX => None
  end%string.

(** The number of the ISA extension with a letter. *)
Definition isa_number (letter : string) : option N :=
  match letter with
  | "A" => Some 0 | "B" => Some 1 | "C" => Some 2 | "D" => Some 3 | "F" => Some 4 | "G" => Some 5
  | "H" => Some 6 | "I" => Some 7 | "M" => Some 8 | "Q" => Some 9 | "V" => Some 10
  | _ => None
  end%string.
(** An entry of an "isa" clause, e.g. 64I or D: a known letter, and a power of two as width if any. *)
Definition isa_entry_ok (e : option N * string) : Prop :=
  isa_number (snd e) <> None /\ (fst e = None \/ exists k, fst e = Some (2 ^ k)).

(** The types by number, with their names in a record. *)
Definition type_name (i : N) : option string :=
  match i with
  | 0 => Some "int" | 1 => Some "float" | 2 => Some "arith" | 3 => Some "mul" | 4 => Some "div" | 5 => Some "branch"
  | 6 => Some "pc" | 7 => Some "cond" | 8 => Some "jal" | 9 => Some "jalr" | 10 => Some "load" | 11 => Some "store"
  | 12 => Some "mac" | 13 => Some "sqrt" | 14 => Some "convert" | 15 => Some "compare" | 16 => Some "move" | 17 => Some "classify"
  | 18 => Some "vector" | 19 => Some "maskable" | 20 => Some "unit_stride" | 21 => Some "stride" | 22 => Some "ordered_indexed"
  | 23 => Some "unordered_indexed" | 24 => Some "segment" | 25 => Some "faultfirst" | 26 => Some "whole" | 27 => Some "mask"
  | 28 => Some "widening" | 29 => Some "hypervisor" | 30 => Some "crypto"
  | 56 => Some "prefetch" | 57 => Some "ntl" | 58 => Some "hint" | 59 => Some "cache" | 60 => Some "atomic" | 61 => Some "fence"
  | 62 => Some "system" | 63 => Some "csr"
  | _ => None
  end%string.
(** A record whose "type", "data", operand and "isa" clauses are acceptable.  A data size is a
    power of two below 2^31, or zero. *)
Definition known_types (c : option (list string)) : Prop :=
  forall ts n, c = Some ts -> In n ts -> exists i, type_name i = Some n.
Definition good_size (d : N) : Prop := d = 0 \/ exists k, k < 31 /\ d = 2 ^ k.
Definition known_fields (c : option oper_clause) : Prop :=
  forall l n, c = Some (OperList l) -> In n l -> exists f, field_name f = Some n.
Definition record_ok (j : jmeta) : Prop :=
  known_types (jm_type j) /\ (forall d, jm_data j = Some d -> good_size d) /\
  (forall k, known_fields (jm_oper j k)) /\ Forall isa_entry_ok (jm_isa j).
(** Clause [c] names [n]. *)
Definition listed (c : option (list string)) (n : string) : Prop := exists ts, c = Some ts /\ In n ts.
