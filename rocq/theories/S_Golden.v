(** What /repo/test/basic observes of an instruction it has decoded (used by the conformance
    checks of T_Golden only). *)
From Coq Require Import NArith ZArith List Bool String.
From Verif Require Import M_Base M_Meta M_OperandInfo M_Extract M_Decoded M_OpcodeInfo M_Builder M_Trie M_DTable M_Print.
Import ListNotations.
Local Open Scope N_scope.

Inductive gobs :=
| GMnemonic (s : string)              (* getMnemonic() *)
| GUid (n : N)                        (* getUID() *)
| GImm (n : N)                        (* getImmediate() *)
| GHasImm (b : bool)                  (* hasImmediate() *)
| GOffset (z : Z)                     (* getSignedOffset() *)
| GAddr (n : N)                       (* getSourceAddressRegs() *)
| GData (n : N)                       (* getSourceDataRegs() *)
| GInt (s : side) (n : N)             (* getIntSourceRegs(), getIntDestRegs() *)
| GFloat (s : side) (n : N)
| GVector (s : side) (n : N)
| GSpecial (f : sfid) (n : N)         (* getSpecialField(f) *)
| GType (s : string) (b : bool)       (* isInstType(t) *)
| GExt (t : N) (b : bool)             (* isExtInstType(t) *)
| GField (s : side) (f : fid) (b : bool)        (* get..OpInfo().hasFieldID(f) *)
| GValue (s : side) (f : fid) (n : N)           (* get..OpInfo().getFieldValue(f) *)
| GKind (s : side) (f : fid) (k : kind)         (* get..OpInfo().getFieldType(f) *)
| GStoreData (f : fid) (b : bool)     (* getSourceOpInfo().isStoreData(f) *)
| GImplied (f : fid) (b : bool)       (* getSourceOpInfo().isImplied(f) *)
| GAnyImplied                         (* getSourceOpInfo().hasImpliedOperand() *)
| GTag (s : string) (b : bool).       (* getTags().isMember(s) *)

Definition is_ok {A} (eqb : A -> A -> bool) (r : res A) (x : A) : bool :=
  match r with Ok y => eqb y x | _ => false end.
Definition okind_is (a : option kind) (k : option kind) : bool := okind_eqb a k.
Definition opinfo_of (d : dinfo) (s : side) : opinfo :=
  match s with Src => d_src_oi d | Dst => d_dst_oi d end.

Definition observed (v : info) (o : gobs) : bool :=
  let d := i_di v in
  match o with
  | GMnemonic s => String.eqb (d_mnemonic d) s
  | GUid n => d_uid d =? n
  | GImm n => d_imm d =? n
  | GHasImm b => Bool.eqb (d_has_imm d) b
  | GOffset z => Z.eqb (d_soff d) z
  | GAddr n => d_addr d =? n
  | GData n => d_data d =? n
  | GInt s n => get_int_regs d s =? n
  | GFloat s n => get_float_regs d s =? n
  | GVector s n => get_vector_regs d s =? n
  | GSpecial f n => is_ok N.eqb (x_spec (i_x v) f (i_icode v)) n
  | GType s b => match itype_of s with
                 | Some t => Bool.eqb (negb (N.land (mt_types (i_meta v)) t =? 0)) b
                 | None => false
                 end
  | GExt t b => Bool.eqb (is_ext_type d t) b
  | GField s f b => Bool.eqb (oi_has (opinfo_of d s) (Some f)) b
  | GValue s f n => is_ok N.eqb (oi_field_value (opinfo_of d s) (Some f)) n
  | GKind s f k => is_ok okind_is (oi_field_type (opinfo_of d s) (Some f)) (Some k)
  | GStoreData f b => is_ok Bool.eqb (oi_is_store_data (d_src_oi d) (Some f)) b
  | GImplied f b => is_ok Bool.eqb (oi_is_implied (d_src_oi d) (Some f)) b
  | GAnyImplied => oi_implied (d_src_oi d)
  | GTag s b => Bool.eqb (existsb (String.eqb s) (mt_tags (i_meta v))) b
  end.

(** The line of golden.out: its indentation and the rest. *)
Definition golden_line (l : nat * string) : string := (indent (fst l) ++ snd l)%string.

Fixpoint lines_eqb (a b : list string) : bool :=
  match a, b with
  | [], [] => true
  | x :: r, y :: q => if String.eqb x y then lines_eqb r q else false
  | _, _ => false
  end.
(** The tree is printed as expected. *)
Definition same_tree (d : res (builder * tree)) (t : list (nat * string)) : bool :=
  match d with
  | Ok s => match print_tree s with Ok ls => lines_eqb ls (map golden_line t) | _ => false end
  | _ => false
  end.
(** The entries (source line, opcode, expectation) that are not met. *)
Definition failing {A} (chk : info -> A -> bool) (d : res (builder * tree)) (l : list (N * N * A))
  : list (N * N * A) :=
  match d with
  | Ok s => filter (fun e => match e with (_, ic, a) =>
              match pure_info (fst s) (snd s) ic with Ok v => negb (chk v a) | _ => true end end) l
  | _ => l
  end.
Definition dasm_is (v : info) (t : string) : bool := is_ok String.eqb (info_dasm v) t.
(** The name an opcode decodes to; [None] when decoding fails. *)
Definition name_of (d : res (builder * tree)) (ic : N) : option string :=
  match d with
  | Ok s => match pure_info (fst s) (snd s) ic with Ok v => Some (d_mnemonic (i_di v)) | _ => None end
  | _ => None
  end.
