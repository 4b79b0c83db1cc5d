(** Claim C30: instruction-type queries, and the operand typing of meta-data. *)
From Coq Require Import NArith List Bool String.
From Verif Require Import M_Base M_Meta S_Meta S_Agree L_Meta L_NameTables.
Import ListNotations.
Local Open Scope N_scope.

(** Type queries, with types as sets of bits. *)
Theorem C30_is_inst_type : forall m t, is_inst_type m t = true <-> all_in t (mt_types m).
Proof. exact C30_is. Qed.
Theorem C30_any_of : forall m l, is_inst_type_any m l = true <-> exists t, In t l /\ all_in t (mt_types m).
Proof. exact C30_any. Qed.
Theorem C30_all_of : forall m l, is_inst_type_all m l = true <-> forall t, In t l -> all_in t (mt_types m).
Proof. exact C30_all. Qed.
Theorem C30_same_as : forall m other l, is_inst_type_same m other l = true <->
  (l = [] -> mt_types m = other) /\ (forall t, In t l -> same_on t (mt_types m) other).
Proof. exact C30_same. Qed.
Theorem C30_merge_keeps_both : forall m o i,
  has (mt_types (meta_merge m o)) i <-> has (mt_types m) i \/ has (mt_types o) i.
Proof. exact C30_merge. Qed.
Theorem C30_set_inst_type : forall m l i,
  has (mt_types (set_inst_type l m)) i <-> has (mt_types m) i \/ exists t, In t l /\ has t i.
Proof. exact C30_set. Qed.
(** The types of a record are those it names; an unknown name is reported. *)
Theorem C30_record_types : forall ts a t, add_types ts a = Ok t ->
  forall i, has t i <-> has a i \/ exists n b, In n ts /\ itype_of n = Some b /\ has b i.
Proof. exact add_types_spec. Qed.
Theorem C30_unknown_type_reported : forall ts a,
  (exists n, In n ts /\ itype_of n = None) <-> add_types ts a = Throw EBuildErrorUnknownType.
Proof. exact add_types_err. Qed.
(** Every type name has a bit of its own in the 64-bit word; the types that the decoder asks for
    have the names of the record's "type" clause. *)
Theorem C30_type_names : forall a b s t i, itype_of a = Some s -> itype_of b = Some t -> has s i -> has t i -> a = b /\ i < 64.
Proof. exact type_names_lemma. Qed.
Theorem C30_type_bit : forall n s, itype_of n = Some s -> exists i, forall j, has s j <-> j = i.
Proof. exact type_single_lemma. Qed.
Example C30_type_ex : itype_of "jal" = Some IT_JAL /\ itype_of "jalr" = Some IT_JALR /\ itype_of "load" = Some IT_LOAD /\
  itype_of "store" = Some IT_STORE /\ itype_of "int" = Some IT_INT /\ itype_of "arith" = Some IT_ARITH /\
  itype_of "cond" = Some IT_CONDITIONAL /\ itype_of "move" = Some IT_MOVE /\ itype_of "branch" = Some IT_BRANCH.
Proof. repeat split. Qed.
(** The operand fields and their names in a record. *)
Theorem C30_field_names : forall n f, get_fid n = Some f <-> field_name f = Some n.
Proof. exact field_names_lemma. Qed.
Print Assumptions C30_type_names.
Print Assumptions C30_type_bit.
Print Assumptions C30_field_names.
(** The ISA-extension queries. *)
Theorem C30_is_isa : forall m t, is_isa m t = true <-> all_in t (mt_isa m).
Proof. exact C30_isa. Qed.
Theorem C30_isa_any_of : forall m l,
  is_isa_any m l = true <-> exists t i, In t l /\ has t i /\ has (mt_isa m) i.
Proof. exact C30_isa_any. Qed.
Theorem C30_isa_all_of : forall m l, is_isa_all m l = true <-> forall t, In t l -> all_in t (mt_isa m).
Proof. exact C30_isa_all. Qed.
(** "Same ISA" implies agreement on the queried extensions; the converse is false:
    two instructions that both lack the extension are reported as different. *)
Theorem C30_isa_same_as_partial : forall m other l, is_isa_same m other l = true ->
  forall t, In t l -> same_on t (mt_isa m) other.
Proof. exact C30_isa_same. Qed.
Theorem C30_isa_same_as_refuted : exists m other l,
  (forall t, In t l -> same_on t (mt_isa m) other) /\ l <> [] /\ is_isa_same m other l = false.
Proof. exact isa_same_refuted. Qed.
Example C30_ex :
  let m := set_types (meta_init false []) 0x105 in
  is_inst_type m IT_JAL = true /\ is_inst_type m IT_JALR = false /\ is_inst_type_any m [IT_JALR; IT_INT] = true /\
  is_inst_type_all m [IT_JALR; IT_INT] = false /\ is_inst_type_same m 0x205 [IT_INT; IT_ARITH; IT_BRANCH] = true /\
  is_inst_type_same m 0x205 [IT_INT; IT_JAL] = false /\ add_types ["int"; "load"]%string 0 = Ok 0x401.
Proof. repeat split. Qed.
Print Assumptions C30_is_inst_type.
Print Assumptions C30_any_of.
Print Assumptions C30_all_of.
Print Assumptions C30_same_as.
Print Assumptions C30_merge_keeps_both.
Print Assumptions C30_set_inst_type.
Print Assumptions C30_record_types.
Print Assumptions C30_unknown_type_reported.
Print Assumptions C30_is_isa.
Print Assumptions C30_isa_any_of.
Print Assumptions C30_isa_all_of.
Print Assumptions C30_isa_same_as_partial.
Print Assumptions C30_isa_same_as_refuted.

(** The operand typing a record gives: per type, the set of fields is what the
    record lists; a field reported with a type is in that type's set (whatever
    the record says); and if no field is listed twice the reported type is the
    listed one. *)
Theorem C30_typing_consistent : forall j c t m, make_meta j c t = Ok m -> typing_ok m.
Proof. exact make_meta_typing. Qed.
Theorem C30_typing_preserved : forall m, typing_ok m ->
  (forall o, typing_ok (meta_merge m o)) /\ (forall l, typing_ok (add_fixed_fields l m)) /\
  (forall j t m', meta_overrides j t m = Ok m' -> typing_ok m').
Proof. exact (fun m H => conj (fun _ => H) (conj (fun _ => H) (fun j t m' E => overrides_typing j t m m' E H))). Qed.
Theorem C30_typing_default : typing_ok meta_rv64i /\ typing_ok meta_rv32i.
Proof. exact rv_typing. Qed.
Theorem C30_operand_types : forall j c t m, make_meta j c t = Ok m ->
  (forall k f, N.testbit (mt_fset m k) (fid_idx f) = true <-> clause_lists (jm_oper j k) f) /\
  (one_type (jm_oper j) -> forall k f, mt_otype m f = Some k <-> clause_lists (jm_oper j k) f).
Proof. exact make_meta_types. Qed.
Example C30_typing_ex : exists m,
  make_meta (mkJ (Some ["float"; "load"]%string) (Some 64)
     (fun k => match k with KLong => Some (OperList ["rs1"%string]) | KDouble => Some (OperList ["rd"%string]) | _ => None end)
     [(Some 64, "D"%string)]) false [] = Ok m /\
  mt_otype m RS1 = Some KLong /\ mt_otype m RD = Some KDouble /\ mt_otype m RS2 = None.
Proof. eexists. split; [vm_compute; reflexivity|]. repeat split. Qed.
Print Assumptions C30_typing_consistent.
Print Assumptions C30_typing_preserved.
Print Assumptions C30_typing_default.
Print Assumptions C30_operand_types.
