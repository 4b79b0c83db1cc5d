(** Model of the decode tree: mavis/IFactory.h (composite nodes), mavis/DTable.h
    (root), impl/DTable.tcc (build_, the placement part of buildLeaf_).
    Nodes are values; the tree has no sharing, so a node reached by one path only
    is updated by rebuilding that path. *)
From Coq Require Import NArith List Bool String.
From Verif Require Import M_Base M_Field M_Forms M_Extract.
Import ListNotations.
Local Open Scope N_scope.

(** What a leaf slot holds: the factory (index in the builder's store, M_Builder)
    and the extractor (class and fixed-field mask).  SpecialCaseEntry::factory and
    ::extractor, IFactory.h:378-387. *)
Record pay := mkPay { pay_fact : nat; pay_cls : xcls; pay_ffm : N }.

(** IFactory.h:378-387, SpecialCaseEntry; [se_pay = None] is factory == nullptr
    (factory and extractor are always set together). *)
Record sentry := mkSE {
  se_mn : string;
  se_mask : N;
  se_fset : N;
  se_value : N;
  se_nfixed : N;
  se_pay : option pay }.

(** IFactory.h:580-722, IFactoryDenseComposite (field_, itable_, default_), and
    IFactory.h:87-413, IFactorySpecialCaseComposite (table_, default_; the default
    entry keeps only mnemonic, factory and extractor, the other members are never
    read).  [itable_] has [getSize()] slots and is only indexed by
    [field_->extract(..)], which is smaller (C24). *)
Inductive node :=
| Dense (f : field) (tab : N -> option node) (dflt : option node)
| Special (tab : list sentry) (dflt : option (string * pay)).

(** IFactory.h:588-595, the constructor. *)
Definition dense_new (f : field) : node := Dense f (fun _ => None) None.
(** IFactory.h:90, the (default) constructor. *)
Definition special_new : node := Special [] None.

(** IFactory.h:169-177: mask |= form->getField(fname).getShiftedMask(). *)
Fixpoint fixed_mask (fm : form) (fl : list string) : res N :=
  match fl with
  | [] => Ok 0
  | n :: r =>
      let* f := get_field fm n in
      let* m := fixed_mask fm r in
      Ok (N.lor (f_smask f) m)
  end.
(** IFactory.h:182-197, insertion before the first entry with fewer fixed fields. *)
Fixpoint sp_insert (e : sentry) (tab : list sentry) : list sentry :=
  match tab with
  | [] => [e]
  | a :: r => if se_nfixed a <? se_nfixed e then e :: a :: r else a :: sp_insert e r
  end.
(** (istencil & entry.mask) == entry.value, IFactory.h:224, 243, 299. *)
Definition se_hit (ic : N) (e : sentry) : bool := N.land ic (se_mask e) =? se_value e.
(** IFactory.h:166-217, addSpecialCase. *)
Definition add_special (fm : form) (mn : string) (st : N) (fl : list string) (tab : list sentry)
  : res (list sentry) :=
  let* mask := fixed_mask fm fl in
  let* fset := get_field_id_set fm fl in
  let tab' := sp_insert (mkSE mn mask fset (N.land st mask) (N.of_nat (List.length fl)) None) tab in
  let* _ := rassert ((N.of_nat (List.length tab') <=? 1) ||
                     forallb (fun e => negb (se_hit st e && (mask =? se_mask e) && negb (String.eqb mn (se_mn e)))) tab') in
  Ok tab'.
(** IFactory.h:219-228, getNode: [None] is nullptr. *)
Definition sp_get_node (tab : list sentry) (d : option (string * pay)) (st : N) : option pay :=
  match find (se_hit st) tab with
  | Some e => se_pay e
  | None => option_map snd d
  end.
(** IFactory.h:242-249: the first matching entry gets the factory and a special-case
    clone of the extractor; [None] when no entry matches. *)
Fixpoint sp_set_first (p : pay) (st : N) (tab : list sentry) : option (list sentry) :=
  match tab with
  | [] => None
  | e :: r =>
      if se_hit st e
      then Some (mkSE (se_mn e) (se_mask e) (se_fset e) (se_value e) (se_nfixed e)
                   (Some (mkPay (pay_fact p) (clone_cls (pay_cls p)) (se_mask e))) :: r)
      else option_map (cons e) (sp_set_first p st r)
  end.
(** IFactory.h:257-268, addDefaultIFactory. *)
Definition sp_add_default (mn : string) (p : pay) (d : option (string * pay)) : res (option (string * pay)) :=
  let* _ := rassert (match d with None => true | Some _ => false end) in
  Ok (Some (mn, p)).
(** IFactory.h:235-255, addIFactory. *)
Definition sp_add (mn : string) (st : N) (p : pay) (tab : list sentry) (d : option (string * pay))
  : res (list sentry * option (string * pay)) :=
  match sp_set_first p st tab with
  | Some tab' => Ok (tab', d)
  | None => let* d' := sp_add_default mn p d in Ok (tab, d')
  end.
(** impl/DTable.tcc:228-246, where buildLeaf_ puts the instruction.  The flag is true
    when BuildErrorInstructionAlias is thrown; parseInstInfo_ catches that exception
    and goes on with the tree as it is then, so it is returned as a value here. *)
Definition sp_place (mn : string) (st : N) (p : pay) (tab : list sentry) (d : option (string * pay))
  : res (list sentry * option (string * pay) * bool) :=
  match sp_get_node tab d st with
  | None => let* (tab', d') := sp_add mn st p tab d in Ok (tab', d', false)
  | Some _ =>
      match d with
      | None => let* d' := sp_add_default mn p d in Ok (tab, d', false)
      | Some _ => Ok (tab, d, true)
      end
  end.

(** [t] with index [i] set to [n]. *)
Definition upd_tab (t : N -> option node) (i : N) (n : node) : N -> option node :=
  fun j => if j =? i then Some n else t j.

(** impl/DTable.tcc:283-332, build_ below the root: [cur] is the node for the first of
    [fs]; [leaf] is buildLeaf_ and returns the new leaf node and a result.
    [getField()] of a special-case node is assert(false) (IFactory.h:391-395). *)
Section Descend.
Context {A : Type} (ign : list string) (st : N) (leaf : node -> res (node * A)).
Definition is_ignored (f : field) : bool := existsb (String.eqb (f_name f)) ign.
Fixpoint descend (fs : list field) (cur : node) {struct fs} : res (node * A) :=
  match fs with
  | [] => AssertFail                       (* assert(n_fields > 0) *)
  | f :: rest =>
      match cur with
      | Special _ _ => AssertFail
      | Dense g tab d =>
          if negb (f_equiv g f) then Throw EBuildErrorFieldsIncompatible else
          let fresh := match rest with [] => special_new | f2 :: _ => dense_new f2 end in
          let below := fun child => match rest with [] => leaf child | _ :: _ => descend rest child end in
          if is_ignored f then
            let child := match d with None => fresh | Some c => c end in
            let* (child', a) := below child in
            Ok (Dense g tab (Some child'), a)
          else
            let i := f_extract g st in
            let child := match tab i with None => fresh | Some c => c end in
            let* (child', a) := below child in
            Ok (Dense g (upd_tab tab i child') d, a)
      end
  end.
End Descend.

(** mavis/DTable.h:187-195, the six matchers, applied to the extracted field
    (PseudoForm<'*'>::FAMILY, bits [0,16), mavis/FormPseudo.h:20-60). *)
Definition family_field : field := mkF "family" 0 16.
Definition root_matchers : list (N -> bool) :=
  [fun i => negb (N.land i 0x3 =? 0x3);
   fun i => (N.land i 0x3 =? 3) && negb (N.land i 0x1c =? 0x1c);
   fun i => N.land i 0x3f =? 0x1f;
   fun i => N.land i 0x7f =? 0x3f;
   fun i => (N.land i 0x7f =? 0x7f) && negb (N.land i 0x7000 =? 0x7000);
   fun i => N.land i 0x707f =? 0x707f].
(** Index of the first matcher that accepts: the loops of IFactory.h:927-935, 937-945
    and 968-983. *)
Fixpoint first_match (ms : list (N -> bool)) (x : N) (i : N) : option N :=
  match ms with
  | [] => None
  | m :: r => if m x then Some i else first_match r x (i + 1)
  end.
Definition root_class (ic : N) : option N := first_match root_matchers (f_extract family_field ic) 0.

(** The root node: one child slot per matcher (default_ is never set). *)
Definition tree := N -> option node.
Definition tree_new : tree := fun _ => None.

(** impl/DTable.tcc:259-333, build_. *)
Definition build_tree {A} (fm : form) (ign : list string) (st : N) (leaf : node -> res (node * A))
  (t : tree) : res (tree * A) :=
  match fm_ocfields fm with
  | [] => AssertFail
  | f0 :: _ =>
      match root_class st with
      | None => UB                         (* addIFactory stores nothing, getNode returns nullptr *)
      | Some c =>
          let cur := match t c with None => dense_new f0 | Some n => n end in
          let* (n, a) := descend ign st leaf (fm_ocfields fm) cur in
          Ok (upd_tab t c n, a)
      end
  end.

(** Which leaf slot getInfo reaches.  IFactory.h:295-337 (special-case node), 649-676
    (dense node: an UnknownOpcode from the indexed child makes it try the default;
    no other exception is caught there).  The check for reserved encodings and the
    factory's own getInfo come after this selection (M_DTable). *)
Fixpoint tsel (n : node) (ic : N) : res (string * pay) :=
  match n with
  | Special tab d =>
      match find (se_hit ic) tab with
      | Some e => match se_pay e with
                  | Some p => Ok (se_mn e, p)
                  | None => AssertFail
                  end
      | None => match d with
                | Some mp => Ok mp
                | None => Throw EUnknownOpcode
                end
      end
  | Dense f tab d =>
      match tab (f_extract f ic) with
      | Some c =>
          match tsel c ic with
          | Throw EUnknownOpcode =>
              match d with Some dn => tsel dn ic | None => Throw EUnknownOpcode end
          | r => r
          end
      | None => match d with Some dn => tsel dn ic | None => Throw EUnknownOpcode end
      end
  end.
(** IFactory.h:968-983, the root. *)
Definition tree_sel (t : tree) (ic : N) : res (string * pay) :=
  match root_class ic with
  | None => Throw EUnknownOpcode
  | Some c => match t c with
              | Some n => tsel n ic
              | None => Throw EUnknownOpcode
              end
  end.

(** IFactory.h:339-349 and 678-690, flushCaches: whether the assertion on the
    factories of special-case entries holds, and the factories reached. *)
Fixpoint nseq (from : N) (len : nat) : list N :=
  match len with O => [] | S k => from :: nseq (from + 1) k end.
Fixpoint flush_node (n : node) : res (list nat) :=
  match n with
  | Special tab d =>
      let fix go (l : list sentry) : res (list nat) :=
        match l with
        | [] => Ok (match d with None => [] | Some (_, p) => [pay_fact p] end)
        | e :: r => match se_pay e with
                    | None => AssertFail
                    | Some p => let* fs := go r in Ok (pay_fact p :: fs)
                    end
        end in go tab
  | Dense f tab d =>
      let fix go (l : list N) : res (list nat) :=
        match l with
        | [] => match d with None => Ok [] | Some dn => flush_node dn end
        | i :: r =>
            let* a := match tab i with None => Ok [] | Some c => flush_node c end in
            let* b := go r in Ok (a ++ b)%list
        end in go (nseq 0 (N.to_nat (f_size f)))
  end.
(** IFactory.h:985-997, the root's flushCaches. *)
Fixpoint flush_tree_from (t : tree) (l : list N) : res (list nat) :=
  match l with
  | [] => Ok []
  | c :: r =>
      let* a := match t c with None => Ok [] | Some n => flush_node n end in
      let* b := flush_tree_from t r in Ok (a ++ b)%list
  end.
Definition flush_tree (t : tree) : res (list nat) := flush_tree_from t (nseq 0 6).
