(** Specification: pseudo-instructions (C33). *)
From Coq Require Import NArith List Bool String.
From Verif Require Import M_Base M_Meta M_OperandInfo M_Extract M_Decoded M_Registry M_Builder M_DTable M_Direct M_Pseudo S_Direct.
Import ListNotations.
Local Open Scope N_scope.

(** Positional renaming: the i-th operand, if it has no field, takes the i-th field of the form
    and its type; operands that have a field, and those beyond the form, stay as they are. *)
Definition renamed (fields : list (fid * option kind)) (es es' : list elem) : Prop :=
  List.length es' = List.length es /\
  forall i e, nth_error es i = Some e -> exists e', nth_error es' i = Some e' /\
    match e_fid e, nth_error fields i with
    | None, Some (f, t) => e' = mkE (Some f) t (e_val e) (e_sdata e) (e_implied e)
    | _, _ => e' = e
    end.
(** The fields a clause names, with their types under the meta-data of the record. *)
Definition form_is (m : meta) (names : list string) (fields : list (fid * option kind)) : Prop :=
  Forall2 (fun n p => get_fid n = Some (fst p) /\ snd p = mt_otype m (fst p)) names fields.
(** The operands handed in with the extractor's operand lists, as far as the caller determines
    them: lists of operands are taken as they are; register numbers from masks and from store
    lists have no field. *)
Definition handed_in (o : dops) (lists : option (list elem)) (regs : list N) (es : list elem) : Prop :=
  map e_val es = regs /\
  match lists with
  | Some l => es = l
  | None => match o with DInfo _ _ _ => True | _ => Forall (fun e => e_fid e = None) es end
  end.
Definition list_sources (o : dops) : option (list elem) :=
  match o with DList s _ _ | DPseudo s _ => Some (oi_elems s) | _ => None end.
Definition list_dests (o : dops) : option (list elem) :=
  match o with DList _ d _ | DPseudo _ d => Some (oi_elems d) | _ => None end.
(** Calls of makePseudoInst, one after the other. *)
Definition pseudo_run (b : pbuilder) (h : list direct) : pbuilder := fold_left (fun b d => fst (make_pseudo b d)) h b.
(** The extractor asks for the pseudo-instruction [mn]: by name, or by the UID that the builder
    [b] gives to [mn]. *)
Definition asks (b : pbuilder) (mn : string) (d : direct) : Prop :=
  (dx_uid d = INVALID_UID /\ dx_mn d = mn) \/ dx_uid d = pseudo_uid b mn.
(** UIDs within 100 of 2^32 are left out. *)
Definition uid_fits (d : direct) : Prop := dx_uid d + DEFAULT_UP_SIZE < w32.
(** The registers of the operands of kind [k]. *)
Definition of_kind (k : kind) (es : list elem) : list N :=
  flat_map (fun e => match e_type e with Some k' => if kind_eqb k' k then [e_val e] else [] | None => [] end) es.
(** What is expected of the answer [v] for a pseudo-instruction [mn] whose clauses name the
    fields [fs] and [fd]. *)
Record pseudo_made (fs fd : list (fid * option kind)) (mn : string) (uid : N) (m : meta) (a : option anno) (d : direct) (v : info) : Prop := mkPM {
  pm_name : d_mnemonic (i_di v) = mn /\ d_uid (i_di v) = uid /\ i_meta v = m /\ i_anno v = a;
  pm_values : reported d (i_di v);
  pm_src : exists es, handed_in (dx_ops d) (list_sources (dx_ops d)) (given_sources (dx_ops d)) es /\
    renamed fs es (oi_elems (d_src_oi (i_di v)));
  pm_dst : exists es, handed_in (dx_ops d) (list_dests (dx_ops d)) (given_dests (dx_ops d)) es /\
    renamed fd es (oi_elems (d_dst_oi (i_di v)));
  pm_types : forall k, exactly (M_Decoded.d_srcT (i_di v) k) (of_kind k (oi_elems (d_src_oi (i_di v)))) /\
    exactly (M_Decoded.d_dstT (i_di v) k) (of_kind k (oi_elems (d_dst_oi (i_di v)))) }.
(** The operands are given as lists of operands. *)
Definition listed_ops (d : direct) (s t : opinfo) : Prop := dx_ops d = DPseudo s t \/ exists sp, dx_ops d = DList s t sp.
(** The names of the special fields in the "specials" clause. *)
Definition special_named (n : string) (s : sfid) : Prop :=
  match s with
  | SF_AQ => n = "aq" | SF_RL => n = "rl" | SF_RM => n = "rm" | SF_FM => n = "fm" | SF_PRED => n = "pred" | SF_SUCC => n = "succ"
  | SF_CSR => n = "csr" | SF_VM => n = "vm" | SF_NF => n = "nf" | SF_WD => n = "wd" | SF_AVL => n = "avl" | SF_HINT => n = "hint"
  | SF__N => False
  end%string.
(** Special values: [names] of the "specials" clause give the positions, the last one if a field
    is named twice. *)
Definition at_position (names : list string) (s : sfid) (i : nat) : Prop :=
  (exists n, nth_error names i = Some n /\ special_named n s) /\
  forall j n, nth_error names j = Some n -> special_named n s -> (j <= i)%nat.
(** The special values given; the other classes have none. *)
Definition given_specials (o : dops) : option (list N) :=
  match o with DInfo _ _ l | DList _ _ l | DStores _ _ l => Some l | _ => None end.
