(** Small tables made of shipped records, each refused for one reason (C58). *)
From Coq Require Import NArith List Bool String.
From Verif Require Import M_Base M_Meta M_Builder M_Raw G_Tables S_Shipped.
Import ListNotations.
Local Open Scope string_scope.
Local Open Scope N_scope.

Definition named_rec (n : string) : list irec := map rec_of (pick [n] raw_rv64).
Definition as_rec (n mn : string) (st : N) (fixed : list string) : list irec :=
  map rec_of (map (fun w => variant w mn st fixed) (pick [n] raw_rv64)).
Definition with_form (f : string) (r : irec) : irec :=
  mkIRec (r_mn r) (r_pseudo r) (r_stencil r) (r_fixed r) (r_ignore r) (r_xform r) (r_factory r) (r_expand r) (Some f) (r_overlay r) (r_alias r) (r_tags r) (r_meta r).
Definition with_overlay (o : jolay) (r : irec) : irec :=
  mkIRec (r_mn r) (r_pseudo r) (r_stencil r) (r_fixed r) (r_ignore r) (r_xform r) (r_factory r) (r_expand r) (r_form r) (Some o) (r_alias r) (r_tags r) (r_meta r).
(** add's bits and func3, but a func5 where add has a func7. *)
Definition t_incompatible : list irec := (named_rec "add" ++ as_rec "amoadd.w" "b" 0x33 [])%list.
(** add's opcode, and nothing more to tell it by. *)
Definition t_short_after : list irec := (named_rec "add" ++ as_rec "lui" "b" 0x33 [])%list.
Definition t_short_before : list irec := (as_rec "lui" "b" 0x33 [] ++ named_rec "add")%list.
Definition t_same_name : list irec := (named_rec "add" ++ named_rec "add")%list.
Definition t_no_expansion : list irec := named_rec "c.lwsp".
Definition t_no_form : list irec := (named_rec "addi" ++ map (with_form "X") (named_rec "add"))%list.
Definition t_no_field : list irec := as_rec "add" "b" 0x33 ["imm"].
Definition t_fixed_twice : list irec := (as_rec "add" "a" 0x33 ["rs1"] ++ as_rec "add" "b" 0x33 ["rs1"])%list.
Definition over (base : string) : list irec := map (with_overlay (mkJO (Some base) (Some [0xfff; 0x2]))) (as_rec "add" "hint" 0 []).
Definition t_overlay_lost : list irec := over "addi".
Definition t_overlay_compressed : list irec := (lwsp ++ over "c.lwsp")%list.
