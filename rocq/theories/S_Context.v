(** Specification: several contexts.  From the calls of a program and their answers: what was
    asked of one context, and which contexts exist. *)
From Coq Require Import NArith List Bool String.
From Verif Require Import M_Base M_Registry M_Builder M_DTable M_Pseudo M_Context S_History.
Import ListNotations.

Section Contexts.
Context {A U : Type}.
(** The calls made, with their answers. *)
Definition events : Type := list (gop A U * res (gans A U)).
(** The calls made while [X] was the current context, the current one being [cur] at first. *)
Fixpoint seen (X cur : string) (tr : events) : list (cop A U * res (gans A U)) :=
  match tr with
  | [] => []
  | (GSwitch n, Ok _) :: r => seen X n r
  | (GCall o, a) :: r => if String.eqb cur X then (o, a) :: seen X cur r else seen X cur r
  | _ :: r => seen X cur r
  end.
(** A context [n] was made. *)
Definition was_made (n : string) (tr : events) : Prop :=
  exists c nu', In (GMake n c nu', Ok GDone) tr.
(** The context [n], made with the arguments [c]: the first one, or a later one. *)
Definition made_with (c0 : config) (tr : events) (n : string) (c : config) : Prop :=
  (n = "BASE"%string /\ c = c0) \/ exists nu', In (GMake n c nu', Ok GDone) tr.
(** Not a call with a trace record. *)
Definition traceless (o : cop A U) : Prop := match o with COp o => no_trace o | _ => True end.
(** The decoding calls among those of a context, with what the caller sees of the answers. *)
Definition decoding (l : list (cop A U * res (gans A U))) : list (op A U * res (gans A U)) :=
  flat_map (fun p => match fst p with COp o => [(o, snd p)] | _ => [] end) l.
Definition gview (a : res (gans A U)) : res (pans U) :=
  let* a := a in
  match a with GAns (CAns x) => view (Ok x) | _ => AssertFail end.
(** The answer of a context, to the caller of the whole. *)
Definition wrapc (a : res (cans A U)) : res (gans A U) := let* a := a in Ok (GAns a).
(** The calls [l] on a context made with [c] were answered as by the decoder without caches that
    is built from the tables, annotations and UIDs in [c] (the UID counter being [nu]), as far as
    they are covered by the comparison of decoders with and without caches. *)
Definition serves (u0 : U) (c : config) (l : list (op A U * res (gans A U))) : Prop :=
  exists annos nu s, anno_files (c_ovs c) (c_files c) [] = Ok annos /\
    make_decoder (c_uids c) annos nu (c_incl c) (c_excl c) (map fst (c_recs c)) = Ok s /\
    ((0 < nu < w32)%N -> Forall (covered s) (map fst l) -> map gview (map snd l) = prun u0 s [] (map fst l)).
End Contexts.

(** ** Unique ids in a program *)
(** The two numberings of a context: of its instructions and of its pseudo-instructions. *)
Inductive numbering := Instructions | PseudoInstructions.
Definition question {A U} (w : numbering) (m : string) : cop A U :=
  match w with Instructions => CUid m | PseudoInstructions => CPUid m end.
(** Asked in context [X], the program in state [g] says that [m] has the number [u]. *)
Definition says {A U} (u0 : U) (g : mavis A U) (X : string) (w : numbering) (m : string) (u : N) : Prop :=
  snd (grun u0 g [GSwitch X; GCall (question w m)]) = [Ok GDone; Ok (GAns (CNum u))].
(** In a context made with [c], the number of [m] is neither given by the user nor that of an expansion. *)
Definition library_chose (c : config) (w : numbering) (m : string) : Prop :=
  ~ In m (map fst (c_uids c)) /\
  (w = Instructions -> forall r p, In (r, p) (c_recs c) -> r_mn r = Some m -> r_expand r = ""%string).
(** The program is still running after the answer. *)
Definition goes_on {T} (a : res T) : Prop := match a with Ok _ | Throw _ => True | AssertFail | UB => False end.
(** The counter after a failed construction is what the model is told; it is not set back. *)
Fixpoint counter_kept {A U} (u0 : U) (g : mavis A U) (ops : list (gop A U)) : Prop :=
  match ops with
  | [] => True
  | o :: r => (match o with GMake _ _ nu' => (mv_nu g <= nu' < 2 ^ 32)%N | _ => True end) /\ counter_kept u0 (fst (gstep u0 g o)) r
  end.
