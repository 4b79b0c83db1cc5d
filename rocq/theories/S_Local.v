(** Specification of the records that have a say in the decoding of an opcode (C61).  Nothing
    here mentions the decode tree, the builder or the caches. *)
From Coq Require Import NArith List Bool String.
From Verif Require Import M_Base M_Builder M_DTable S_Bits S_Trie S_Table.
Import ListNotations.
Local Open Scope N_scope.

(** No record of [more] has an encoding that matches [ic] or is an overlay for its bits. *)
Definition unconcerned (more : list irec) (ic : N) : Prop :=
  (forall e, In e (encodings more) -> ~ matches e ic) /\
  (forall mn base mask, ~ overlay_hit more mn base mask ic).

(** Record [r] of [recs] has a say in how [ic] is decoded: an encoding of it matches, or it is
    an overlay, for the bits of [ic], of an instruction that matches, or it bears the name of the
    expansion of one that matches. *)
Definition concerns (recs : list irec) (ic : N) (r : irec) : Prop :=
  In r recs /\
  ((exists e, In e (rec_encs r) /\ matches e ic) \/
   (exists r0 e0, listed recs r0 e0 /\ matches e0 ic /\ exists mn mask, overlays r mn (en_mn e0) mask (N.land ic mask)) \/
   (exists r0 e0, listed recs r0 e0 /\ matches e0 ic /\ r_mn r = Some (r_expand r0))).

(** The same answer, the same UID included; the annotation may differ. *)
Definition same_and_uid (r r' : res info) : Prop :=
  match r, r' with
  | Ok v, Ok v' => i_icode v = i_icode v' /\ i_di v = i_di v' /\ i_meta v = i_meta v' /\ i_x v = i_x v'
  | Throw e, Throw e' => e = e'
  | AssertFail, AssertFail | UB, UB => True
  | _, _ => False
  end.
