(** Claim C01 (length classes). *)
From Coq Require Import NArith List Bool String.
From Verif Require Import M_Base M_Field M_Trie S_Trie L_Trie.
Import ListNotations.
Local Open Scope N_scope.

(** C01.  For every opcode, the matcher of one and only one of the six length classes
    accepts it, and it is the class of the RISC-V length encoding. *)
Theorem C01_one_matcher : forall (ic : N) (i : nat) (m : N -> bool),
  nth_error root_matchers i = Some m ->
  (m (f_extract family_field ic) = true <-> length_class ic = N.of_nat i).
Proof. exact C01_matchers_lemma. Qed.
Print Assumptions C01_one_matcher.
Example C01_one_matcher_ex :
  length_class 0x4501 = 0 /\ length_class 0x00000013 = 1 /\ length_class 0x1f = 2 /\
  length_class 0x3f = 3 /\ length_class 0x7f = 4 /\ length_class 0x707f = 5.
Proof. vm_compute; repeat split; reflexivity. Qed.

(** C01.  So the root sends every opcode to that class: lookup never leaves the slot of
    the opcode's own length, and no opcode is left without a class. *)
Theorem C01_root_class : forall ic : N,
  root_class ic = Some (length_class ic) /\ length_class ic < 6.
Proof. exact C01_root_lemma. Qed.
Print Assumptions C01_root_class.

(** C01.  What the decoder selects for an opcode depends only on the subtree of the opcode's
    length class: two trees that agree there select the same. *)
Theorem C01_own_length_only : forall (t t' : tree) (ic : N),
  t (length_class ic) = t' (length_class ic) ->
  tree_sel t ic = tree_sel t' ic.
Proof. exact C01_own_lemma. Qed.
Print Assumptions C01_own_length_only.
Example C01_own_length_ex :
  let t := upd_tab tree_new 0 (Special [] (Some ("c.x"%string, mkPay 0 M_Extract.X_C0 0))) in
  t (length_class 0x13) = tree_new (length_class 0x13) /\ t <> tree_new /\
  tree_sel t 0x4501 <> tree_sel tree_new 0x4501.
Proof.
  split; [reflexivity|]. split.
  - intro H. apply (f_equal (fun t => t 0)) in H. discriminate.
  - vm_compute. discriminate.
Qed.
