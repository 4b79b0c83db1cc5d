(** A compressed instruction whose expansion shares a factory (C60). *)
From Coq Require Import NArith List Bool String.
From Verif Require Import M_Base M_Meta M_Decoded M_Builder M_DTable S_Trie S_Table S_Shipped S_Founder S_FounderC L_Check L_Claims L_Founder L_FounderC L_FounderCases.
Import ListNotations.
Local Open Scope string_scope.
Local Open Scope N_scope.

(** addi and lw share the factory "unit"; c.lw expands to lw. *)
Definition shared_c : list irec := (shared ++ map M_Raw.rec_of (pick ["c.lw"] raw_rv64))%list.
Definition clw_rec : irec := nth 2 shared_c (over "" "" 0 0).
Lemma shared_c_is : shared_c = [addi_rec; lw_rec; clw_rec].
Proof. reflexivity. Qed.
Lemma shared_c_ok : separated (encodings (kept [] [] shared_c)) /\ alone (kept [] [] shared_c) "unit" /\ founder (kept [] [] shared_c) "unit" addi_rec /\
  own_name (kept [] [] shared_c) "lw" /\ In lw_rec (kept [] [] shared_c) /\ In clw_rec (kept [] [] shared_c).
Proof.
  rewrite kept_all. split; [apply separatedb_ok; vm_compute; reflexivity|]. split; [apply aloneb_ok; vm_compute; reflexivity|].
  rewrite shared_c_is. split; [exists [], [lw_rec; clw_rec]; split; [reflexivity|]; split; [exists "addi"; repeat split|intros r []]|].
  split; [|cbn [In]; auto]. split; [intros [H|H]; discriminate H|]. intros r [<-|[<-|[<-|[]]]] H; try discriminate H; reflexivity.
Qed.
Lemma no_overlays_c mn base mask ic : ~ overlay_hit (kept [] [] shared_c) mn base mask ic.
Proof. rewrite kept_all, shared_c_is. intros (r & [<-|[<-|[<-|[]]]] & _ & jo & E & _); discriminate E. Qed.
Lemma shared_c_case : exists s v, make_decoder [] [] 1 [] [] shared_c = Ok s /\ decode (A := unit) (U := unit) s 0x4000 = Ok v /\
  d_mnemonic (i_di v) = "c.lw" /\ [mt_types (i_meta v); mt_data (i_meta v)] = [N.lor IT_INT IT_ARITH; 0] /\ get_opcode s "lw" = Ok 0x13.
Proof. refine (look_ok shared_c 0x4000 "lw" ("c.lw", [N.lor IT_INT IT_ARITH; 0], Ok 0x13) _). vm_compute. reflexivity. Qed.
