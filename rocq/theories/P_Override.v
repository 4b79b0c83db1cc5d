(** Claim C53: annotation overrides given as text.  [load_files json ovs fs []] is the
    construction of the annotation registry from overrides (mnemonic, "name:value") and named
    files; [json] is the parser of the JSON library; the specification is S_Override. *)
From Coq Require Import Ascii List Bool String.
From Verif Require Import M_Base M_Registry M_Builder M_Override.
From Verif Require Import S_Table S_Anno S_Override L_Override.
Import ListNotations.
Local Open Scope string_scope.

(** C53.  A text says at most one thing, white space aside. *)
Theorem C53_unique : forall p mn a v mn' a' v', says p mn a v -> says p mn' a' v' -> mn = mn' /\ a = a' /\ v = v'.
Proof. exact says_unique. Qed.
Print Assumptions C53_unique.
Example C53_unique_ex : says ("andn ", "pipelined : {""a"":1}") "andn" "pipelined" "{""a"":1}".
Proof. exact says_case. Qed.
(** C53.  When the annotations have been made from at least one named file, every override was
    of the form name:value with a JSON value, and an attribute has the value of the last
    override that names it, or else of the last record in the files. *)
Theorem C53_attributes : forall json ovs fs files reg, contents fs = Some files -> files <> [] -> load_files json ovs fs [] = Made reg ->
  exists ts, Forall2 (means json) ovs ts /\ forall mn,
  match mfind reg mn with
  | None => ~ in_files files mn
  | Some x => in_files files mn /\ forall a, anno_attr a x = match override ts mn a with Some v => Some v | None => filed files mn a end
  end.
Proof. exact override_text_lemma. Qed.
Print Assumptions C53_attributes.
(** C53.  They are made exactly if every override can be used and no file repeats a mnemonic. *)
Theorem C53_accepted : forall json ovs fs files, contents fs = Some files -> files <> [] ->
  ((exists reg, load_files json ovs fs [] = Made reg) <-> Forall (usable json) ovs /\ ~ repeats files).
Proof. exact accepted_lemma. Qed.
Print Assumptions C53_accepted.
Example C53_accepted_ex : exists reg x, contents some_files = Some [[("andn", [("pipelined", "true")])]] /\
  load_files Some some_texts some_files [] = Made reg /\
  mfind reg "andn" = Some x /\ anno_attr "pipelined" x = Some "false" /\ anno_attr "unit" x = Some "[1:2]".
Proof. exact loads_case. Qed.
(** C53.  A file that cannot be opened or is not JSON is never passed over. *)
Theorem C53_unreadable : forall json ovs fs reg, contents fs = None -> load_files json ovs fs [] <> Made reg.
Proof. intros json ovs fs reg. exact (unread_lemma json ovs fs [] reg). Qed.
Print Assumptions C53_unreadable.
Example C53_unreadable_ex : contents [("a.json", Holds []); ("b.json", NotJson)] = None.
Proof. reflexivity. Qed.
(** C53.  The first override that is not name:value ends the process (std::terminate) rather
    than throwing an exception. *)
Theorem C53_malformed : forall json pre p rest fs files, contents fs = Some files -> files <> [] ->
  Forall (usable json) pre -> (forall mn a v, ~ says p mn a v) -> load_files json (pre ++ p :: rest)%list fs [] = Stopped.
Proof. exact malformed_lemma. Qed.
Print Assumptions C53_malformed.
Example C53_malformed_ex : forall mn a v, ~ says ("andn", "pipelined=false") mn a v.
Proof. exact malformed_case. Qed.
(** C53 without files is false: an override that is not name:value is accepted. *)
Theorem C53_no_file_refuted : exists p, (forall mn a v, ~ says p mn a v) /\
  forall json, load_files json [p] [] [] = Made [] /\ load_files json [p] [("", NoFile)] [] = Made [].
Proof. exact no_file_lemma. Qed.
Print Assumptions C53_no_file_refuted.
