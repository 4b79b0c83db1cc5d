(** Model of the text of annotation overrides and of reading annotation files
    (mavis/AnnotationRegistry.hpp:18-111). *)
From Coq Require Import Ascii List Bool String.
From Verif Require Import M_Base M_Registry M_Builder.
Import ListNotations.
Local Open Scope string_scope.

(** std::isspace in the "C" locale: space, \t \n \v \f \r. *)
Definition isspace (c : ascii) : bool :=
  existsb (Ascii.eqb c) [" "; "009"; "010"; "011"; "012"; "013"]%char.
(** AnnotationRegistry.hpp:20-22: erase from the front up to the first non-space. *)
Fixpoint ltrim (s : string) : string :=
  match s with String c r => if isspace c then ltrim r else s | "" => "" end.
(** AnnotationRegistry.hpp:23-25: erase what follows the last non-space. *)
Fixpoint rtrim (s : string) : string :=
  match s with
  | "" => ""
  | String c r => match rtrim r with "" => if isspace c then "" else String c "" | t => String c t end
  end.
(** AnnotationRegistry.hpp:19-27, string_ws_trim. *)
Definition ws_trim (s : string) : string := rtrim (ltrim s).
(** find(':') with substr(0, pos) and substr(pos + 1) (AnnotationRegistry.hpp:67,72-73); [None] is
    npos. *)
Fixpoint split_colon (s : string) : option (string * string) :=
  match s with
  | "" => None
  | String c r =>
      if Ascii.eqb c ":" then Some ("", r)
      else match split_colon r with Some (a, b) => Some (String c a, b) | None => None end
  end.

(** How the constructor ends.  [Stopped]: a [throw] with no exception in flight, that is
    std::terminate (AnnotationRegistry.hpp:70,77). *)
Inductive made (T : Type) : Type :=
| Made (v : T)
| BadFile                  (* BadAnnotationFile, :50 *)
| ParseError               (* an exception of the JSON library, :55-59 and :79 *)
| Raised (e : exn)         (* what [anno_file] throws *)
| Stopped.
Arguments Made {T} v.
Arguments BadFile {T}.
Arguments ParseError {T}.
Arguments Raised {T} e.
Arguments Stopped {T}.
Definition mbind {A B} (m : made A) (f : A -> made B) : made B :=
  match m with Made v => f v | BadFile => BadFile | ParseError => ParseError | Raised e => Raised e | Stopped => Stopped end.

Section Load.
(** nlohmann::json::parse: the value of a text, [None] if it throws. *)
Context (json : string -> option string).

(** AnnotationRegistry.hpp:63-80: one override. *)
Definition read_override (p : string * string) : made (string * string * string) :=
  let mnemonic := ws_trim (fst p) in
  let attribute := ws_trim (snd p) in
  match split_colon attribute with
  | None => Stopped
  | Some (n, v) =>
      let n := ws_trim n in
      let v := ws_trim v in
      if (String.eqb n "" || String.eqb v "")%bool then Stopped
      else match json v with None => ParseError | Some j => Made (mnemonic, n, j) end
  end.
(** AnnotationRegistry.hpp:64: the loop over the overrides. *)
Fixpoint read_overrides (l : list (string * string)) : made (list (string * string * string)) :=
  match l with
  | [] => Made []
  | p :: r => mbind (read_override p) (fun t => mbind (read_overrides r) (fun ts => Made (t :: ts)))
  end.
(** What is on disk under a name: nothing that opens, something that is not JSON, or records. *)
Inductive disk : Type := NoFile | NotJson | Holds (recs : list (string * arec)).
(** AnnotationRegistry.hpp:40-107: one file name. *)
Definition load_file (ovs : list (string * string)) (f : string * disk) (reg : list (string * anno)) : made (list (string * anno)) :=
  if String.eqb (fst f) "" then Made reg
  else match snd f with
  | NoFile => BadFile
  | NotJson => ParseError
  | Holds recs =>
      mbind (read_overrides ovs) (fun ts =>
      match anno_file ts [] recs reg with Ok r => Made r | Throw e => Raised e | AssertFail | UB => Stopped end)
  end.
(** AnnotationRegistry.hpp:34-111, the constructor.  The annotation object of a mnemonic is the list
    of records it was allocated and updated with. *)
Fixpoint load_files (ovs : list (string * string)) (fs : list (string * disk)) (reg : list (string * anno)) : made (list (string * anno)) :=
  match fs with
  | [] => Made reg
  | f :: r => mbind (load_file ovs f reg) (load_files ovs r)
  end.
End Load.
