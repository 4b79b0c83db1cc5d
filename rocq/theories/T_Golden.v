(** Conformance checks, no claims: the model run on the inputs of the project's own regression test
    (/repo/test/basic/main.cpp) gives what the project expects there (golden.out, the asserts of
    main.cpp and the names in the .tset files). *)
From Coq Require Import NArith List Bool String.
From Verif Require Import M_Base M_Meta M_Extract M_Decoded M_Trie M_Builder M_Raw M_DTable M_Print G_Tables S_Golden G_Golden.
Import ListNotations.
Local Open Scope N_scope.
Local Open Scope string_scope.

(** main.cpp:161-164 (uid_init); no annotations. *)
Definition golden_decoder (incl excl : list pattern) (files : list (list raw)) : res (builder * tree) :=
  make_decoder [("nop", 1); ("cmov", 2)] [] 3 incl excl (map rec_of (List.concat files)).
(** The patterns "pf", "c.*" and "zic.*" of main.cpp:997-1056. *)
Definition re_pf : pattern := String.eqb "pf".
Definition re_c : pattern := String.prefix "c".
Definition re_zic : pattern := String.prefix "zic".

Definition base := golden_decoder [] [] files_BASE.
Definition new := golden_decoder [] [] files_NEW.
Definition t0 := golden_decoder [] [re_pf] files_T0.
Definition t1 := golden_decoder [] [re_c] files_T1.
Definition t2 := golden_decoder [re_c] [] files_T2.
Definition t3 := golden_decoder [re_zic] [re_c] files_T2.
Definition rv32g := golden_decoder [] [] files_RV32.
Definition zclsd := golden_decoder [] [] files_ZCLSD.

(** The seven printed decode trees, 3963 lines. *)
Example golden_trees :
  map (fun p => same_tree (fst p) (snd p))
    [(base, tree_BASE); (new, tree_NEW); (t0, tree_T0); (t1, tree_T1); (t2, tree_T2); (rv32g, tree_RV32);
     (zclsd, tree_ZCLSD)]
  = [true; true; true; true; true; true; true].
Proof. vm_compute. reflexivity. Qed.
(** Every disassembled opcode. *)
Example golden_dasm :
  (failing dasm_is base dasm_BASE, failing dasm_is new dasm_NEW, failing dasm_is t0 dasm_T0,
   failing dasm_is t1 dasm_T1, failing dasm_is rv32g dasm_RV32, failing dasm_is zclsd dasm_ZCLSD)
  = ([], [], [], [], [], []).
Proof. vm_compute. reflexivity. Qed.
(** Everything printed or asserted about a decoded opcode. *)
Example golden_obs :
  (failing observed base obs_BASE, failing observed new obs_NEW, failing observed t0 obs_T0,
   failing observed t1 obs_T1, failing observed rv32g obs_RV32, failing observed zclsd obs_ZCLSD)
  = ([], [], [], [], [], []).
Proof. vm_compute. reflexivity. Qed.
(** The opcodes that main.cpp expects to be refused (lines 203, 1044, 1107, 1121, 1181, 1195), and the
    table that it expects to be refused (1051). *)
Definition refused (d : res (builder * tree)) (ic : N) : option exn :=
  match d with
  | Ok s => match pure_info (fst s) (snd s) ic with Throw e => Some e | _ => None end
  | _ => None
  end.
Example golden_refused :
  (refused base 0, refused t2 0x6013, refused rv32g 0x3f83, refused rv32g 0x503023, refused zclsd 0x6082,
   refused zclsd 0xe004)
  = (Some EIllegalOpcode, Some EUnknownOpcode, Some EIllegalOpcode, Some EIllegalOpcode, Some EIllegalOpcode,
     Some EIllegalOpcode).
Proof. vm_compute. reflexivity. Qed.
Example golden_table_refused :
  match t3 with Throw e => Some e | _ => None end = Some EBuildErrorOverlayBaseNotFound.
Proof. vm_compute. reflexivity. Qed.
(** The names of the .tset files, which the test opens in its working directory; test/basic/CMakeLists.txt
    does not put them there, so golden.out has no line about them.  The entries that do not decode
    to the name given: the overlay of ori, reserved encodings, and the q extension, which NEW lacks. *)
Definition misses (d : res (builder * tree)) (l : list (string * N)) : list (string * option string) :=
  flat_map (fun e => match name_of d (snd e) with
                     | Some n => if String.eqb n (fst e) then [] else [(fst e, Some n)]
                     | None => [(fst e, None)]
                     end) l.
Example tset_names :
  misses base tset_rv64 =
    [("ori", Some "prefetch.i"); ("c.addi4spn", None); ("c.addi16sp", None); ("c.jr", None); ("c.addiw", None);
     ("c.lui", None); ("c.lwsp", None); ("c.ldsp", None)] /\
  misses base tset_rv64h = [] /\ misses base tset_rv64_bf16 = [] /\ misses new tset_rv64_bits = [].
Proof. vm_compute. repeat split. Qed.
(** main.cpp:425. *)
Example golden_opcode : match base with Ok s => get_opcode s "jalr" | _ => UB end = Ok 0x67.
Proof. vm_compute. reflexivity. Qed.
