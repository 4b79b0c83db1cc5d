(** Specification: HINT encodings. *)
From Coq Require Import NArith List Bool String.
From Verif Require Import M_Extract S_Bits S_Reserved S_Manual.
Import ListNotations.
Local Open Scope N_scope.

(** What isHint says, format by format: rd is x0, or the immediate is 0. *)
Definition hint_when (c : xcls) (ffm ic : N) : bool :=
  match c with
  | X_CI_rD_only | X_CI_rD_shifted | X_C2_add | X_C2_mv => is_x0 7 ffm ic
  | X_CI_addi | X_CIX => no_ci_imm ic
  | X_C2_slli => is_x0 7 ffm ic || no_ci_imm ic
  | _ => false
  end.

(** The HINTs of the C extension (unprivileged ISA, "HINT instructions" of that chapter): the
    opcodes of the pattern but not of those after it. *)
Local Open Scope string_scope.
Definition hints : list (string * list string) := [
  ("000 . 00000 ..... 01", ["000 0 00000 00000 01"]);   (* c.nop with an immediate *)
  ("000 0 ..... 00000 01", ["000 . 00000 ..... 01"]);   (* c.addi rd, 0 *)
  ("010 . 00000 ..... 01", []);                         (* c.li x0, imm *)
  ("011 . 00000 ..... 01", []);                         (* c.lui x0, imm (imm = 0 is reserved, never decoded) *)
  ("100 0 00... 00000 01", []);                         (* c.srli by 0 (c.srli64) *)
  ("100 0 01... 00000 01", []);                         (* c.srai by 0 (c.srai64) *)
  ("000 . 00000 ..... 10", []);                         (* c.slli x0 *)
  ("000 0 ..... 00000 10", []);                         (* c.slli by 0 (c.slli64) *)
  ("100 0 00000 ..... 10", ["100 0 00000 00000 10"]);   (* c.mv x0, rs2; rs2 = x0 is c.jr x0, reserved *)
  ("100 1 00000 ..... 10", ["100 1 00000 00000 10"])].  (* c.add x0, rs2 (some are c.ntl); rs2 = x0 is c.ebreak *)
(** Those of RV64I and RV32I that write x0 (same manual, chapter "RV32I", "HINT instructions";
    not all of them). *)
Definition wide_hints : list (string * list string) := [
  ("....... ..... ..... ... 00000 0110111", []);                                              (* lui *)
  ("....... ..... ..... ... 00000 0010111", []);                                              (* auipc *)
  ("....... ..... ..... 000 00000 0010011", ["0000000 00000 00000 000 00000 0010011"]);       (* addi, not nop *)
  ("....... ..... ..... 100 00000 0010011", []);                                              (* xori *)
  ("....... ..... ..... 110 00000 0010011", []);                                              (* ori *)
  ("....... ..... ..... 111 00000 0010011", []);                                              (* andi *)
  ("0.00000 ..... ..... 000 00000 0110011", [])].                                             (* add, sub *)
Local Close Scope string_scope.
Definition hint_of (H : list (string * list string)) (ic : N) : Prop :=
  exists p ex, In (p, ex) H /\ fits p ic /\ forall q, In q ex -> ~ fits q ic.

(** The names for which isHint is wrong. *)
Definition odd_hints : list string := ["c.nop"; "c.ntl.p1"; "c.ntl.pall"; "c.ntl.s1"; "c.ntl.all"]%string.
