(** Specification: where the RISC-V formats have their fields. *)
From Coq Require Import NArith List Bool String.
From Verif Require Import M_Base M_Field M_Forms.
Import ListNotations.
Local Open Scope N_scope.

(** The unprivileged manual's names for the bits of a 32-bit instruction: lowest bit and length. *)
Definition manual_places : list (string * (N * N)) :=
  [("opcode", (0, 7)); ("rd", (7, 5)); ("func3", (12, 3)); ("rm", (12, 3)); ("width", (12, 3)); ("rs1", (15, 5)); ("uimm", (15, 5));
   ("rs2", (20, 5)); ("func7", (25, 7)); ("csr", (20, 12)); ("imm", (20, 12)); ("imm20", (12, 20)); ("imm7", (25, 7)); ("imm5", (7, 5));
   ("shamt", (20, 6)); ("shamtw", (20, 5)); ("aq", (26, 1)); ("rl", (25, 1)); ("vm", (25, 1)); ("nf", (29, 3));
   ("fm", (28, 4)); ("pred", (24, 4)); ("succ", (20, 4))]%string.
(** The form has 32 or 16 bits. *)
Definition form_bits (fm : form) : N := if existsb (fun f => (f_rpos f =? 0) && (f_len f =? 7)) (fm_fields fm) then 32 else 16.
