(** Specification: which opcodes have an acquire bit, a rounding mode, a mask bit and so on, and
    where, by the opcode maps of the RISC-V manuals (C66).  Patterns as in [S_Manual]. *)
From Coq Require Import NArith List Bool String.
From Verif Require Import M_Base M_Extract S_Bits S_Manual S_Classes.
Import ListNotations.
Local Open Scope N_scope.
Local Open Scope string_scope.

(** A special field: its lowest bit and its length; patterns of the opcodes that have it, and of
    those among them that do not because the manual fixes its bits; patterns of the opcodes for
    which mavis reports it although the manual has none. *)
Record sfield := mkSf { sf_id : sfid; sf_lo : N; sf_len : N; sf_pats : list string; sf_fixed : list string; sf_extra : list string }.
Definition has_field (f : sfield) (ic : N) : Prop :=
  (exists p, In p (sf_pats f) /\ fits p ic) /\ ~ exists p, In p (sf_fixed f) /\ fits p ic.
Definition extra_field (f : sfield) (ic : N) : Prop := exists p, In p (sf_extra f) /\ fits p ic.

Definition amo : string := "....... ..... ..... ... ..... 0101111".
Definition fence : string := "....... ..... ..... 000 ..... 0001111".
Definition fp5 (f5 : string) : string := opfp (f5 ++ "..") any5 "...".
(* the major opcode OP-V but for vsetvli, vsetivli, vsetvl *)
Definition op_v : list string := ["....... ..... ..... 0.. ..... 1010111"; "....... ..... ..... 10. ..... 1010111"; "....... ..... ..... 110 ..... 1010111"].
(* vl<n>re<w>, vs<n>r; vlm, vsm *)
Definition whole_regs : list string := vmem "... . 00 . " "01000 ..... ".
Definition mask_regs : list string := vmem "... . 00 . " "01011 ..... ".
(* vmadc and vmsbc; mask logical instructions *)
Definition carries : list string := [opv "0100.1" any5 "000"; opv "0100.1" any5 "100"; opv "010001" any5 "011"].
Definition mask_logic : list string := [opv "011..." any5 "010"].

Definition special_fields : list sfield := [
  mkSf SF_AQ 26 1 [amo] [] [];
  mkSf SF_RL 25 1 [amo] [] [];
  (* uimm of vsetivli *)
  mkSf SF_AVL 15 5 ["11..... ..... ..... 111 ..... 1010111"] [] [];
  mkSf SF_CSR 20 12 ["....... ..... ..... .01 ..... 1110011"; "....... ..... ..... .1. ..... 1110011"] [] [];
  mkSf SF_FM 28 4 [fence] [] [];
  mkSf SF_PRED 24 4 [fence] [] [];
  mkSf SF_SUCC 20 4 [fence] [] [];
  mkSf SF_NF 29 3 (vmop "..") (whole_regs ++ mask_regs) [];
  (* fadd fsub fmul fdiv, fsqrt, conversions and fround; multiply-adds; fcvtmod.w.d rounds towards zero.
     Also reported: fsgnj, fmin and fmax, comparisons, fmv, fclass, fli *)
  mkSf SF_RM 12 3 (map fp5 ["000.."; "01011"; "01000"; "110.0"] ++ ["....... ..... ..... ... ..... 100..11"])
    [opfp "1100001" "01000" "..."]
    (map fp5 ["0010."; "10100"; "10110"; "111.0"] ++ [opfp "1100001" "01000" "..."]);
  (* fixed: vadc vmadc vsbc vmsbc, vmerge and vmv.v, vmv<n>r, vmv.x.s vmv.s.x vfmv.f.s vfmv.s.f, vcompress *)
  mkSf SF_VM 25 1 (op_v ++ vmop "..")
    (whole_regs ++ mask_regs ++ carries ++ mask_logic ++
     [opv "0100.0" any5 "000"; opv "0100.0" any5 "100"; opv "010000" any5 "011"; opv "010111" any5 "000"; opv "010111" any5 ".11"; opv "010111" any5 "10.";
      opv "010111" any5 "010"; opv "100111" any5 "011"; opv "010000" "00000" "010"; opv "010000" any5 "110"; opv "010000" "00000" "001"; opv "010000" any5 "101"])
    (amo :: carries ++ mask_logic);
  (* vector atomics, prefetches: none *)
  mkSf SF_WD 26 1 [] [] [amo];
  mkSf SF_HINT 24 4 [] [] [fence]]%list.
