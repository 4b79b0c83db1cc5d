(** Specification: the precision of floating-point operands and the width of integer ones, by the
    opcode maps of the RISC-V manuals (C64).  Patterns as in [S_Manual]. *)
From Coq Require Import NArith List Bool String.
From Verif Require Import M_Base M_Meta M_OperandInfo M_Extract M_Decoded S_Bits S_Slots S_Manual S_Classes.
Import ListNotations.
Local Open Scope N_scope.
Local Open Scope string_scope.

Inductive port := Dest | Source.

(** The field fmt of OP-FP and of the multiply-adds: 00 is single, 01 double, 10 half, 11 quad.
    mavis has no half precision: the tables have single in its place. *)
Definition fmts (k : kind) : list string :=
  match k with KSingle => ["00"; "10"] | KDouble => ["01"] | KQuad => ["11"] | _ => [] end.
(** Five bits other than 01000, the funct5 of a conversion between formats (and of fround, froundnx). *)
Definition not_fcvt : list string := ["1...."; "00..."; "011.."; "0101."; "01001"].
(** In a conversion between formats rs2 is the format read; 6 is bfloat16.  4 and 5 are fround and
    froundnx, 8 is fcvt.bf16.s. *)
Definition fcvt_from (k : kind) : list string :=
  match k with KSingle => ["00000"; "00010"; "00110"; "01000"] | KDouble => ["00001"] | KQuad => ["00011"] | _ => [] end.
Definition widths (k : kind) : list string :=
  match k with KSingle => ["001"; "010"] | KDouble => ["011"] | KQuad => ["100"] | _ => [] end.
Definition madds (k : kind) : list string := map (fun f => "....." ++ f ++ " ..... ..... ... ..... 100..11") (fmts k).
(** Six bits other than 111011, the funct6 of vfwmaccbf16. *)
Definition not_wmaccbf16 : list string := ["0....."; "10...."; "110..."; "1111.."; "11100."; "111010"].

Definition fp_op (f5 f rs2 : string) : string := opfp (f5 ++ f) rs2 "...".
Definition fp_mem (op w : string) : string := "....... ..... ..... " ++ w ++ " ..... " ++ op.

Definition float_dests (m : mode) (k : kind) : list string :=
  (map (fun f => fp_op "....." f any5) (fmts k) ++ madds k ++
   map (fp_mem "0000111") (widths k) ++
   match k with
   (* c.flw c.flwsp *)
   | KSingle => some (is32f m) ["011 ... ... .. ... 00"; "011 . ..... ..... 10"]
   (* c.fld c.fldsp; vfmv.f.s *)
   | KDouble => ["001 ... ... .. ... 00"; "001 . ..... ..... 10"; opv "010000" "00000" "001"]
   | _ => []
   end)%list.
Definition float_sources (m : mode) (k : kind) : list string :=
  (flat_map (fun f => map (fun n => fp_op n f any5) not_fcvt) (fmts k) ++
   map (fp_op "01000" "..") (fcvt_from k) ++
   map (fun f => fp_op "01000" f "0010.") (fmts k) ++ madds k ++
   map (fp_mem "0100111") (widths k) ++
   match k with
   (* c.fsw c.fswsp; vfwmaccbf16.vf *)
   | KSingle => (some (is32f m) ["111 ... ... .. ... 00"; "111 . ..... ..... 10"] ++ [opv "111011" any5 "101"])%list
   (* c.fsd c.fsdsp; every other OPFVF *)
   | KDouble => (["101 ... ... .. ... 00"; "101 . ..... ..... 10"] ++ map (fun f => opv f any5 "101") not_wmaccbf16)%list
   | _ => []
   end)%list.
(** Integers of 32 bits: what fcvt.w and fcvt.wu write, and what feq, flt and fle write; what a
    conversion from w and wu reads. *)
Definition word_dests : list string := [opfp "11000.." "0000." "..."; opfp "10100.." any5 "..."].
Definition word_sources : list string := [opfp "11010.." "0000." "..."].

(** An opcode [ic] has operands of kind [k] on that side, if it has any of that bank. *)
Definition some_fits (l : list string) (ic : N) : Prop := exists p, In p l /\ fits p ic.
Definition operates (m : mode) (q : port) (k : kind) (ic : N) : Prop :=
  match k with
  | KWord => some_fits (match q with Dest => word_dests | Source => word_sources end) ic
  | KLong => ~ some_fits (match q with Dest => word_dests | Source => word_sources end) ic
  | KVector => True
  | _ => some_fits (match q with Dest => float_dests m k | Source => float_sources m k end) ic
  end.

(** Both sides of a decoded instruction. *)
Definition operands_at (q : port) (d : dinfo) : list elem :=
  oi_elems (match q with Dest => d_dst_oi d | Source => d_src_oi d end).
(** Instructions with a register of no type: the records of the first two have no operand clause,
    that of the third leaves rs2 out. *)
Definition untyped (m : mode) : list string :=
  (["cdiscard.d.l1"; "cflush.i.l1"] ++ some (negb (is32 m)) ["fmvp.q.x"])%list.

(** *** Typed register masks (C65) *)
Definition typed_at (q : port) (d : dinfo) (k : kind) : N := match q with Dest => d_dstT d k | Source => d_srcT d k end.
(** The masks by type, read as sets, are the registers of the operands of that type. *)
Definition masks_exact (q : port) (d : dinfo) : Prop :=
  forall k r, N.testbit (typed_at q d k) r = true <-> exists e, In e (operands_at q d) /\ e_type e = Some k /\ e_val e = r.
(** Typed as word and as long at once. *)
Definition twice_typed : list string := ["addiw"; "c.addiw"].
(** A store of the pair that starts at x0 (RV32). *)
Definition zero_pair (m : mode) (n : string) (ic : N) : Prop :=
  is32 m = true /\ (n = "sd" /\ slice 20 5 ic = 0 \/ n = "c.sdsp" /\ slice 2 5 ic = 0).
(** The two accounts that the meta-data keeps of types, sets of fields and types of fields, agree
    on the operands. *)
Definition typed_once (q : port) (c : xcls) (ffm : N) (m : meta) : Prop :=
  forall s k, In s (live ffm (match q with Dest => dst_slots c | Source => src_slots c end)) ->
    (slot_is m k s = true <-> slot_otype m s = Some k).
(** Formats that do not look at the type of each register they report. *)
Definition coarse (q : port) : list xcls :=
  match q with
  | Dest => [X_CJ; X_CJR; X_CJAL; X_CJALR; X_U; X_C0_store; X_C0_store_byte; X_C0_store_half; X_C0_store_word; X_C0_store_double;
             X_C0_store_word_pair; X_I_load_pair; X_C0_load_word_pair; X_C2_sp_load_word_pair]
  | Source => [X_CI_rD_only; X_S_pair; X_C0_store_word_pair; X_C2_sp_store_word_pair; X_C2_add; X_C2_sp; X_C2_sp_load; X_C2_sp_load_word;
               X_C2_sp_load_double; X_C2_sp_load_word_pair; X_C2_sp_load_float_single; X_C2_sp_load_float_double]
  end.
