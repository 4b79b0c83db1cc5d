(** Specification: how a person reads a line of disassembly, and what each
    instruction format shows in it (C50). *)
From Coq Require Import NArith ZArith List Bool String Ascii.
From Verif Require Import M_Forms M_Meta M_OperandInfo M_Extract M_Decoded M_Direct S_Bits S_Slots S_Pairs S_Regs S_Direct.
Import ListNotations.
Local Open Scope N_scope.

(** ** Words and numbers *)

(** A line is a sequence of words separated by tabs, blanks and commas. *)
Definition is_sep (a : ascii) : bool :=
  Ascii.eqb a (ascii_of_nat 9) || Ascii.eqb a " " || Ascii.eqb a ",".
Fixpoint cut (s : string) : string * list string :=
  match s with
  | EmptyString => (EmptyString, [])
  | String a r =>
      let (w, ws) := cut r in
      if is_sep a then (EmptyString, match w with EmptyString => ws | _ => w :: ws end)
      else (String a w, ws)
  end.
Definition words (s : string) : list string :=
  let (w, ws) := cut s in match w with EmptyString => ws | _ => w :: ws end.
(** A word that can stand in a line. *)
Fixpoint no_sep (s : string) : bool :=
  match s with EmptyString => true | String a r => negb (is_sep a) && no_sep r end.
Definition plain (s : string) : Prop := s <> EmptyString /\ no_sep s = true.

(** Numerals in base [base] (ten or sixteen). *)
Definition digit (a : ascii) : option N :=
  let n := N_of_ascii a in
  if (48 <=? n) && (n <=? 57) then Some (n - 48)
  else if (97 <=? n) && (n <=? 102) then Some (n - 87) else None.
Fixpoint numeral_from (base acc : N) (s : string) : option N :=
  match s with
  | EmptyString => Some acc
  | String a r =>
      match digit a with
      | Some d => if d <? base then numeral_from base (base * acc + d) r else None
      | None => None
      end
  end.
Definition numeral (base : N) (s : string) : option N :=
  match s with EmptyString => None | _ => numeral_from base 0 s end.

(** ** Registers *)

(** The register file of an operand type; an operand without a type has none. *)
Inductive regfile := XFile | FFile | VFile.
Definition file_of (k : option kind) : option regfile :=
  match k with
  | Some KWord | Some KLong => Some XFile
  | Some KSingle | Some KDouble | Some KQuad => Some FFile
  | Some KVector => Some VFile
  | None => None
  end.
(** Register [n] of the file is written x5, f5 or v5; SP is x2; a bare number has no file. *)
Definition reads (w : string) : option (option regfile * N) :=
  if String.eqb w "SP" then Some (Some XFile, 2)
  else match w with
       | String a r =>
           if Ascii.eqb a "x" then option_map (pair (Some XFile)) (numeral 10 r)
           else if Ascii.eqb a "f" then option_map (pair (Some FFile)) (numeral 10 r)
           else if Ascii.eqb a "v" then option_map (pair (Some VFile)) (numeral 10 r)
           else option_map (pair None) (numeral 10 w)
       | EmptyString => None
       end.

(** ** What a word says *)
Inductive item :=
| Operand (e : elem)               (* names the register of a reported operand *)
| Dec (label : string) (n : N)     (* the label followed by n in decimal *)
| Hex (label : string) (n : N)     (* the label followed by n in hexadecimal *)
| Signed (z : Z)                   (* a decimal number with a sign if negative *)
| Marked (n : N) (mark : string)   (* n in decimal followed by the mark *)
| Lit (w : string).                (* exactly this word *)
Definition says (w : string) (i : item) : Prop :=
  match i with
  | Operand e => reads w = Some (file_of (e_type e), e_val e)
  | Dec l n => exists d, w = String.append l d /\ numeral 10 d = Some n
  | Hex l n => exists d, w = String.append l d /\ numeral 16 d = Some n
  | Signed z => if (z <? 0)%Z then exists d, w = String "-" d /\ numeral 10 d = Some (Z.to_N (- z))
                else numeral 10 w = Some (Z.to_N z)
  | Marked n mark => exists d, w = String.append d mark /\ numeral 10 d = Some n
  | Lit v => w = v
  end.

(** ** What each format shows *)

(** The operand fields shown, in the order of assembly language: destination first,
    except that stores begin with the data; the vector formats V_op have the second
    source before the first. *)
Definition arguments (c : xcls) : list fid :=
  match c with
  | X_NTL_hint => []
  | X_AMO | X_CA | X_R | X_Rfloat | X_V | X_V_implied | X_VF_mem | X_V_load | X_V_vsetvl | X_C2_add =>
      [RD; RS1; RS2]
  | X_R4 => [RD; RS1; RS2; RS3]
  | X_V_op | X_V_op_implied => [RD; RS2; RS1]
  | X_B | X_CB => [RS1; RS2]
  | X_PF_hint => [RS1]
  | X_S | X_S_pair | X_HV_store | X_C2_sp_store | X_C2_sp_store_word | X_C2_sp_store_double
  | X_C2_sp_store_word_pair | X_C0_store | X_C0_store_byte | X_C0_store_half | X_C0_store_word
  | X_C0_store_double | X_C0_store_word_pair => [RS2; RS1]
  | X_V_store => [RS3; RS1; RS2]
  | X_C2 | X_C2_mv | X_V_uimm6 | X_V_uimm | X_V_uimm_implied | X_V_simm => [RD; RS2]
  | X_CIX | X_CIX_andi | X_CIW | X_CJ | X_CJAL | X_CSRI | X_J | X_U | X_CI_rD_shifted
  | X_V_vsetivli => [RD]
  | _ => [RD; RS1]
  end.
(** The operands the decoder reports for those fields (RD among the destinations, the
    others among the sources).  A field that the instruction fixes is not reported. *)
Definition reported (f : fid) (l : list elem) : list elem :=
  filter (fun e => match e_fid e with Some g => fid_eqb f g | None => false end) l.
Definition shown (c : xcls) (d : dinfo) : list elem :=
  flat_map (fun f => reported f (if fid_eqb f RD then oi_elems (d_dst_oi d) else oi_elems (d_src_oi d)))
           (arguments c).

(** The further words of the line; [i] is getImmediate, [o] getSignedOffset.  An offset is
    written in hexadecimal modulo 2^64. *)
Definition offset_word (o : Z) : item := Hex "+0x" (Z.to_N (o mod 2 ^ 64)).
Definition mask_word (ffm ic : N) : list item :=
  if (slice 25 1 ffm =? 0) && (slice 25 1 ic =? 0) then [Lit "v0.t"] else [].
Definition vtype_words (i : N) : list item :=
  [Dec "e" (8 * 2 ^ slice 3 3 i);
   if slice 0 3 i <? 4 then Dec "m" (2 ^ slice 0 3 i) else Dec "mf" (2 ^ (8 - slice 0 3 i));
   Lit (if slice 6 1 i =? 0 then "tu" else "ta");
   Lit (if slice 7 1 i =? 0 then "mu" else "ma")].
Definition further (c : xcls) (ffm ic i : N) (o : Z) : list item :=
  match c with
  | X_AMO => [Dec "aq/wd=" (slice 26 1 ic); Dec "rl/vm=" (slice 25 1 ic)]
  | X_B | X_CB | X_CI | X_CI_addi | X_CI_addiw | X_CI_sp | X_CI_rD_only | X_CI_rD_shifted | X_CJ
  | X_CJAL | X_I | X_I_mv | X_I_load | X_I_load_pair | X_J | X_S | X_S_pair | X_U | X_PF_hint =>
      [offset_word o]
  | X_C0 | X_C2 | X_CA | X_CJR | X_R | X_V_vsetvl | X_C1_rsd | X_C1_rsd_I0 | X_C1_rsd_zext_I0
  | X_C1_rsd_Ineg1 | X_C1_rsd_I0xFF | X_C2_add | X_C2_mv | X_HV_load | X_HV_store | X_NTL_hint => []
  | X_CIW => [Dec "IMM=" (slice 5 8 ic)]
  | X_CSR => [Hex "CSR=0x" (slice 20 12 ic)]
  | X_CSRI => [Dec "IMM=" i; Hex "CSR=0x" (slice 20 12 ic)]
  | X_FENCE => [Hex "fm=0x" (slice 28 4 ic); Hex "pred=0x" (slice 24 4 ic); Hex "succ=0x" (slice 20 4 ic)]
  | X_ISH => if slice 20 6 ffm =? 0 then [Dec "SHAMT=" i] else []
  | X_ISHW => [Dec "SHAMTW=" i]
  | X_Rfloat | X_R4 => if slice 12 3 ffm =? 0 then [Dec "RM=" (slice 12 3 ic)] else []
  | X_V | X_V_implied | X_V_op | X_V_op_implied | X_VF_mem | X_V_load | X_V_store => mask_word ffm ic
  | X_V_vsetvli => vtype_words i
  | X_V_vsetivli => Dec "avl=" (slice 15 5 ic) :: vtype_words i
  | X_V_uimm6 | X_V_uimm | X_V_uimm_implied => Dec "IMM=" i :: mask_word ffm ic
  | X_V_simm => Signed o :: mask_word ffm ic
  | _ => [Dec "IMM=" i]
  end.

(** The name: vector loads and stores of several fields insert "segN" after the letters
    that give the addressing mode. *)
Definition is_vmem (c : xcls) : bool :=
  match c with X_VF_mem | X_V_load | X_V_store => true | _ => false end.
Definition segmented (c : xcls) (ffm ic : N) : bool :=
  is_vmem c && (slice 29 3 ffm =? 0) && negb (slice 29 3 ic =? 0).
Definition mode_letters (ic : N) : nat :=
  match slice 26 2 ic with 0 => 2 | 2 => 3 | _ => 4 end.
Definition named (c : xcls) (ffm : N) (mn : string) (ic : N) (name : string) : Prop :=
  if segmented c ffm ic
  then exists p d q, mn = String.append p q /\ String.length p = mode_letters ic /\
       name = String.append p (String.append "seg" (String.append d q)) /\
       numeral 10 d = Some (slice 29 3 ic + 1)
  else name = mn.
(** Bit 28 ("mew") is reserved, and the shortest such name, "vle8.v", has six letters. *)
Definition nameable (c : xcls) (ffm : N) (mn : string) (ic : N) : Prop :=
  segmented c ffm ic = true -> slice 28 1 ic = 0 /\ (4 <= String.length mn)%nat.

(** The words of the line after the name. *)
Definition line (c : xcls) (ffm ic : N) (d : dinfo) : list item :=
  map Operand (shown c d) ++ further c ffm ic (d_imm d) (d_soff d).

(** ** When the line shows the operands as they are reported *)

(** Formats that write an integer register literally (x0, x1, SP) report it with the type of
    another field, which has to be an integer type; C2 writes its source with the type of rs1.
    CSRI and CIW read the shown field with the fixed bits cleared.  A load or store pair
    shows the first register only, and reports none if it is x0. *)
Definition is_x (m : meta) (f : fid) : Prop := file_of (mt_otype m f) = Some XFile.
Definition as_reported (c : xcls) (ffm : N) (m : meta) (ic : N) : Prop :=
  (is_pair c = true -> pair_free c ffm = true /\ pair_first c ic <> 0) /\
  match c with
  | X_C2 => slice 2 5 ffm = 0 -> file_of (mt_otype m RS1) = file_of (mt_otype m RS2)
  | X_CB => is_x m RS1
  | X_CI_rD_only | X_CIW_sp => is_x m RD
  | X_CJAL | X_CJALR => is_x m RS1
  | X_C2_sp | X_C2_sp_load | X_C2_sp_load_word | X_C2_sp_load_double | X_C2_sp_load_word_pair
  | X_C2_sp_load_float_single | X_C2_sp_load_float_double => is_x m RS1
  | X_C2_sp_store | X_C2_sp_store_word | X_C2_sp_store_double | X_C2_sp_store_word_pair => is_x m RS1
  | X_V_vsetivli => is_x m RD /\ slice 7 5 ffm = 0
  | X_CSRI => slice 20 12 ffm = 0
  | X_CIW => slice 5 8 ffm = 0
  | _ => True
  end.

(** ** Punctuation *)

(** Every comma of a tidy line stands between two words, the tab after the name apart. *)
Inductive place := Start | InWord | AfterComma.
Fixpoint tidy_from (p : place) (s : string) : bool :=
  match s with
  | EmptyString => match p with AfterComma => false | _ => true end
  | String a r =>
      if Ascii.eqb a "," then match p with InWord => tidy_from AfterComma r | _ => false end
      else if Ascii.eqb a " " then tidy_from p r
      else if Ascii.eqb a (ascii_of_nat 9) then tidy_from Start r
      else tidy_from InWord r
  end.
Definition tidy (s : string) : bool := tidy_from Start s.
(** The operands of the format that the line shows and that the opcode holds. *)
Definition in_opcode (c : xcls) : list slot :=
  flat_map (fun f => filter (fun s => fid_eqb f (sl_fid s) && match sl_loc s with LConst _ => false | _ => true end)
                            (if fid_eqb f RD then dst_slots c else src_slots c))
           (arguments c).
(** At least one of them is not fixed, if there are any.  The formats C0, C2, CA and R, which show nothing
    else, and CI, do without; C2_mv writes a comma of its own between its two, so that both are needed. *)
Definition some_operand (c : xcls) (ffm : N) : Prop :=
  match c with
  | X_C0 | X_C2 | X_CA | X_R | X_CI | X_CI_addi | X_CI_addiw => True
  | X_C2_mv => live ffm (in_opcode c) = in_opcode c
  | _ => in_opcode c <> [] -> live ffm (in_opcode c) <> []
  end.

(** ** What the line determines *)

(** The line leaves out rs2 in the formats C2_sp and HV_load (where the instruction usually
    fixes it). *)
Definition shows_operands (c : xcls) (ffm : N) : bool :=
  match c with X_C2_sp => negb (slice 2 5 ffm =? 0) | X_HV_load => negb (slice 20 5 ffm =? 0) | _ => true end.
(** It leaves out immediate bits for vsetvli and vsetivli (only bits 7:0 are shown), and a fixed
    shift amount. *)
Definition shows_immediate (c : xcls) (ffm : N) : bool :=
  match c with X_V_vsetvli | X_V_vsetivli => false | X_ISH => slice 20 6 ffm =? 0 | _ => true end.

(** ** The shipped tables *)

(** The first register of the pair that an RV32 load or store pair moves; 1 for all other
    instructions. *)
Definition first_of_pair (mn : string) (ic : N) : N :=
  if String.eqb mn "ld" then slice 7 5 ic
  else if String.eqb mn "sd" then slice 20 5 ic
  else if String.eqb mn "c.ldsp" then slice 7 5 ic
  else if String.eqb mn "c.sdsp" then slice 2 5 ic
  else 1.

(** ** Instructions made without an opcode *)

(** The words after the name: destinations, then sources, as bare numbers; stores have the data
    before the addresses, marked or labelled D and A; the immediate comes last. *)
Definition labelled (label : string) (l : list N) : list item :=
  match l with [] => [Lit label] | n :: r => Dec label n :: map (Dec "") r end.
Definition direct_line (d : direct) : list item :=
  let o := dx_ops d in
  let imm := [Hex "0x" (dx_imm d)] in
  match o with
  | DInfo _ _ _ | DList _ _ _ =>
      map (Dec "") (given_dests o ++ given_sources o) ++ match dx_immT d with ImmNone => [] | _ => imm end
  | DPseudo _ _ | DMask _ _ => map (Dec "") (given_dests o ++ given_sources o) ++ imm
  | DStores _ _ _ =>
      map (fun n => Marked n "(D)") (given_datas o) ++ map (fun n => Marked n "(A)") (given_addrs o) ++ imm
  | DMaskStores _ _ | DMaskDestStores _ _ _ =>
      map (Dec "") (given_dests o) ++ labelled "D:" (given_datas o) ++ labelled "A:" (given_addrs o) ++ imm
  end.
