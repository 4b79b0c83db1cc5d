(** Model of the disassemblers of pseudo-instructions: mavis/DisassemblerIF.hpp,
    mavis/Disassembler.hpp, setDisassembler of mavis/PseudoBuilder.hpp and
    mavis/IFactoryPseudo.hpp, setPseudoInstDisassembler of mavis/Mavis.h, dasmAnnotate of
    mavis/ExtractorDirectInfo.h, and dasmString of mavis/OpcodeInfo.h. *)
From Coq Require Import NArith List Bool String.
From Verif Require Import M_Base M_Meta M_Extract M_Decoded M_Registry M_Builder M_DTable M_Direct M_Pseudo.
Import ListNotations.
Local Open Scope N_scope.

(** DisassemblerIF.hpp:24-26, toString(mnemonic, icode, meta, extractor).  The annotation that the
    extractor carries (ExtractorIF::getDasmAnnotation, Extractor.h:154) is the last argument.
    A disassembler is a function of these: one that has a state of its own, or that changes the
    annotation, is not modelled. *)
Definition disassembler : Type := string -> N -> meta -> Ext -> string -> res string.
(** Disassembler.hpp:20-24, the default one. *)
Definition default_dasm : disassembler := fun mn ic m x _ => x_dasm x mn ic m.
(** An extractor the user made: its values and its annotation, empty at first
    (ExtractorDirectInfo.h:233). *)
Record given := mkGiven { gv_direct : direct; gv_note : string }.
(** ExtractorDirectInfo.h:143-146, dasmAnnotate. *)
Definition annotate (g : given) (txt : string) : given := mkGiven (gv_direct g) txt.

(** The pseudo-builder and, by factory, the member dasm_ (IFactoryPseudo.hpp:68). *)
Record pdasm := mkPDs { pd_b : pbuilder; pd_dasm : nat -> disassembler }.
(** PseudoBuilder.hpp:70, every factory starts with a Disassembler. *)
Definition pdasm_new (b : pbuilder) : pdasm := mkPDs b (fun _ => default_dasm).
(** Mavis.h:243-246 and PseudoBuilder.hpp:84-92, setDisassembler; a null pointer is [None].
    IFactoryPseudo.hpp:52-56 is the assignment. *)
Definition set_dasm (s : pdasm) (uid : N) (f : option disassembler) : pdasm * res unit :=
  match f with
  | None => (s, AssertFail)
  | Some f =>
      match pfind_uid (pd_b s) uid with
      | Ok (b, None) => (mkPDs b (pd_dasm s), Throw EUnknownPseudoUID)
      | Ok (b, Some i) => (mkPDs b (fun j => if Nat.eqb j i then f else pd_dasm s j), Ok tt)
      | Throw e => (s, Throw e)
      | AssertFail => (s, AssertFail)
      | UB => (s, UB)
      end
  end.
(** A pseudo-instruction as made: the information of OpcodeInfo.h:387-389 with the
    disassembler of that time, and the annotation of the cloned extractor (ex_info.clone() at
    Mavis.h:181 copies the member annotation_; ExtractorWrap.hpp:164-167 hands it through). *)
Record pshown := mkShown { sw_info : info; sw_dasm : disassembler; sw_note : string }.
(** The factory that answers (Mavis.h:166-174). *)
Definition pwhich (b : pbuilder) (d : direct) : option nat :=
  if dx_uid d =? INVALID_UID then pfind b (dx_mn d)
  else match pfind_uid b (dx_uid d) with Ok (_, o) => o | _ => None end.
(** Mavis.h:158-184, makePseudoInst; IFactoryPseudo.hpp:47 passes dasm_ on. *)
Definition make_shown (s : pdasm) (g : given) : pdasm * res pshown :=
  let '(b, r) := make_pseudo (pd_b s) (gv_direct g) in
  (mkPDs b (pd_dasm s),
   let* v := r in
   match pwhich (pd_b s) (gv_direct g) with
   | Some i => Ok (mkShown v (pd_dasm s i) (gv_note g))
   | None => UB
   end).
(** OpcodeInfo.h:47-51, dasmString. *)
Definition text_of (p : pshown) : res string :=
  let v := sw_info p in sw_dasm p (d_mnemonic (i_di v)) (i_icode v) (i_meta v) (i_x v) (sw_note p).
