(** Common vocabulary of the model: outcomes and machine integers.
    Models no particular function; it fixes how C++ outcomes are represented. *)
From Coq Require Import NArith ZArith List Bool String.
Import ListNotations.
Open Scope N_scope.

(** Exceptions of mavis/DecoderExceptions.h that the modelled code can throw.
    Message payloads are kept only where a property talks about them. *)
Inductive exn : Type :=
| EUnknownOpcode                      (* DecoderExceptions.h:699 *)
| EIllegalOpcode                      (* DecoderExceptions.h:715 *)
| EUnknownMnemonic
| EUnknownPseudoMnemonic
| EUnsupportedSpecialField            (* UnsupportedExtractorSpecialFieldID *)
| EInvalidSpecialField                (* InvalidExtractorSpecialFieldID *)
| EOperandInfoInvalidFieldID
| EBuildErrorOpcodeConflict
| EBuildErrorInstructionAlias
| EBuildErrorFieldsIncompatible
| EBuildErrorUnknownForm
| EBuildErrorUnknownFormField
| EBuildErrorUnknownExpansion
| EBuildErrorOverlayBaseNotFound
| EBuildErrorOverlayMissingAnnotation
| EBuildErrorOverlayMissingBase
| EBuildErrorOverlayMissingMatch
| EBuildErrorOverlayBadMatchSpec
| EBuildErrorDuplicateMnemonic
| EBuildErrorMissingMnemonic
| EBuildErrorInvalidDataSize
| EBuildErrorUnknownType
| EBuildErrorInvalidISAExtension | EBuildErrorInvalidISAWidth
| EDuplicateKey | EUnassignedKey | EUnassignedIndex
| EStdOutOfRange                      (* std::out_of_range from .at() *)
| EInstIDListInvalidUID | EInstIDListUIDNotUnique | EInstIDListAlreadyRegistered
| EContextAlreadyExists | EUnknownContext
| EAnnotationNotUniqueInFile
| EInvalidRegisterNumber
| EUnknownFieldID | EUnknownSpecialFieldID (* FormGeneric.hpp:48-74 *)
| EUnknownPseudoUID.

(** Outcome of a C++ call.  [AssertFail] is a failing [assert]; [UB] is
    undefined behaviour; neither is ever replaced by a default value. *)
Inductive res (A : Type) : Type :=
| Ok (a : A)
| Throw (e : exn)
| AssertFail
| UB.
Arguments Ok {A} a.
Arguments Throw {A} e.
Arguments AssertFail {A}.
Arguments UB {A}.

Definition rbind {A B} (r : res A) (f : A -> res B) : res B :=
  match r with
  | Ok a => f a
  | Throw e => Throw e
  | AssertFail => AssertFail
  | UB => UB
  end.

Notation "'let*' x ':=' r 'in' k" := (rbind r (fun x => k))
  (at level 200, x pattern, r at level 100, k at level 200, right associativity).

Definition rassert (b : bool) : res unit := if b then Ok tt else AssertFail.
Definition rmap {A B} (f : A -> B) (r : res A) : res B := let* a := r in Ok (f a).

(** uint64_t / uint32_t arithmetic: wrap explicitly. *)
Definition w32 : N := 4294967296.
Definition w64 : N := 18446744073709551616.
Definition u32 (x : N) : N := x mod w32.
Definition u64 (x : N) : N := x mod w64.

(** [x << n] on uint64_t for a shift amount known to be < 64. *)
Definition shl64 (x n : N) : N := u64 (N.shiftl x n).
(** [~x] on uint64_t. *)
Definition not64 (x : N) : N := N.lxor x (N.ones 64).
(** [x & ~m] on uint64_t. *)
Definition andnot64 (x m : N) : N := N.land x (not64 m).
