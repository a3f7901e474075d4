(** Which refusals further input can change (C79). *)
(* Restates the theorems of FinalFacts.v; proofs are there. *)
From Coq Require Import String ZArith NArith List Lia Bool.
From Coq Require Import Init.Byte.
From Verif Require Import Prelude Types Marshal WireSpec MarshalProofs WriteSpec MarshalWrite
  Layout Catalogue Samples MarshalFacts.
From Verif Require Import FinalFacts.
Import ListNotations.
Open Scope Z_scope.

(** ** C79 *)
(** Every outcome except "end of buffer" is final: on the input followed by
    anything the same value or the same error is returned, at the same place. *)
Theorem C79_final t b r :
  fst (unmarshal t b) <> Err UnexpectedEndOfBuffer ->
  unmarshal t (b ++ r) = (fst (unmarshal t b), snd (unmarshal t b) ++ r).
Proof. exact (c79_final t b r). Qed.
Print Assumptions C79_final.

(** "End of buffer" means that bytes are missing, for types without sized
    buffers: it cannot come of an input as long as the type is in memory ... *)
Theorem C79_missing_partial t b :
  wf_ty t = true -> no_sized t = true -> (size_of t <= N.of_nat (length b))%N ->
  fst (unmarshal t b) <> Err UnexpectedEndOfBuffer.
Proof. exact (c79_missing_partial t b). Qed.
Print Assumptions C79_missing_partial.

(** ... so some continuation, in fact every one that is long enough, is
    accepted or refused for what it contains. *)
Theorem C79_continue_partial t b r :
  wf_ty t = true -> no_sized t = true -> (size_of t <= N.of_nat (length r))%N ->
  (exists v rest, unmarshal t (b ++ r) = (Ok v, rest))
  \/ (exists e rest, unmarshal t (b ++ r) = (Err e, rest) /\ (e = ArrayLengthExceeded \/ e = UnknownSelector)
        /\ forall r', fst (unmarshal t (b ++ r ++ r')) = Err e).
Proof. exact (c79_continue_partial t b r). Qed.
Print Assumptions C79_continue_partial.

(** With sized buffers it is false: a size above the maximum is reported as
    the end of the buffer however many bytes follow. *)
Theorem C79_missing_refuted :
  (forall max size r, Z.of_N max < size < 65536 ->
     fst (unmarshal (TTpm2b max) (be_bytes 2 size ++ r)) = Err UnexpectedEndOfBuffer)
  /\ exists t b, In t base_types /\ forall r, fst (unmarshal t (b ++ r)) = Err UnexpectedEndOfBuffer.
Proof. exact c79_missing_refuted. Qed.
Print Assumptions C79_missing_refuted.

(** With sized buffers, too, an input as long as the type is in memory is
    decided: whatever follows, the outcome is the same ... *)
Theorem C79_decided t b r :
  (size_of t <= N.of_nat (length b))%N -> fst (unmarshal t (b ++ r)) = fst (unmarshal t b).
Proof. exact (c79_decided t b r). Qed.
Print Assumptions C79_decided.

(** ... and if it is "end of buffer" after all, then the input has a size above
    the maximum of one of the type's sized buffers. *)
Theorem C79_oversized t b :
  (size_of t <= N.of_nat (length b))%N -> fst (unmarshal t b) = Err UnexpectedEndOfBuffer -> oversized (maxima t) b.
Proof. exact (c79_oversized t b). Qed.
Print Assumptions C79_oversized.

Example C79_example :
  fst (unmarshal TpmlDigest [x00; x00; x00; x09]) = Err ArrayLengthExceeded
  /\ fst (unmarshal TpmlDigest [xff; x00; x00]) = Err UnexpectedEndOfBuffer
  /\ fst (unmarshal TpmlDigest [xff; x00; x00; x00]) = Err ArrayLengthExceeded
  /\ no_sized TpmlPcrSelection = true /\ size_of TpmlPcrSelection = 132%N
  /\ no_sized TpmtHa = true
  /\ size_of Tpm2bDigest = 66%N /\ maxima Tpm2bDigest = [64%N]
  /\ fst (unmarshal Tpm2bDigest (x00 :: x41 :: repeat x00 64)) = Err UnexpectedEndOfBuffer.
Proof. exact c79_example. Qed.
