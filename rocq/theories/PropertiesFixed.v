(** Types of a fixed size accept every byte string (C74).  [wire_size] is the
    specification: the number of bytes of a type without unions, lists and
    sized buffers; it does not mention the values. *)
(* Restates the theorems of FixedFacts.v; proofs are there. *)
From Coq Require Import String ZArith NArith List Lia Bool.
From Coq Require Import Init.Byte.
From Verif Require Import Prelude Types Marshal WireSpec MarshalProofs WriteSpec MarshalWrite MarshalFacts Catalogue.
From Verif Require Import FixedFacts.
Import ListNotations.
Open Scope Z_scope.

(** ** C74 *)
(** A type without unions, lists and sized buffers reads exactly its size,
    whatever the bytes are, and writes back the bytes it read; it fails if, and
    only if, there are fewer. *)
Theorem C74_every_byte_string t n b buf :
  wf_ty t = true -> wire_size t = Some n ->
  ((n <= length b)%nat ->
     exists v, unmarshal t b = (Ok v, skipn n b)
       /\ ((n <= length buf)%nat -> marshal t v buf = (firstn n b ++ skipn n buf, Ok n)))
  /\ ((length b < n)%nat -> fst (unmarshal t b) = Err UnexpectedEndOfBuffer).
Proof. exact (c74_every_byte_string t n b buf). Qed.
Print Assumptions C74_every_byte_string.

(** An identifier holds every number of its width, known or not: it is read as
    that number and written as that number.  So neither the identifiers nor the
    interface types (TPMI_...) are checked against the values that the
    specification lists. *)
Theorem C74_identifiers k t f z rest buf :
  identifier k t f -> 0 <= z < 256 ^ Z.of_nat k ->
  unmarshal t (be_bytes k z ++ rest) = (Ok (f z), rest)
  /\ ((k <= length buf)%nat -> marshal t (f z) buf = (be_bytes k z ++ skipn k buf, Ok k)).
Proof. exact (c74_identifiers k t f z rest buf). Qed.
Print Assumptions C74_identifiers.

Theorem C74_library t k :
  In (t, k) library_identifiers -> In t base_types /\ exists f, identifier k t f.
Proof. exact (c74_library t k). Qed.
Print Assumptions C74_library.

Example C74_example :
  wire_size TpmsTimeInfo = Some 25%nat /\ wf_ty TpmsTimeInfo = true
  /\ wire_size CmdHeader = Some 10%nat /\ wire_size TpmsAlgProperty = Some 6%nat
  /\ wire_size TpmtPublic = None /\ wire_size Tpm2bDigest = None /\ wire_size TpmlHandle = None
  /\ unmarshal TpmiYesNo [x02] = (Ok (VStruct [VInt 2]), [])
  /\ identifier 2 TpmiEccCurve (fun z => VStruct [VStruct [VInt z]]).
Proof. exact c74_example. Qed.
