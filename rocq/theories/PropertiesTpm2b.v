(** Properties of the [Tpm2bSimple] and [Tpm2bStruct] interfaces (C13-C15). *)
(* Restates the theorems of Tpm2bFacts.v; proofs are there. *)
From Coq Require Import String ZArith NArith List Lia Bool.
From Coq Require Import Init.Byte.
From Verif Require Import Prelude Types Marshal WireSpec MarshalProofs WriteSpec MarshalWrite
  Layout Catalogue Samples Errors Tpm2b MarshalFacts.
From Verif Require Import Tpm2bFacts.
Import ListNotations.
Open Scope Z_scope.

(** ** C13 *)
(** Wrapping succeeds for every value of the struct type: the wrapper's size
    is the encoded length, its bytes are the encoding, and unwrapping gives
    the value back; where the value had bytes beyond the size of one of its
    own TPM2B fields, these come back as zeros. *)
Theorem C13_round_trip t v :
  wf_ty t = true -> (size_of t < 65536)%N -> wf t v = true ->
  exists b, from_struct t v = Ok b
    /\ wf (TTpm2b (size_of t)) b = true
    /\ get_size b = Z.of_nat (length (enc t v))
    /\ as_ref b = Ok (enc t v)
    /\ to_struct t b = Ok (canon t v)
    /\ (canonical t v -> to_struct t b = Ok v).
Proof. exact (c13_round_trip t v). Qed.
Print Assumptions C13_round_trip.

(** The three wrapped structs of the library meet its side conditions. *)
Theorem C13_round_trip_base t tb v :
  In (t, tb) wrapped -> wf t v = true ->
  tb = TTpm2b (size_of t)
  /\ exists b, from_struct t v = Ok b /\ wf tb b = true
    /\ get_size b = Z.of_nat (length (enc t v)) /\ as_ref b = Ok (enc t v)
    /\ to_struct t b = Ok (canon t v) /\ (canonical t v -> to_struct t b = Ok v).
Proof. exact (c13_round_trip_base t tb v). Qed.
Print Assumptions C13_round_trip_base.

Example C13_example :
  In (TpmtPublic, Tpm2bPublic) wrapped
  /\ wf TpmtPublic sample_public = true /\ canonical TpmtPublic sample_public
  /\ omap get_size (from_struct TpmtPublic sample_public) = Ok 88.
Proof. exact c13_example. Qed.


(** ** C14 *)
(** What unwrapping accepts: any buffer that starts with an encoding. *)
Theorem C14_to_struct_accepts t data pad v :
  wf_ty t = true -> Z.of_nat (length data) < 65536 ->
  (to_struct t (VTpm2b (Z.of_nat (length data)) (data ++ pad)) = Ok v
   <-> wf t v = true /\ canonical t v /\ exists extra, data = enc t v ++ extra).
Proof. exact (c14_to_struct_accepts t data pad v). Qed.
Print Assumptions C14_to_struct_accepts.

(** Unwrapping never panics on a well-formed wrapper. *)
Theorem C14_to_struct_total t max b :
  wf_ty t = true -> wf (TTpm2b max) b = true -> is_panic (to_struct t b) = false.
Proof. exact (c14_to_struct_total t max b). Qed.
Print Assumptions C14_to_struct_total.

(** Strictness fails: bytes behind the structure are ignored. *)
Theorem C14_strict_refuted :
  exists b v, wf Tpm2bSensitiveCreate b = true
    /\ canonical Tpm2bSensitiveCreate b
    /\ to_struct TpmsSensitiveCreate b = Ok v
    /\ from_struct TpmsSensitiveCreate v <> Ok b.
Proof. exact c14_strict_refuted. Qed.
Print Assumptions C14_strict_refuted.

(** It holds when no byte is left over. *)
Theorem C14_strict_partial t data v :
  wf_ty t = true -> (size_of t < 65536)%N ->
  to_struct t (v2b (size_of t) data) = Ok v -> (N.of_nat (length data) <= size_of t)%N ->
  length data = length (enc t v) ->
  from_struct t v = Ok (v2b (size_of t) data).
Proof. exact (c14_strict_partial t data v). Qed.
Print Assumptions C14_strict_partial.

(** ... and only then, so strictness fails exactly for wrappers with bytes left
    over. *)
Theorem C14_strict_iff t data v :
  wf_ty t = true -> (size_of t < 65536)%N -> (N.of_nat (length data) <= size_of t)%N ->
  to_struct t (v2b (size_of t) data) = Ok v ->
  (from_struct t v = Ok (v2b (size_of t) data) <-> length data = length (enc t v)).
Proof. exact (c14_strict_iff t data v). Qed.
Print Assumptions C14_strict_iff.

Example C14_example :
  let data := [x00; x02; x01; x02; x00; x03; x03; x04; x05] in
  wf_ty TpmsSensitiveCreate = true
  /\ enc TpmsSensitiveCreate sample_sensitive = data
  /\ to_struct TpmsSensitiveCreate (v2b (size_of TpmsSensitiveCreate) data) = Ok sample_sensitive
  /\ from_struct TpmsSensitiveCreate sample_sensitive = Ok (v2b (size_of TpmsSensitiveCreate) data)
  /\ to_struct TpmsSensitiveCreate (v2b (size_of TpmsSensitiveCreate) (data ++ [xff])) = Ok sample_sensitive
  /\ is_ok (to_struct TpmsSensitiveCreate (v2b (size_of TpmsSensitiveCreate) (removelast data))) = false.
Proof. exact c14_example. Qed.


(** ** C15 *)
Theorem C15_from_bytes max data :
  if (N.of_nat (length data) <=? N.min 65535 max)%N
  then exists b, from_bytes max data = Ok b
         /\ wf (TTpm2b max) b = true /\ canonical (TTpm2b max) b
         /\ get_size b = Z.of_nat (length data)
         /\ get_buffer b = Ok data /\ as_ref b = Ok data
  else from_bytes max data = Err ArrayLengthExceeded.
Proof. exact (c15_from_bytes max data). Qed.
Print Assumptions C15_from_bytes.

(** Two values made by [from_bytes] are equal (field by field, as the derived
    [PartialEq] compares) iff their bytes are. *)
Theorem C15_equality max d1 d2 b1 b2 :
  from_bytes max d1 = Ok b1 -> from_bytes max d2 = Ok b2 -> (b1 = b2 <-> d1 = d2).
Proof. exact (c15_equality max d1 d2 b1 b2). Qed.
Print Assumptions C15_equality.

(** The default value holds no bytes. *)
Theorem C15_default max :
  wf (TTpm2b max) (tpm2b_default max) = true /\ get_buffer (tpm2b_default max) = Ok []
  /\ from_bytes max [] = Ok (tpm2b_default max).
Proof. exact (c15_default max). Qed.
Print Assumptions C15_default.

Example C15_example :
  is_ok (from_bytes 64 (repeat x07 64)) = true
  /\ from_bytes 64 (repeat x07 65) = Err ArrayLengthExceeded
  /\ from_bytes 64 [x01; x02] = Ok (v2b 64 [x01; x02]).
Proof. exact c15_example. Qed.
