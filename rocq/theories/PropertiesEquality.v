(** Equality of values and equality on the wire (C71). *)
(* Restates the theorems of EqualityFacts.v; proofs are there. *)
From Coq Require Import String ZArith NArith List Lia Bool.
From Coq Require Import Init.Byte.
From Verif Require Import Prelude Types Marshal WireSpec MarshalProofs WriteSpec MarshalWrite
  Layout Catalogue Samples Errors ListSpec Tpml Tpm2b MarshalFacts Tpm2bFacts TpmlFacts Equality.
From Verif Require Import EqualityFacts.
Import ListNotations.
Open Scope Z_scope.

(** ** C71 *)
(** Two decoded values compare equal exactly if the bytes they were read from
    were the same; what followed does not matter. *)
Theorem C71_decoded t b1 v1 r1 b2 v2 r2 :
  wf_ty t = true ->
  unmarshal t (b1 ++ r1) = (Ok v1, r1) -> unmarshal t (b2 ++ r2) = (Ok v2, r2) ->
  (derived_eq v1 v2 = true <-> b1 = b2).
Proof. exact (c71_decoded t b1 v1 r1 b2 v2 r2). Qed.
Print Assumptions C71_decoded.

(** Values a program comes by through the interface compare equal exactly if
    they are written as the same bytes. *)
Theorem C71_equality_partial t v1 v2 :
  wf_ty t = true -> built t v1 -> built t v2 ->
  (derived_eq v1 v2 = true
   <-> exists n, firstn n (fst (marshal t v1 (repeat x00 (N.to_nat (size_of t)))))
                 = firstn n (fst (marshal t v2 (repeat x00 (N.to_nat (size_of t)))))
       /\ snd (marshal t v1 (repeat x00 (N.to_nat (size_of t)))) = Ok n
       /\ snd (marshal t v2 (repeat x00 (N.to_nat (size_of t)))) = Ok n).
Proof. exact (c71_equality_partial t v1 v2). Qed.
Print Assumptions C71_equality_partial.

(** Every such value survives the wire unchanged. *)
Theorem C71_survives t v buf buf' n rest :
  wf_ty t = true -> built t v -> marshal t v buf = (buf', Ok n) ->
  unmarshal t (firstn n buf' ++ rest) = (Ok v, rest).
Proof. exact (c71_survives t v buf buf' n rest). Qed.
Print Assumptions C71_survives.

(** Exactly how far equality on the wire goes, for all values of all types: two
    values are the same on the wire exactly if they are equal once what stands
    behind counts and sizes is blanked ([canon] of WireSpec.v), and a value comes
    back from the wire as its blanked self, hence equal to itself exactly if
    nothing was there to blank. *)
Theorem C71_exact t v1 v2 :
  wf_ty t = true -> wf t v1 = true -> wf t v2 = true ->
  (derived_eq (canon t v1) (canon t v2) = true
   <-> exists n, firstn n (fst (marshal t v1 (repeat x00 (N.to_nat (size_of t)))))
                 = firstn n (fst (marshal t v2 (repeat x00 (N.to_nat (size_of t)))))
       /\ snd (marshal t v1 (repeat x00 (N.to_nat (size_of t)))) = Ok n
       /\ snd (marshal t v2 (repeat x00 (N.to_nat (size_of t)))) = Ok n).
Proof. exact (c71_exact t v1 v2). Qed.
Print Assumptions C71_exact.

Theorem C71_returns t v buf buf' n rest :
  wf_ty t = true -> wf t v = true -> marshal t v buf = (buf', Ok n) ->
  exists v', unmarshal t (firstn n buf' ++ rest) = (Ok v', rest) /\ v' = canon t v
    /\ (derived_eq v' v = true <-> canonical t v).
Proof. exact (c71_returns t v buf buf' n rest). Qed.
Print Assumptions C71_returns.

(** Two PCR selections of one form on the wire that differ behind the count. *)
Example C71_exact_example :
  let v1 := VStruct [VStruct [VInt 11]; VInt 1; VArr [VInt 7; VInt 1; VInt 0; VInt 0]] in
  let v2 := VStruct [VStruct [VInt 11]; VInt 1; VArr [VInt 7; VInt 2; VInt 0; VInt 0]] in
  wf_ty TpmsPcrSelection = true /\ wf TpmsPcrSelection v1 = true /\ wf TpmsPcrSelection v2 = true
  /\ derived_eq v1 v2 = false /\ derived_eq (canon TpmsPcrSelection v1) (canon TpmsPcrSelection v2) = true
  /\ canon TpmsPcrSelection v1 = VStruct [VStruct [VInt 11]; VInt 1; VArr [VInt 7; VInt 0; VInt 0; VInt 0]].
Proof. exact c71_exact_example. Qed.

(** Without the restriction on the entries behind a public count it fails:
    two PCR selections that differ there are different values, but one on the
    wire, and reading it back gives neither. *)
Theorem C71_equality_refuted :
  exists v1 v2 n v,
    wf TpmsPcrSelection v1 = true /\ wf TpmsPcrSelection v2 = true
    /\ derived_eq v1 v2 = false
    /\ marshal TpmsPcrSelection v1 (repeat x00 8) = marshal TpmsPcrSelection v2 (repeat x00 8)
    /\ snd (marshal TpmsPcrSelection v1 (repeat x00 8)) = Ok n
    /\ fst (unmarshal TpmsPcrSelection (firstn n (fst (marshal TpmsPcrSelection v1 (repeat x00 8))))) = Ok v
    /\ derived_eq v v1 = false /\ derived_eq v v2 = false.
Proof. exact c71_equality_refuted. Qed.
Print Assumptions C71_equality_refuted.

Example C71_example :
  exists v1 v2, built TpmsQuoteInfo v1 /\ built TpmsQuoteInfo v2
  /\ wf_ty TpmsQuoteInfo = true /\ derived_eq v1 v1 = true /\ derived_eq v1 v2 = false.
Proof. exact c71_example. Qed.
