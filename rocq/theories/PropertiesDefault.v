(** The default values (C75).  The values are [zero_of] in Catalogue.v, where
    they also pre-fill arrays. *)
(* Restates the theorems of DefaultFacts.v; proofs are there. *)
From Coq Require Import String ZArith NArith List Lia Bool.
From Coq Require Import Init.Byte.
From Verif Require Import Prelude Types Marshal WireSpec MarshalProofs WriteSpec MarshalWrite MarshalFacts
  Layout Catalogue Errors ListSpec Tpml TpmlFacts Tpm2b FixedFacts.
From Verif Require Import DefaultFacts.
Import ListNotations.
Open Scope Z_scope.

(** ** C75 *)
(** The default value of every type: it is a value of the type, it marshals,
    and comes back from the wire as it was. *)
Theorem C75_valid t buf rest :
  In t base_types -> (N.to_nat (size_of t) <= length buf)%nat ->
  exists n, (n <= N.to_nat (size_of t))%nat
    /\ snd (marshal t (zero_of t) buf) = Ok n
    /\ unmarshal t (firstn n (fst (marshal t (zero_of t) buf)) ++ rest) = (Ok (zero_of t), rest).
Proof. exact (c75_valid t buf rest). Qed.
Print Assumptions C75_valid.

(** It is zeros on the wire if the type has no union (entries of lists do not
    count: there are none) ... *)
Theorem C75_zero_bytes t buf buf' n :
  wf_ty t = true -> no_union t = true ->
  marshal t (zero_of t) buf = (buf', Ok n) -> Forall (eq x00) (firstn n buf').
Proof. exact (c75_zero_bytes t buf buf' n). Qed.
Print Assumptions C75_zero_bytes.

(** ... so that reading zeros gives it. *)
Theorem C75_from_zeros t buf buf' n rest :
  wf_ty t = true -> no_union t = true -> marshal t (zero_of t) buf = (buf', Ok n) ->
  unmarshal t (repeat x00 n ++ rest) = (Ok (zero_of t), rest).
Proof. exact (c75_from_zeros t buf buf' n rest). Qed.
Print Assumptions C75_from_zeros.

(** A sized buffer is empty, a list is empty: the same as made from nothing. *)
Theorem C75_empty :
  (forall max, Ok (zero_of (TTpm2b max)) = from_bytes max [])
  /\ (forall name cap t, In (name, cap, t) tpml_types ->
       exists x, tpml_new (N.to_nat cap) (zero_of t) [] = Ok x
         /\ zero_of (tpml name cap t) = val_of_tpml x
         /\ tpml_count x = 0%nat /\ tpml_elements (N.to_nat cap) x = Ok []).
Proof. exact c75_empty. Qed.
Print Assumptions C75_empty.

(** The default of TPMT_HA, the only union with one, is SHA-1 and twenty zeros
    (base/src/lib.rs:584-588). *)
Theorem C75_hash : zero_of TpmtHa = VEnum alg_SHA1 [VBytes (repeat x00 20)].
Proof. exact c75_hash. Qed.
Print Assumptions C75_hash.

Example C75_example :
  In TpmlAlgProperty base_types /\ no_union TpmlAlgProperty = true /\ no_union TpmsAuthCommand = true
  /\ no_union TpmlTaggedPolicy = true /\ no_union TpmtPublic = false
  /\ marshal TpmsAuthCommand (zero_of TpmsAuthCommand) (repeat xff 10)
     = (repeat x00 9 ++ [xff], Ok 9%nat)
  /\ zero_of TpmsTaggedPolicy = VStruct [VStruct [VInt 0]; VEnum 4 [VBytes (repeat x00 20)]].
Proof. exact c75_example. Qed.
