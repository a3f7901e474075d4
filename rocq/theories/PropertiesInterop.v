(** The two generations of TPMT_HA, of the base crate and of crates/tpm2, on the
    wire (C77). *)
(* Restates the theorems of InteropFacts.v; proofs are there. *)
From Coq Require Import String ZArith NArith List Lia Bool.
From Coq Require Import Init.Byte.
From Verif Require Import Prelude Types Marshal WireSpec MarshalProofs WriteSpec MarshalWrite MarshalFacts
  Catalogue Limits LimitsFacts.
From Verif Require Import InteropFacts.
Import ListNotations.
Open Scope Z_scope.

(** ** C77 *)
(** What crates/tpm2 writes is what the base crate writes for the same hash and
    digest, and the base crate reads it as that. *)
Theorem C77_new_to_old supports x buf buf' n rest :
  wf_ha x -> marshal_ha supports x buf = (buf', Ok n) ->
  marshal TpmtHa (old_of x) buf = (buf', Ok n)
  /\ unmarshal TpmtHa (firstn n buf' ++ rest) = (Ok (old_of x), rest).
Proof. exact (c77_new_to_old supports x buf buf' n rest). Qed.
Print Assumptions C77_new_to_old.

(** What the base crate writes is read by crates/tpm2 as the same hash and
    digest if the limits allow that hash; except that SM3_256 is never read. *)
Theorem C77_old_to_new_partial supports self v buf buf' n rest :
  wf TpmtHa v = true -> marshal TpmtHa v buf = (buf', Ok n) ->
  (exists x, wf_ha x /\ v = old_of x
     /\ unmarshal_ha supports self (firstn n buf' ++ rest)
        = if supports (ha_hash x) then (x, Ok rest) else (self, Err tt))
  \/ (exists d, v = VEnum 0x0012 [VBytes d]
     /\ unmarshal_ha supports self (firstn n buf' ++ rest) = (self, Err tt)).
Proof. exact (c77_old_to_new_partial supports self v buf buf' n rest). Qed.
Print Assumptions C77_old_to_new_partial.

(** So an SM3_256 digest cannot be passed on, even if the limits allow it. *)
Theorem C77_interchange_refuted :
  exists v bytes, wf TpmtHa v = true
    /\ marshal TpmtHa v (repeat x00 34) = (bytes, Ok 34%nat)
    /\ forall self, unmarshal_ha (fun _ => true) self bytes = (self, Err tt).
Proof. exact c77_interchange_refuted. Qed.
Print Assumptions C77_interchange_refuted.

Example C77_example :
  let x := HaSha256 (repeat x5a 32) in
  wf_ha x /\ snd (marshal_ha (fun _ => true) x (repeat x00 34)) = Ok 34%nat
  /\ wf TpmtHa (old_of x) = true /\ snd (marshal TpmtHa (old_of x) (repeat x00 40)) = Ok 34%nat.
Proof. exact c77_example. Qed.
