(** Sizes in memory (C76).  The capacities of several sized buffers are
    [size_of] of a structure; Layout.v computes it.  The specification here is
    the layout of repr(C) as the Rust reference gives it (type layout, "The C
    representation" and "repr(C) enums with fields"): members in order, each at
    the next multiple of its alignment, the whole padded to a multiple of the
    largest alignment. *)
(* Restates the theorems of LayoutCFacts.v; proofs are there. *)
From Coq Require Import String ZArith NArith List Lia Bool.
From Coq Require Import Init.Byte.
From Verif Require Import Prelude Types Marshal WireSpec Layout Catalogue MarshalFacts.
From Verif Require Import LayoutCFacts.
Import ListNotations.
Open Scope N_scope.

(** ** C76 *)
(** Every type has exactly one size and alignment in memory, and its size is the
    one that the capacities of the library are computed with. *)
Theorem C76_size t size al :
  wf_ty t = true -> in_memory t (size, al) -> size_of t = size.
Proof. exact (c76_size t size al). Qed.
Print Assumptions C76_size.

Theorem C76_exists t : wf_ty t = true -> exists al, in_memory t (size_of t, al).
Proof. exact (c76_exists t). Qed.
Print Assumptions C76_exists.

(** So for a sized buffer around a structure: the room it has is the size of the
    structure in memory, which holds every value on the wire. *)
Theorem C76_capacities :
  forall t max, In (t, max) [(TpmtHa, Tpm2bName); (TpmsAttest, Tpm2bAttest); (TpmsSensitiveCreate, Tpm2bSensitiveCreate);
                  (TpmtPublic, Tpm2bPublic); (TpmtPublic, Tpm2bTemplate); (TpmsCreationData, Tpm2bCreationData);
                  (TpmsIdObject, Tpm2bIdObject); (TpmsContextData, Tpm2bContextData)] ->
  exists size al, in_memory t (size, al) /\ max = TTpm2b size
    /\ forall v, wf t v = true -> (N.of_nat (length (enc t v)) <= size)%N.
Proof. exact c76_capacities. Qed.
Print Assumptions C76_capacities.

Example C76_example :
  in_memory TpmtHa (66, 2) /\ size_of TpmtHa = 66 /\ wf_ty TpmtHa = true
  /\ in_memory TpmsClockInfo (24, 8).
Proof. exact c76_example. Qed.
