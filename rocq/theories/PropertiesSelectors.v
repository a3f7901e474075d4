(** Which alternatives of the unions are taken, against TPM 2.0 Part 2 (C94). *)
(* Restates the theorems of SelectorsFacts.v; proofs are there. *)
From Coq Require Import String ZArith NArith List Lia Bool.
From Coq Require Import Init.Byte.
From Verif Require Import Prelude Types Marshal WireSpec MarshalProofs Layout Catalogue Samples MarshalFacts Part2 Handwritten LayoutProofs LayoutFacts Part2Constants Part2Selectors.
From Verif Require Import SelectorsFacts.
Import ListNotations.
Local Open Scope string_scope.
Local Open Scope list_scope.
Open Scope Z_scope.

(** ** C94 *)
(** Exactly the selectors of Part 2 that are not in the third list, and those of
    the second list, begin a value of the union. *)
Theorem C94_taken_partial t k names extra absent sel :
  In (t, k, names, extra, absent) part2_unions -> in_range false k sel = true ->
  (takes t k sel <-> (listed names sel /\ ~ listed absent sel) \/ listed extra sel).
Proof. exact (c94_taken_partial t k names extra absent sel). Qed.
Print Assumptions C94_taken_partial.

(** The two lists are the differences: what is in the second Part 2 does not
    list, and the library takes it; what is in the third Part 2 lists, and the
    library refuses it whatever follows. *)
Theorem C94_differences_partial t k names extra absent sel :
  In (t, k, names, extra, absent) part2_unions -> in_range false k sel = true ->
  (listed extra sel -> ~ listed names sel /\ takes t k sel)
  /\ (listed absent sel -> listed names sel
        /\ forall rest, unmarshal t (be_bytes k sel ++ rest) = (Err UnknownSelector, rest)).
Proof. exact (c94_differences_partial t k names extra absent sel). Qed.
Print Assumptions C94_differences_partial.

(** Where both lists are empty the union takes exactly what Part 2 lists. *)
Theorem C94_keyed_hash sel :
  in_range false 2 sel = true ->
  (takes TpmtKeyedHashScheme 2 sel <-> listed TPMI_ALG_KEYEDHASH_SCHEME sel).
Proof. exact (c94_keyed_hash sel). Qed.
Print Assumptions C94_keyed_hash.

(** The public area of an RSA key that names an ECDSA scheme and XOR as its
    symmetric algorithm is read, though Part 2 allows neither; its bytes, under
    the format of Part 2: the RSA key type, SHA256, attributes, an empty policy,
    XOR with SHA256, ECDSA with SHA256, 2048 bits, exponent, an empty key. *)
Theorem C94_rsa_key_refuted :
  exists b x,
    b = be_bytes 2 0x0001 ++ be_bytes 2 0x000B ++ be_bytes 4 0x40072 ++ be_bytes 2 0
        ++ be_bytes 2 0x000A ++ be_bytes 2 0x000B ++ be_bytes 2 0x0018 ++ be_bytes 2 0x000B
        ++ be_bytes 2 2048 ++ be_bytes 4 0 ++ be_bytes 2 0
    /\ public_try_unmarshal b = (Ok x, [])
    /\ ~ listed TPMI_ALG_SYM_OBJECT 0x000A /\ ~ listed TPMI_ALG_RSA_SCHEME 0x0018.
Proof. exact c94_rsa_key_refuted. Qed.
Print Assumptions C94_rsa_key_refuted.

(** The capability of the authenticated countdown timers, which Part 2 has, is
    refused whatever is in it, and so is a digest by SHA3-256. *)
Theorem C94_missing_refuted :
  listed CAPABILITIES 0x0A /\ listed TPMI_ALG_HASH 0x0027
  /\ (forall rest, unmarshal TpmsCapabilityData (be_bytes 4 0x0A ++ rest) = (Err UnknownSelector, rest))
  /\ (forall rest, unmarshal TpmtHa (be_bytes 2 0x0027 ++ rest) = (Err UnknownSelector, rest)).
Proof. exact c94_missing_refuted. Qed.
Print Assumptions C94_missing_refuted.

(** Every name of the table has a value, and one only. *)
Example C94_named :
  forallb (fun x => forallb (fun n => Nat.eqb (length (values [n])) 1)
                            (snd (fst (fst x)) ++ snd (fst x) ++ snd x)) part2_unions = true.
Proof. exact c94_named. Qed.
