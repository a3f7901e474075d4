(** Properties of the new-style marshalling of the [tpm2] crate (C26-C29). *)
(* Restates the theorems of LimitsFacts.v; proofs are there. *)
From Coq Require Import ZArith NArith List Lia Bool.
From Coq Require Import Init.Byte.
From Verif Require Import Prelude Types Marshal MarshalProofs Limits.
From Verif Require Import LimitsFacts.
Import ListNotations.
Open Scope Z_scope.

(** ** C26 *)
(** Marshalling succeeds iff the limits support the hash and the buffer has
    [marshaled_size] bytes; it then uses exactly that many, stores the wire
    form there, and the returned rest is the untouched tail.  Without room the
    identifier is written if that fits, and nothing else. *)
Theorem C26_marshal supports x buf : wf_ha x ->
  length (ha_wire x) = ha_marshaled_size x
  /\ marshal_ha supports x buf
     = if supports (ha_hash x)
       then if (ha_marshaled_size x <=? length buf)%nat
            then (ha_wire x ++ skipn (ha_marshaled_size x) buf, Ok (ha_marshaled_size x))
            else ((if (2 <=? length buf)%nat then be_bytes 2 (ha_id x) ++ skipn 2 buf else buf), Err tt)
       else (buf, Err tt).
Proof. exact (c26_marshal supports x buf). Qed.
Print Assumptions C26_marshal.

(** The same read as an equivalence. *)
Theorem C26_marshal_iff supports x buf : wf_ha x ->
  ((exists n, snd (marshal_ha supports x buf) = Ok n)
   <-> supports (ha_hash x) = true /\ (ha_marshaled_size x <= length buf)%nat).
Proof. exact (c26_marshal_iff supports x buf). Qed.
Print Assumptions C26_marshal_iff.

(** A failed call leaves everything behind the first two bytes unchanged, and
    the buffer's length never changes. *)
Theorem C26_frame supports x buf : wf_ha x ->
  length (fst (marshal_ha supports x buf)) = length buf
  /\ (snd (marshal_ha supports x buf) = Err tt ->
      skipn 2 (fst (marshal_ha supports x buf)) = skipn 2 buf).
Proof. exact (c26_frame supports x buf). Qed.
Print Assumptions C26_frame.

(** Unmarshalling the wire form followed by anything gives the digest and the
    exact rest, whatever the destination held. *)
Theorem C26_unmarshal supports x self rest : wf_ha x -> supports (ha_hash x) = true ->
  unmarshal_ha supports self (ha_wire x ++ rest) = (x, Ok rest).
Proof. exact (c26_unmarshal supports x self rest). Qed.
Print Assumptions C26_unmarshal.

(** Marshal then unmarshal. *)
Theorem C26_round_trip supports x self buf buf' n rest : wf_ha x ->
  marshal_ha supports x buf = (buf', Ok n) ->
  unmarshal_ha supports self (firstn n buf' ++ rest) = (x, Ok rest).
Proof. exact (c26_round_trip supports x self buf buf' n rest). Qed.
Print Assumptions C26_round_trip.

Example C26_example :
  let only256 h := match h with Sha256 => true | _ => false end in
  let x := HaSha256 (repeat x5a 32) in
  wf_ha x /\ only256 (ha_hash x) = true
  /\ snd (marshal_ha only256 x (repeat x00 40)) = Ok 34%nat
  /\ snd (marshal_ha only256 x (repeat x00 33)) = Err tt
  /\ snd (marshal_ha only256 (HaSha1 (repeat x5a 20)) (repeat x00 40)) = Err tt
  /\ unmarshal_ha only256 (HaSha1 []) (x00 :: x0b :: repeat x5a 32 ++ [x01]) = (x, Ok [x01]).
Proof. exact c26_example. Qed.


(** ** C27 *)
(** Whatever unmarshals is allowed by the limits and is exactly the prefix
    read; on failure the destination keeps its value. *)
Theorem C27_unmarshal_limits supports self buf x rest :
  unmarshal_ha supports self buf = (x, Ok rest) ->
  supports (ha_hash x) = true /\ wf_ha x /\ buf = ha_wire x ++ rest.
Proof. exact (c27_unmarshal_limits supports self buf x rest). Qed.
Print Assumptions C27_unmarshal_limits.

Theorem C27_unmarshal_failure supports self buf :
  (exists x rest, unmarshal_ha supports self buf = (x, Ok rest))
  \/ unmarshal_ha supports self buf = (self, Err tt).
Proof. exact (c27_unmarshal_failure supports self buf). Qed.
Print Assumptions C27_unmarshal_failure.

(** Nothing the limits exclude is marshalled, and such a call writes nothing. *)
Theorem C27_marshal_limits supports x buf :
  supports (ha_hash x) = false -> marshal_ha supports x buf = (buf, Err tt).
Proof. exact (c27_marshal_limits supports x buf). Qed.
Print Assumptions C27_marshal_limits.

Example C27_example :
  unmarshal_ha (fun _ => false) (HaSha1 []) (x00 :: x0b :: repeat x5a 32) = (HaSha1 [], Err tt)
  /\ unmarshal_ha (fun _ => true) (HaSha1 []) (x00 :: x0b :: repeat x5a 31) = (HaSha1 [], Err tt)
  /\ unmarshal_ha (fun _ => true) (HaSha1 []) (x00 :: x27 :: repeat x5a 32) = (HaSha1 [], Err tt).
Proof. exact c27_example. Qed.


(** ** C28 *)
Theorem C28_max_digest_size supports :
  (forall h, supports h = true -> (digest_size h <= max_digest_size supports)%nat)
  /\ ((exists h, supports h = true /\ digest_size h = max_digest_size supports)
      \/ ((forall h, supports h = false) /\ max_digest_size supports = 0%nat)).
Proof. exact (c28_max_digest_size supports). Qed.
Print Assumptions C28_max_digest_size.

Theorem C28_marshaled_size_max supports x :
  supports (ha_hash x) = true -> (ha_marshaled_size x <= ha_marshaled_size_max supports)%nat.
Proof. exact (c28_marshaled_size_max supports x). Qed.
Print Assumptions C28_marshaled_size_max.

(** So a buffer of [marshaled_size_max] bytes is enough for every value the
    limits allow. *)
Theorem C28_buffer_suffices supports x buf :
  wf_ha x -> supports (ha_hash x) = true -> (ha_marshaled_size_max supports <= length buf)%nat ->
  exists n, snd (marshal_ha supports x buf) = Ok n /\ (n <= ha_marshaled_size_max supports)%nat.
Proof. exact (c28_buffer_suffices supports x buf). Qed.
Print Assumptions C28_buffer_suffices.

(** And no byte of it is wasted: it is the two bytes of the identifier and the
    longest digest supported. *)
Theorem C28_no_waste supports :
  (exists h, supports h = true /\ ha_marshaled_size_max supports = (2 + digest_size h)%nat)
  \/ ((forall h, supports h = false) /\ ha_marshaled_size_max supports = 2%nat).
Proof. exact (c28_no_waste supports). Qed.
Print Assumptions C28_no_waste.

Example C28_example :
  max_digest_size (fun h => match h with Sha1 | Sm3_256 => true | _ => false end) = 32%nat
  /\ max_digest_size (fun _ => false) = 0%nat
  /\ ha_marshaled_size_max (fun h => match h with Sha384 | Sha256 => true | _ => false end) = 50%nat.
Proof. exact c28_example. Qed.


(** ** C29 *)
Theorem C29_hash_alg_round_trip h : hash_of_alg (alg_of_hash h) = Ok h.
Proof. exact (c29_hash_alg_round_trip h). Qed.
Print Assumptions C29_hash_alg_round_trip.

(** Conversion from an identifier accepts exactly the eight hash identifiers
    of the registry. *)
Theorem C29_try_from a :
  match hash_of_alg a with
  | Ok h => alg_of_hash h = a
  | Err _ => ~ In a [0x0004; 0x000B; 0x000C; 0x000D; 0x0012; 0x0027; 0x0028; 0x0029]
  | Panic => False
  end.
Proof. exact (c29_try_from a). Qed.
Print Assumptions C29_try_from.

Theorem C29_identifiers :
  map alg_of_hash [Sha1; Sha256; Sha384; Sha512; Sm3_256; Sha3_256; Sha3_384; Sha3_512]
  = [0x0004; 0x000B; 0x000C; 0x000D; 0x0012; 0x0027; 0x0028; 0x0029]
  /\ map digest_size [Sha1; Sha256; Sha384; Sha512; Sm3_256; Sha3_256; Sha3_384; Sha3_512]
     = [20; 32; 48; 64; 32; 32; 48; 64]%nat.
Proof. exact c29_identifiers. Qed.
Print Assumptions C29_identifiers.

(** Integers of every width marshal as their big-endian bytes, use exactly
    their width, and come back; a shorter input or buffer is an error that
    changes nothing. *)
Theorem C29_ints sg k z self buf rest :
  (0 < k)%nat -> in_range sg k z = true ->
  (marshal_int k z buf
   = if (k <=? length buf)%nat then (be_bytes k z ++ skipn k buf, Ok k) else (buf, Err tt))
  /\ unmarshal_int sg k self (be_bytes k z ++ rest) = (z, Ok rest)
  /\ ((length rest < k)%nat -> unmarshal_int sg k self rest = (self, Err tt)).
Proof. exact (c29_ints sg k z self buf rest). Qed.
Print Assumptions C29_ints.

(** Algorithm identifiers and arrays of bytes. *)
Theorem C29_algs a self buf rest : 0 <= a < 2 ^ 16 ->
  (marshal_alg a buf
   = if (2 <=? length buf)%nat then (be_bytes 2 a ++ skipn 2 buf, Ok 2%nat) else (buf, Err tt))
  /\ unmarshal_alg self (be_bytes 2 a ++ rest) = (a, Ok rest)
  /\ ((length rest < 2)%nat -> unmarshal_alg self rest = (self, Err tt)).
Proof. exact (c29_algs a self buf rest). Qed.
Print Assumptions C29_algs.

Theorem C29_bytes d buf :
  marshal_bytes d buf
  = if (length d <=? length buf)%nat then (d ++ skipn (length d) buf, Ok (length d)) else (buf, Err tt).
Proof. exact (c29_bytes d buf). Qed.
Print Assumptions C29_bytes.

(** Hash identifiers as values of their own. *)
Theorem C29_hash_marshal h self buf rest :
  marshal_hash h buf
  = (if (2 <=? length buf)%nat then (be_bytes 2 (alg_of_hash h) ++ skipn 2 buf, Ok 2%nat) else (buf, Err tt))
  /\ unmarshal_hash self (be_bytes 2 (alg_of_hash h) ++ rest) = (h, Ok rest).
Proof. exact (c29_hash_marshal h self buf rest). Qed.
Print Assumptions C29_hash_marshal.

Example C29_example :
  in_range true 4 (-2) = true
  /\ marshal_int 4 (-2) [x00;x00;x00;x00;x07] = ([xff;xff;xff;xfe;x07], Ok 4%nat)
  /\ unmarshal_int true 4 0 [xff;xff;xff;xfe;x07] = (-2, Ok [x07])
  /\ hash_of_alg 0x0010 = Err tt.
Proof. exact c29_example. Qed.
