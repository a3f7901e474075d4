(** Properties of the DRBG helpers (C50). *)
(* Restates the theorems of HelpersFacts.v; proofs are there. *)
From Coq Require Import ZArith NArith List Lia Bool.
From Coq Require Import Init.Byte.
From Verif Require Import Prelude Server ServerSpec ServerFacts Helpers HelpersSpec.
From Verif Require Import HelpersFacts.
Import ListNotations.
Open Scope Z_scope.

(** ** C50 *)
Theorem C50_fill D (rng : Drbg D) (dest : list byte) : forall d ai,
  fill_bytes_via_next rng d ai dest
  = let '(d', bs, r) := ask_all rng d ai (words_for (length dest)) in
    (d', overwrite (firstn (length dest) bs) dest, r).
Proof. exact (c50_fill D rng dest). Qed.
Print Assumptions C50_fill.

(** On success every byte of the destination is new. *)
Theorem C50_fill_all D (rng : Drbg D) d ai (dest : list byte) d' out :
  fill_bytes_via_next rng d ai dest = (d', out, Ok tt) ->
  exists bs, ask_all rng d ai (words_for (length dest)) = (d', bs, Ok tt)
    /\ (length dest <= length bs)%nat /\ out = firstn (length dest) bs.
Proof. exact (c50_fill_all D rng d ai dest d' out). Qed.
Print Assumptions C50_fill_all.

(** A word got through [fill_bytes] is the little-endian value of the four
    (eight) bytes filled, and fails exactly when filling does. *)
Theorem C50_words_via_fill D (rng : Drbg D) d ai :
  wf_drbg rng ->
  (forall k next, (k, next) = (4%nat, next_u32_via_fill rng d ai) \/ (k, next) = (8%nat, next_u64_via_fill rng d ai) ->
   let '(d', out, r) := fill_bytes rng d ai (repeat x00 k) in
   fst next = d'
   /\ match snd next, r with
      | Ok z, Ok _ => le_bytes k z = out
      | Err e, Err e' => e = e'
      | Panic, Panic => True
      | _, _ => False
      end).
Proof. exact (c50_words_via_fill D rng d ai). Qed.
Print Assumptions C50_words_via_fill.

(** A 64-bit word made of two 32-bit words has the bytes of the first, then of
    the second. *)
Theorem C50_u64_via_u32 D (rng : Drbg D) d ai :
  wf_words rng ->
  let '(d', r) := next_u64_via_u32 rng d ai in
  let '(d2, bs, r2) := ask_all rng d ai [U32; U32] in
  d' = d2
  /\ match r, r2 with
     | Ok z, Ok _ => 0 <= z < 2 ^ 64 /\ le_bytes 8 z = bs
     | Err e, Err e' => e = e'
     | Panic, Panic => True
     | _, _ => False
     end.
Proof. exact (c50_u64_via_u32 D rng d ai). Qed.
Print Assumptions C50_u64_via_u32.

(** The helpers are inverse to each other: words got by filling via words are
    the words themselves. *)
Theorem C50_inverse D (rng : Drbg D) d ai :
  wf_words rng ->
  next_u32_via_fill (with_fill_via_next rng) d ai = next_u32 rng d ai
  /\ next_u64_via_fill (with_fill_via_next rng) d ai = next_u64 rng d ai.
Proof. exact (c50_inverse D rng d ai). Qed.
Print Assumptions C50_inverse.

(** And the other way round: a generator that gets its words by filling gives
    proper words, and filling four or eight bytes via these words is filling
    them. *)
Theorem C50_inverse_fill D (rng : Drbg D) :
  wf_drbg rng -> ignores_contents rng ->
  wf_words (with_words_via_fill rng)
  /\ forall d ai dest, length dest = 4%nat \/ length dest = 8%nat ->
     let '(d1, out1, r1) := fill_bytes_via_next (with_words_via_fill rng) d ai dest in
     let '(d2, out2, r2) := fill_bytes rng d ai dest in
     d1 = d2 /\ r1 = r2 /\ (r1 = Ok tt -> out1 = out2).
Proof. exact (c50_inverse_fill D rng). Qed.
Print Assumptions C50_inverse_fill.

(** A generator built with the helper meets what the server relies on. *)
Theorem C50_fits_server D (rng : Drbg D) :
  wf_drbg (with_fill_via_next rng)
  /\ ((forall d seed, snd (reseed rng d seed []) = Ok tt)
      -> (forall d ai, exists z, snd (next_u32 rng d ai) = Ok z)
      -> (forall d ai, exists z, snd (next_u64 rng d ai) = Ok z)
      -> never_fails (with_fill_via_next rng) /\ ignores_contents (with_fill_via_next rng)).
Proof. exact (c50_fits_server D rng). Qed.
Print Assumptions C50_fits_server.

(** The helpers replace what they stand for and nothing else: a generator that
    fills with the helper has the same words, so filling from them gives the same;
    one that gets words with the helpers serves as before; and both start as before. *)
Theorem C50_nothing_else D X (rng : Drbg D) (es : EntropySource X) :
  (forall d ai dest, fill_bytes (with_fill_via_next rng) d ai dest = fill_bytes_via_next (with_fill_via_next rng) d ai dest)
  /\ new (with_fill_via_next rng) es = new rng es
  /\ new (with_words_via_fill rng) es = new rng es
  /\ (forall c k, serve (with_words_via_fill rng) es c k = serve rng es c k)
  /\ (forall d ai, next_u32 (with_words_via_fill rng) d ai = next_u32_via_fill (with_words_via_fill rng) d ai
                   /\ next_u64 (with_words_via_fill rng) d ai = next_u64_via_fill (with_words_via_fill rng) d ai).
Proof. exact (c50_nothing_else D X rng es). Qed.
Print Assumptions C50_nothing_else.

(** The counter of the tests, filled via words: 8 + 4 bytes for a request of
    twelve; 8 + 8 for thirteen. *)
Example C50_example :
  wf_words FakeDrbg
  /\ fill_bytes_via_next FakeDrbg 0 [] (repeat xff 12)
     = (12, [x01; x02; x03; x04; x05; x06; x07; x08; x09; x0a; x0b; x0c], Ok tt)
  /\ words_for 12 = [U64; U32] /\ words_for 13 = [U64; U64] /\ words_for 16 = [U64; U64]
  /\ fill_bytes_via_next FakeDrbg 0 [] (repeat xff 13)
     = (16, [x01; x02; x03; x04; x05; x06; x07; x08; x09; x0a; x0b; x0c; x0d], Ok tt)
  /\ next_u64_via_u32 FakeDrbg 0 [] = (8, Ok 0x0807060504030201)
  /\ wf_drbg FakeDrbg /\ ignores_contents FakeDrbg
  /\ fill_bytes_via_next (with_words_via_fill FakeDrbg) 0 [] (repeat xff 8) = (8, [x01; x02; x03; x04; x05; x06; x07; x08], Ok tt).
Proof. exact c50_example. Qed.
