(** Buffers that are filled in several steps (C110). *)
(* Restates the theorems of FillFacts.v; proofs are there. *)
From Coq Require Import ZArith NArith List Lia Bool.
From Coq Require Import Init.Byte.
From Verif Require Import Prelude Server ServerFacts Helpers HelpersSpec HelpersFacts.
From Verif Require Import FillFacts.
Import ListNotations.
Open Scope Z_scope.

(** ** C110 *)
(** After whole 64-bit words nothing depends on where one call ends and the
    next begins: not the bytes, not the generator, not what is left when it
    fails. *)
Theorem C110_whole_words D (rng : Drbg D) d ai (a b : list byte) :
  (length a mod 8 = 0)%nat -> (a <> [] \/ ai = []) ->
  in_two_steps rng d ai a b = fill_bytes_via_next rng d ai (a ++ b).
Proof. exact (c110_whole_words D rng d ai a b). Qed.
Print Assumptions C110_whole_words.

Theorem C110_many_steps D (rng : Drbg D) (firsts : list (list byte)) (last : list byte) : forall d,
  Forall (fun a => length a mod 8 = 0)%nat firsts ->
  in_steps rng d (firsts ++ [last]) = fill_bytes_via_next rng d [] (concat firsts ++ last).
Proof. exact (c110_many_steps D rng firsts last). Qed.
Print Assumptions C110_many_steps.

(** Anywhere else it does, for every two buffers, also with a generator that
    always gives the same words: the rest of a word is thrown away. *)
Theorem C110_only_whole_words (a b : list byte) :
  b <> [] ->
  ((forall D (rng : Drbg D) d, in_two_steps rng d [] a b = fill_bytes_via_next rng d [] (a ++ b)) <-> (length a mod 8 = 0)%nat).
Proof. exact (c110_only_whole_words a b). Qed.
Print Assumptions C110_only_whole_words.

Example C110_example :
  in_two_steps FakeDrbg 0 [] (repeat xff 8) (repeat xff 5) = fill_bytes_via_next FakeDrbg 0 [] (repeat xff 13)
  /\ snd (fst (in_two_steps FakeDrbg 0 [] (repeat xff 8) (repeat xff 5)))
     = [x01; x02; x03; x04; x05; x06; x07; x08; x09; x0a; x0b; x0c; x0d]
  /\ snd (fst (in_two_steps FakeDrbg 0 [] (repeat xff 3) (repeat xff 4))) = [x01; x02; x03; x05; x06; x07; x08]
  /\ snd (fst (fill_bytes_via_next FakeDrbg 0 [] (repeat xff 7))) = [x01; x02; x03; x04; x05; x06; x07].
Proof. exact c110_example. Qed.
