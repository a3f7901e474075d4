(** A server that answers every request into the same buffer (C86). *)
(* Restates the theorems of ReuseFacts.v; proofs are there. *)
From Coq Require Import ZArith NArith List Lia Bool.
From Coq Require Import Init.Byte.
From Verif Require Import Prelude Errors Server ServerSpec ServerProofs ServerFacts.
From Verif Require Import ReuseFacts.
Import ListNotations.
Open Scope Z_scope.

(** ** C86 *)
(** Every answer is the one a buffer nobody used before would have got, but for
    tag and size of an error response: nothing else of what was there before
    comes through. *)
Theorem C86_fresh D X (dr : Drbg D) (es : EntropySource X) h requests : forall c buffer fresh,
  wf_drbg dr -> ignores_contents dr ->
  Forall (fits h buffer) requests ->
  length fresh = length requests -> Forall (fun b => length b = length buffer) fresh ->
  let '(c1, answers1, ok1) := reuse dr es h c buffer requests in
  let '(c2, answers2, ok2) := serve_all dr es c (map (fun p => delivered h (fst p) (snd p)) (combine requests fresh)) in
  c1 = c2 /\ ok1 = ok2 /\ Forall2 alike answers1 answers2.
Proof. exact (c86_fresh D X dr es h requests). Qed.
Print Assumptions C86_fresh.

Theorem C86_front D X (dr : Drbg D) (es : EntropySource X) h requests : forall c buffer c' answers ok i q a,
  wf_drbg dr -> Forall (fits h buffer) requests ->
  reuse dr es h c buffer requests = (c', answers, ok) ->
  nth_error requests i = Some q -> nth_error answers i = Some a ->
  if is_success a
  then firstn 6 a = be_bytes 2 0x8001 ++ be_bytes 4 (Z.of_nat (length a))
  else a = [] \/ (length a = 10%nat
                  /\ firstn 6 a = put_in_front h q (front_of h (firstn 6 buffer) (firstn i requests) (firstn i answers))).
Proof. exact (c86_front D X dr es h requests). Qed.
Print Assumptions C86_front.

(** Random bytes for one caller, then an error for another: the second answer
    has the tag and size of the first. *)
Example C86_example :
  wf_drbg FakeDrbg /\ ignores_contents FakeDrbg
  /\ Forall (fits OneBuffer (repeat xff 24)) [get12; []; [x80; x01]]
  /\ reuse FakeDrbg FakeEntropy TwoBuffers fake (repeat xff 24) [[]; get12; []]
     = ({| drbg := 12; entropy := tt |},
        [repeat xff 6 ++ [x00; x00; x01; x42];
         [x80; x01; x00; x00; x00; x16; x00; x00; x00; x00; x01; x02; x03; x04; x05; x06; x07; x08; x09; x0a; x0b; x0c];
         [x80; x01; x00; x00; x00; x16; x00; x00; x01; x42]], true)
  /\ reuse FakeDrbg FakeEntropy OneBuffer fake (repeat xff 24) [get12; []; [x00; x02; xaa]]
     = ({| drbg := 12; entropy := tt |},
        [[x80; x01; x00; x00; x00; x16; x00; x00; x00; x00; x01; x02; x03; x04; x05; x06; x07; x08; x09; x0a; x0b; x0c];
         [x80; x01; x00; x00; x00; x16; x00; x00; x01; x42];
         [x00; x02; xaa; x00; x00; x16; x00; x00; x01; x42]], true).
Proof. exact c86_example. Qed.
