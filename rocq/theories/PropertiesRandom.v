(** How many random bytes the server hands out (C83). *)
(* Restates the theorems of RandomFacts.v; proofs are there. *)
From Coq Require Import ZArith NArith List Lia Bool.
From Coq Require Import Init.Byte.
From Verif Require Import Prelude Errors Server ServerSpec ServerProofs ServerFacts.
From Verif Require Import RandomFacts.
Import ListNotations.
Open Scope Z_scope.

(** ** C83 *)
(** A success response has exactly as many bytes behind its header as were
    asked for.  So a request for at most the 64 bytes of the largest digest is
    answered as TPM 2.0 Part 3, 16.1.1, says, a longer one is not. *)
Theorem C83_number_partial D X (dr : Drbg D) (es : EntropySource X) c k n c' resp m :
  wf_drbg dr -> asks_for (request_of k) n -> serve dr es c k = (c', resp, Ok m) ->
  is_success (firstn m resp) = true ->
  Z.of_nat (length (skipn 10 (firstn m resp))) = n.
Proof. exact (c83_number_partial D X dr es c k n c' resp m). Qed.
Print Assumptions C83_number_partial.

(** Nor is there ever a response with a digest's worth of bytes to a longer
    request: more of them come, or the error TPM_RC_MEMORY. *)
Theorem C83_longer_partial D X (dr : Drbg D) (es : EntropySource X) c k n :
  wf_drbg dr -> never_fails dr -> asks_for (request_of k) n -> 64 < n ->
  exists c' resp m, serve dr es c k = (c', resp, Ok m)
  /\ ((is_success (firstn m resp) = true /\ Z.of_nat (length (skipn 10 (firstn m resp))) > 64)
      \/ (c' = c /\ resp = error_response (buffer_of k) 0x904 /\ m = error_size (buffer_of k))).
Proof. exact (c83_longer_partial D X dr es c k n). Qed.
Print Assumptions C83_longer_partial.

(** A request for 100 bytes: 100 come if there is room, else an error; with
    64 asked for and no more room than that all is well. *)
Theorem C83_refuted :
  asks_for get100 100
  /\ (exists c' resp, serve FakeDrbg FakeEntropy fake (Separate get100 (repeat x00 200)) = (c', resp, Ok 110%nat)
      /\ is_success (firstn 110 resp) = true)
  /\ serve FakeDrbg FakeEntropy fake (Separate get100 (repeat x00 100))
     = (fake, repeat x00 8 ++ [x09; x04] ++ repeat x00 90, Ok 10%nat).
Proof. exact c83_refuted. Qed.
Print Assumptions C83_refuted.

Example C83_example :
  asks_for get64 64
  /\ (exists c' resp, serve FakeDrbg FakeEntropy fake (Separate get64 (repeat x00 74)) = (c', resp, Ok 74%nat)
      /\ is_success (firstn 74 resp) = true
      /\ skipn 10 (firstn 74 resp) = count_up 0 64).
Proof. exact c83_example. Qed.
