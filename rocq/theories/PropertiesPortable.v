(** The code on targets whose [usize] does not have 64 bits (C90). *)
(* Restates the theorems of PortableFacts.v; proofs are there. *)
From Coq Require Import String ZArith NArith List Lia Bool.
From Coq Require Import Init.Byte.
From Verif Require Import Prelude Types Marshal WireSpec MarshalProofs Layout Catalogue Samples MarshalFacts
  Errors Attrs Tpm2b Client ClientSpec ClientProofs Server ServerSpec ServerProofs ServerFacts Portable.
From Verif Require Import PortableFacts.
Import ListNotations.
Open Scope Z_scope.

(** ** C90 *)
(** A [usize] of 32 bits or any more makes no difference to the encoding and
    decoding of any library type. *)
Theorem C90_codec w t : 32 <= w -> In t base_types ->
  (forall buf, unmarshal_at w t buf = unmarshal t buf)
  /\ (forall v buf, representable t v = true -> marshal_at w t v buf = marshal t v buf).
Proof. exact (c90_codec w t). Qed.
Print Assumptions C90_codec.

(** The same for any type whose length fields fit: this is what a type from
    outside the library has to observe. *)
Theorem C90_codec_any w t : 0 <= w -> wf_ty t = true -> lengths_fit w t = true ->
  (forall buf, unmarshal_at w t buf = unmarshal t buf)
  /\ (forall v buf, representable t v = true -> marshal_at w t v buf = marshal t v buf).
Proof. exact (c90_codec_any w t). Qed.
Print Assumptions C90_codec_any.

(** Nor to what a call of the client sends, does to the connection and returns. *)
Theorem C90_client w {S E} (from_tss : Z -> E) (tpm : connection S E) s c cmd handles a :
  32 <= w -> wf_command c ->
  lengths_fit w (cmd_ty c) = true -> lengths_fit w (handles_ty c) = true ->
  lengths_fit w (resp_ty c) = true -> lengths_fit w (resp_handles_ty c) = true ->
  representable (cmd_ty c) cmd = true -> representable (handles_ty c) handles = true ->
  run_command_with_handles_at w from_tss tpm s c cmd handles a
  = run_command_with_handles from_tss tpm s c cmd handles a.
Proof. exact (c90_client w (S := S) (E := E) from_tss tpm s c cmd handles a). Qed.
Print Assumptions C90_client.

(** Nor to what the command processor does, with and without overflow checks. *)
Theorem C90_server w checks {D X} (dr : Drbg D) (es : EntropySource X) c k :
  32 <= w -> serve_at w checks dr es c k = serve dr es c k.
Proof. exact (c90_server w checks (D := D) (X := X) dr es c k). Qed.
Print Assumptions C90_server.

(** With 16 bits it would: a count of 65537 is taken for 1; a request whose
    header states 65548 bytes is taken for one of the 12 that it has; and adding
    up the size of a random number overflows: a panic, or without overflow checks
    the refusal that it should be. *)
Theorem C90_sixteen_bits :
  (exists buf v, unmarshal TpmlHandle buf = (Err ArrayLengthExceeded, skipn 4 buf)
      /\ unmarshal_at 16 TpmlHandle buf = (Ok v, []))
  /\ (exists request resp, snd (serve FakeDrbg FakeEntropy fake (Separate request resp)) = Ok 10%nat
      /\ is_success (snd (fst (serve FakeDrbg FakeEntropy fake (Separate request resp)))) = false
      /\ is_success (snd (fst (serve_at 16 false FakeDrbg FakeEntropy fake (Separate request resp)))) = true)
  /\ (exists request resp, snd (serve FakeDrbg FakeEntropy fake (Separate request resp)) = Ok 10%nat
      /\ snd (serve_at 16 true FakeDrbg FakeEntropy fake (Separate request resp)) = Panic
      /\ serve_at 16 false FakeDrbg FakeEntropy fake (Separate request resp)
         = serve FakeDrbg FakeEntropy fake (Separate request resp)).
Proof. exact c90_sixteen_bits. Qed.
Print Assumptions C90_sixteen_bits.

(** The library's commands meet the hypotheses, and the length of a list is used. *)
Example C90_example :
  Forall (fun c => wf_command c /\ lengths_fit 32 (cmd_ty c) = true /\ lengths_fit 32 (handles_ty c) = true
     /\ lengths_fit 32 (resp_ty c) = true /\ lengths_fit 32 (resp_handles_ty c) = true) library_commands
  /\ In TpmlHandle base_types /\ lengths_fit 16 TpmlHandle = false
  /\ fst (unmarshal_at 32 TpmlHandle [x00; x01; x00; x01; x80; x00; x00; x00]) = Err ArrayLengthExceeded
  /\ serve_at 32 true FakeDrbg FakeEntropy fake (Separate get12 (repeat x00 22))
     = serve FakeDrbg FakeEntropy fake (Separate get12 (repeat x00 22)).
Proof. exact c90_example. Qed.
