(** Properties of client and server together (C49, C52). *)
(* Restates the theorems of EndToEndFacts.v; proofs are there. *)
From Coq Require Import String ZArith NArith List Lia Bool.
From Coq Require Import Init.Byte.
From Verif Require Import Prelude Types Marshal WireSpec MarshalProofs MarshalFacts Catalogue Errors Tpm2b Client
  ClientSpec ClientProofs ClientFacts Server ServerSpec ServerProofs ServerFacts EndToEnd.
From Verif Require Import EndToEndFacts.
Import ListNotations.
Open Scope Z_scope.

(** ** C52 *)
(** Any command but GetRandom comes back as TPM_RC_COMMAND_CODE, and the
    server is as it was. *)
Theorem C52_unsupported D X E (from_tss : Z -> E) (dr : Drbg D) (es : EntropySource X) tpm ctx
    c cmd handles a :
  wf_drbg dr -> to_server dr es tpm ->
  valid_call c cmd handles a -> fits (command_frame c cmd handles a) ->
  code c <> 0x17B ->
  run_command_with_handles from_tss tpm ctx c cmd handles a = (ctx, Err (from_tss 0x143)).
Proof. exact (c52_unsupported D X E from_tss dr es tpm ctx c cmd handles a). Qed.
Print Assumptions C52_unsupported.

(** In particular the three others the library has. *)
Theorem C52_library D X E (from_tss : Z -> E) (dr : Drbg D) (es : EntropySource X) tpm ctx c cmd :
  wf_drbg dr -> to_server dr es tpm ->
  In c [GetCapability; PcrRead; Startup] -> wf (cmd_ty c) cmd = true ->
  run_command from_tss tpm ctx c cmd = (ctx, Err (from_tss 0x143)).
Proof. exact (c52_library D X E from_tss dr es tpm ctx c cmd). Qed.
Print Assumptions C52_library.

(** Startup(CLEAR) to the server with the test generator. *)
Example C52_example :
  wf (cmd_ty Startup) (VStruct [VStruct [VInt 0]]) = true
  /\ run_command id (direct FakeDrbg FakeEntropy) fake Startup (VStruct [VStruct [VInt 0]]) = (fake, Err 0x143)
  /\ run_command id (in_place FakeDrbg FakeEntropy) fake Startup (VStruct [VStruct [VInt 0]]) = (fake, Err 0x143).
Proof. exact c52_example. Qed.


(** ** C49 *)
(** What the client makes of the server's answer to GetRandom for [n] bytes: if
    it takes it at all, the bytes drawn are read as a sized buffer, and what
    the caller gets is two bytes short. *)
Theorem C49_two_short_partial D X E (from_tss : Z -> E) (dr : Drbg D) (es : EntropySource X)
    (tpm : connection (context D X) E) ctx n ctx' resp :
  wf_drbg dr -> to_server dr es tpm -> 0 <= n < 65536 ->
  run_command from_tss tpm ctx GetRandom (VStruct [VInt n]) = (ctx', Ok resp) ->
  exists digest bytes dest out,
    resp = VStruct [digest] /\ get_buffer digest = Ok bytes
    /\ draws dr es ctx dest ctx' out
    /\ out = be_bytes 2 (n - 2) ++ bytes
    /\ Z.of_nat (length bytes) = n - 2.
Proof. exact (c49_two_short_partial D X E from_tss dr es tpm ctx n ctx' resp). Qed.
Print Assumptions C49_two_short_partial.

(** Exactly what the caller gets, for every number of bytes and every output of
    the generator: at most one of the 65536 beginnings of the output is taken,
    and every number above 4086 is refused. *)
Theorem C49_exactly_partial D X E (from_tss : Z -> E) (dr : Drbg D) (es : EntropySource X)
    (tpm : connection (context D X) E) ctx n dest ctx' out :
  wf_drbg dr -> ignores_contents dr -> to_server dr es tpm -> 0 <= n < 65536 -> Z.of_nat (length dest) = n ->
  draws dr es ctx dest ctx' out ->
  run_command from_tss tpm ctx GetRandom (VStruct [VInt n])
  = if n <=? 4086 then (ctx', omap_err from_tss (taken_for_digest out)) else (ctx, Err (from_tss 0x904)).
Proof. exact (c49_exactly_partial D X E from_tss dr es tpm ctx n dest ctx' out). Qed.
Print Assumptions C49_exactly_partial.

(** So no caller ever gets the number of bytes they asked for; with the test
    generator the client reports an error for the server's good answer. *)
Theorem C49_refuted :
  exists n, 0 < n /\
  (exists ctx', serve FakeDrbg FakeEntropy fake (Separate get12 empty_buffer)
     = (ctx', random_response empty_buffer (count_up 0 (Z.to_nat n)), Ok (Z.to_nat (10 + n))))
  /\ snd (run_command id (direct FakeDrbg FakeEntropy) fake GetRandom (VStruct [VInt n])) = Err 0x904.
Proof. exact c49_refuted. Qed.
Print Assumptions C49_refuted.

Example C49_example :
  wf_drbg LuckyDrbg /\ ignores_contents LuckyDrbg
  /\ draws LuckyDrbg FakeEntropy fake (repeat x00 12) fake ([x00; x0a] ++ repeat xab 10)
  /\ taken_for_digest ([x00; x0a] ++ repeat xab 10) = Ok (VStruct [VTpm2b 10 (repeat xab 10 ++ repeat x00 54)])
  /\ taken_for_digest ([x00; x0a] ++ repeat xab 11) = Err 0x2010
  /\ taken_for_digest ([x00; x0a] ++ repeat xab 9) = Err 0x904
  /\ run_command id (direct LuckyDrbg FakeEntropy) fake GetRandom (VStruct [VInt 12])
     = (fake, Ok (VStruct [VTpm2b 10 (repeat xab 10 ++ repeat x00 54)]))
  /\ run_command id (direct LuckyDrbg FakeEntropy) fake GetRandom (VStruct [VInt 13]) = (fake, Err 0x2010)
  /\ run_command id (direct LuckyDrbg FakeEntropy) fake GetRandom (VStruct [VInt 4087]) = (fake, Err 0x904).
Proof. exact c49_example. Qed.
