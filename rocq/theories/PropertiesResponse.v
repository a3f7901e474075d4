(** What the client does not look at in a response: which tag it has, and the
    parameter size (C82). *)
(* Restates the theorems of ResponseFacts.v; proofs are there. *)
From Coq Require Import String ZArith NArith List Lia Bool.
From Coq Require Import Init.Byte.
From Verif Require Import Prelude Types Marshal WireSpec MarshalProofs MarshalFacts Layout Catalogue
  Samples Errors Attrs Tpm2b Tpm2bFacts Client ClientSpec ClientProofs ClientFacts.
From Verif Require Import ResponseFacts.
Import ListNotations.
Open Scope Z_scope.

(** ** C82 *)
(** Responses as specified are accepted, with the values in them. *)
Theorem C82_specified S E (from_tss : Z -> E) (tpm : connection S E) s c cmd handles a s' n
    tag psize resp rh auths ignored :
  valid_call c cmd handles a -> wf_connection tpm -> fits (command_frame c cmd handles a) ->
  as_specified c a tag psize resp -> Z.of_nat (length (enc (resp_ty c) resp)) < 2 ^ 32 ->
  wf (resp_ty c) resp = true -> canonical (resp_ty c) resp ->
  wf (resp_handles_ty c) rh = true -> canonical (resp_handles_ty c) rh ->
  Forall2 accepted (sessions_of a) auths ->
  let body := response_body c tag psize resp rh auths in
  transact tpm s (command_frame c cmd handles a) empty_buffer
    = (s', response_frame tag (10 + Z.of_nat (length body)) 0 (body ++ ignored), Ok n) ->
  run_command_with_handles from_tss tpm s c cmd handles a = (s', Ok (resp, rh)).
Proof. exact (c82_specified S E from_tss tpm s c cmd handles a s' n tag psize resp rh auths ignored). Qed.
Print Assumptions C82_specified.

(** But the value of the parameter size makes no difference: two responses that
    differ in nothing else have the same result, whatever the rest of them. *)
Theorem C82_parameter_size_partial S E (from_tss : Z -> E) (tpm1 tpm2 : connection S E) s c cmd handles a
    s1 s2 n1 n2 size rc rh p1 p2 rest :
  valid_call c cmd handles a -> fits (command_frame c cmd handles a) ->
  header_ok 0x8002 size rc -> wf (resp_handles_ty c) rh = true ->
  let response p := response_frame 0x8002 size rc (enc (resp_handles_ty c) rh ++ be_bytes 4 p ++ rest) in
  transact tpm1 s (command_frame c cmd handles a) empty_buffer = (s1, response p1, Ok n1) ->
  transact tpm2 s (command_frame c cmd handles a) empty_buffer = (s2, response p2, Ok n2) ->
  snd (run_command_with_handles from_tss tpm1 s c cmd handles a)
  = snd (run_command_with_handles from_tss tpm2 s c cmd handles a).
Proof. exact (c82_parameter_size_partial S E from_tss tpm1 tpm2 s c cmd handles a s1 s2 n1 n2 size rc rh p1 p2 rest). Qed.
Print Assumptions C82_parameter_size_partial.

(** And all tags but TPM_ST_SESSIONS are the same, whether the command had
    sessions or not. *)
Theorem C82_tag_partial S E (from_tss : Z -> E) (tpm1 tpm2 : connection S E) s c cmd handles a
    s1 s2 n1 n2 tag1 tag2 size rc rest :
  valid_call c cmd handles a -> fits (command_frame c cmd handles a) ->
  header_ok tag1 size rc -> header_ok tag2 size rc -> tag1 <> 0x8002 -> tag2 <> 0x8002 ->
  transact tpm1 s (command_frame c cmd handles a) empty_buffer = (s1, response_frame tag1 size rc rest, Ok n1) ->
  transact tpm2 s (command_frame c cmd handles a) empty_buffer = (s2, response_frame tag2 size rc rest, Ok n2) ->
  snd (run_command_with_handles from_tss tpm1 s c cmd handles a)
  = snd (run_command_with_handles from_tss tpm2 s c cmd handles a).
Proof. exact (c82_tag_partial S E from_tss tpm1 tpm2 s c cmd handles a s1 s2 n1 n2 tag1 tag2 size rc rest). Qed.
Print Assumptions C82_tag_partial.

(** So a response with any other tag and one with a parameter size of four
    billion are accepted, for a command with a session and for one without. *)
Theorem C82_refuted :
  exists a resp rh,
    sessions_of a <> [] /\ wf_area a
    /\ (exists psize bytes, ~ as_specified GetRandom a 0x8002 psize resp
        /\ bytes = response_frame 0x8002 23 0 (response_body GetRandom 0x8002 psize resp rh [VStruct [v2b 64 []; vi 1; v2b 64 []]])
        /\ run_command_with_handles id (canned bytes) tt GetRandom (VStruct [VInt 2]) VUnit a = (tt, Ok (resp, rh)))
    /\ (exists tag bytes, ~ as_specified GetRandom a tag 4 resp
        /\ bytes = response_frame tag 19 0 (response_body GetRandom tag 4 resp rh [VStruct [v2b 64 []; vi 1; v2b 64 []]])
        /\ run_command_with_handles id (canned bytes) tt GetRandom (VStruct [VInt 2]) VUnit a = (tt, Ok (resp, rh)))
    /\ (exists tag bytes, ~ as_specified GetRandom area0 tag 0 resp
        /\ bytes = response_frame tag 14 0 (response_body GetRandom tag 0 resp rh [])
        /\ run_command_with_handles id (canned bytes) tt GetRandom (VStruct [VInt 2]) VUnit area0 = (tt, Ok (resp, rh))).
Proof. exact c82_refuted. Qed.
Print Assumptions C82_refuted.

Example C82_example :
  let a := area1 (password_session (v2b 64 [x01; x02])) in
  let resp := VStruct [v2b 64 [xca; xfe]] in
  as_specified GetRandom a 0x8002 4 resp /\ as_specified GetRandom area0 0x8001 0 resp
  /\ run_command_with_handles id (canned (response_frame 0x8002 23 0
       (response_body GetRandom 0x8002 4 resp VUnit [VStruct [v2b 64 []; vi 1; v2b 64 []]]))) tt
       GetRandom (VStruct [VInt 2]) VUnit a = (tt, Ok (resp, VUnit))
  /\ run_command_with_handles id (canned (response_frame 0x8001 14 0
       (response_body GetRandom 0x8001 0 resp VUnit []))) tt
       GetRandom (VStruct [VInt 2]) VUnit area0 = (tt, Ok (resp, VUnit)).
Proof. exact c82_example. Qed.
