(** Properties of the results of calls on the simulator connection (C95): a
    call succeeds exactly when its conversation took place in full, and how a
    command ended can be read off the bytes exchanged. *)
(* Restates the theorems of OutcomeFacts.v; proofs are there. *)
From Coq Require Import String ZArith NArith List Lia Bool.
From Coq Require Import Init.Byte.
From Verif Require Import Prelude Client ClientSpec Tcp TcpSpec TcpProofs SimulatorProofs TcpFacts.
From Verif Require Import OutcomeFacts.
Import ListNotations.
Open Scope Z_scope.

(** ** C95 *)
(** Against every peer and system: a call succeeds with an answer if and only
    if the conversation that the protocol has for this call and this answer
    took place, to the last byte. *)
Theorem C95_calls : forall (W H C : Type) (sys : world W H C) (c c' : tcp H) o (w w' : W) (l seen : list (event H C)) r a,
  wf_world sys ->
  perform (watched sys) c o (w, l) = (c', (w', l ++ seen), r) ->
  (r = Ok a <-> answers o a /\ seen = conversation c o a).
Proof. exact c95_calls. Qed.
Print Assumptions C95_calls.

Example C95_calls_case :
  let os := [Transact get_random_cmd (repeat x55 16); Hcrtm [x01; x02]; Handshake 1; AlternativeResult 5; Signal PowerOn; Reinit;
             FailureMode; ResponseSizes; ActSignaled 3; FirmwareHash 7; FirmwareSvn 8; Locality 4; EndSession; StopSimulator] in
  let ans := [Payload random_rsp; Done; Versions 1 2; Done; Done; Done; Done; Sizes 1 2 3 4; Number 9; Done; Done; Done; Done; Done] in
  forallb (fun '(o, a) =>
    match perform (watched (pipe byte_by_byte)) (ends 3) o (in_store (@conversation bool unit (ends 3) o a) ([], []), []) with
    | (_, (_, seen), Ok _) => (length seen =? length (@conversation bool unit (ends 3) o a))%nat
    | _ => false
    end) (combine os ans) = true.
Proof. exact c95_calls_case. Qed.

(** Every command, against every peer, ends in one of these ways. *)
Theorem C95_ended : forall (W H C : Type) (sys : world W H C) (c : tcp H) (w : W) (l : list (event H C)) command response,
  quiet_world sys ->
  exists w' seen response' r,
    tcp_transact (watched sys) c (w, l) command response = ((w', l ++ seen), response', r)
    /\ ended sys c command response seen response' r.
Proof. exact c95_ended. Qed.
Print Assumptions C95_ended.

Example C95_ended_cases :
  let run stored response := tcp_transact (pipe byte_by_byte) (ends 0) (stored, []) get_random_cmd response in
  run [x00; x00] [x55; x55] = (([], []), [x55; x55], Err UnexpectedEof)                                        (* NoLength *)
  /\ run [x00; x00; x00; x03; x01] [x55; x55] = (([x01], []), [x55; x55], Err InvalidInput)                    (* TooBig *)
  /\ run [x00; x00; x00; x02; x01] [x55; x55] = (([], []), [x01; x55], Err UnexpectedEof)                      (* BrokenOff *)
  /\ run [x00; x00; x00; x01; x01; x00] [x55; x55] = (([], []), [x01; x55], Err UnexpectedEof)                 (* NoAcknowledgement *)
  /\ run [x00; x00; x00; x01; x01; x00; x00; x00; x07] [x55; x55] = (([], []), [x01; x55], Err InvalidData)    (* WrongAcknowledgement *)
  /\ run [x00; x00; x00; x01; x01; x00; x00; x00; x00] [x55; x55] = (([], []), [x01; x55], Ok 1%nat).          (* Complete *)
Proof. exact c95_ended_cases. Qed.

(** A response that carries an error of the TPM is returned like any other:
    whatever the tag, the response code and what follows them. *)
Theorem C95_error_codes : forall pieces l command response tag size code more w,
  Z.of_nat (length command) < 2 ^ 32 ->
  let rsp := be_bytes 2 tag ++ u32be size ++ u32be code ++ more in
  (length rsp <= length response)%nat -> Z.of_nat (length rsp) < 2 ^ 32 ->
  perform (pipe pieces) (ends l) (Transact command response) (response_frame rsp ++ fst w, snd w)
  = (ends l, w, Ok (Payload rsp)).
Proof. exact c95_error_codes. Qed.
Print Assumptions C95_error_codes.

Example C95_error_codes_case :   (* TPM_RC_FAILURE *)
  let rsp := [x80; x01; x00; x00; x00; x0a; x00; x00; x01; x01] in
  perform (pipe byte_by_byte) (ends 0) (Transact get_random_cmd (repeat x00 12)) (response_frame rsp, [])
  = (ends 0, ([], []), Ok (Payload rsp)).
Proof. exact c95_error_codes_case. Qed.

(** The documentation says that an error is only returned when no response
    could be got at all.  That is false: here the whole response was received,
    is in the buffer, and the call fails. *)
Theorem C95_no_response_refuted :
  ~ (forall (W H C : Type) (sys : world W H C) (c : tcp H) (w w' : W) (l l' : list (event H C)) command response response' e,
       quiet_world sys ->
       tcp_transact (watched sys) c (w, l) command response = ((w', l'), response', Err e) ->
       ~ exists payload rest,
           (length payload <= length response)%nat
           /\ l' = l ++ send (tpm_tcp c) (command_frame c command)
                     ++ receive (tpm_tcp c) (u32be (Z.of_nat (length payload)) ++ payload) ++ rest).
Proof. exact c95_no_response_refuted. Qed.
Print Assumptions C95_no_response_refuted.
