(** Which bytes of the response buffer the client decodes (C35). *)
(* Restates the theorems of ReportedFacts.v; proofs are there. *)
From Coq Require Import String ZArith NArith List Lia Bool.
From Coq Require Import Init.Byte.
From Verif Require Import Prelude Types Marshal WireSpec MarshalProofs MarshalFacts Catalogue Samples Errors
  Client ClientSpec ClientProofs ClientFacts Tcp TcpSpec SimulatorProofs.
From Verif Require Import ReportedFacts.
Import ListNotations.
Open Scope Z_scope.

(** ** C35 *)
(** What the result depends on, whatever is reported: the ten bytes of the
    header and, if the response code is zero, as many bytes as the size field
    says.  The numbers of bytes that the connections report do not matter. *)
Theorem C35_decoded_partial S1 S2 E (from_tss : Z -> E)
    (tpm1 : connection S1 E) (tpm2 : connection S2 E) s1 s2 c cmd handles a s1' s2' rsp1 rsp2 n1 n2 :
  valid_call c cmd handles a -> fits (command_frame c cmd handles a) ->
  wf_connection tpm1 -> wf_connection tpm2 ->
  transact tpm1 s1 (command_frame c cmd handles a) empty_buffer = (s1', rsp1, Ok n1) ->
  transact tpm2 s2 (command_frame c cmd handles a) empty_buffer = (s2', rsp2, Ok n2) ->
  firstn 10 rsp1 = firstn 10 rsp2 ->
  (code_field rsp1 = 0 ->
   firstn (Z.to_nat (size_field rsp1)) rsp1 = firstn (Z.to_nat (size_field rsp1)) rsp2) ->
  snd (run_command_with_handles from_tss tpm1 s1 c cmd handles a)
  = snd (run_command_with_handles from_tss tpm2 s2 c cmd handles a).
Proof. exact (c35_decoded_partial S1 S2 E from_tss tpm1 tpm2 s1 s2 c cmd handles a s1' s2' rsp1 rsp2 n1 n2). Qed.
Print Assumptions C35_decoded_partial.

(** A connection that leaves the rest of the buffer alone makes the property
    true: the client gives it a buffer of zeros, so equal reported bytes give
    equal results, however long they are and whatever their size field says. *)
Theorem C35_rest_left S1 S2 E (from_tss : Z -> E)
    (tpm1 : connection S1 E) (tpm2 : connection S2 E) s1 s2 c cmd handles a s1' s2' rsp1 rsp2 n :
  valid_call c cmd handles a -> fits (command_frame c cmd handles a) ->
  leaves_rest tpm1 -> leaves_rest tpm2 ->
  transact tpm1 s1 (command_frame c cmd handles a) empty_buffer = (s1', rsp1, Ok n) ->
  transact tpm2 s2 (command_frame c cmd handles a) empty_buffer = (s2', rsp2, Ok n) ->
  firstn n rsp1 = firstn n rsp2 ->
  snd (run_command_with_handles from_tss tpm1 s1 c cmd handles a)
  = snd (run_command_with_handles from_tss tpm2 s2 c cmd handles a).
Proof. exact (c35_rest_left S1 S2 E from_tss tpm1 tpm2 s1 s2 c cmd handles a s1' s2' rsp1 rsp2 n). Qed.
Print Assumptions C35_rest_left.

(** The TCP connection of the library is of that kind, over every network. *)
Theorem C35_tcp_leaves_rest : forall (W H C : Type) (sys : world W H C) (c : tcp H), leaves_rest (tcp_connection sys c).
Proof. exact c35_tcp_leaves_rest. Qed.
Print Assumptions C35_tcp_leaves_rest.

(** So over TCP the result depends on nothing but the reported bytes: two
    networks and two TPMs that answer a command with the same bytes give the
    same result. *)
Theorem C35_over_tcp W1 H1 C1 W2 H2 C2 (sys1 : world W1 H1 C1) (sys2 : world W2 H2 C2) (c1 : tcp H1) (c2 : tcp H2)
    (from_tss : Z -> io_error) w1 w2 c cmd handles a w1' w2' rsp1 rsp2 n :
  valid_call c cmd handles a -> fits (command_frame c cmd handles a) ->
  transact (tcp_connection sys1 c1) w1 (command_frame c cmd handles a) empty_buffer = (w1', rsp1, Ok n) ->
  transact (tcp_connection sys2 c2) w2 (command_frame c cmd handles a) empty_buffer = (w2', rsp2, Ok n) ->
  firstn n rsp1 = firstn n rsp2 ->
  snd (run_command_with_handles from_tss (tcp_connection sys1 c1) w1 c cmd handles a)
  = snd (run_command_with_handles from_tss (tcp_connection sys2 c2) w2 c cmd handles a).
Proof. exact (c35_over_tcp W1 H1 C1 W2 H2 C2 sys1 sys2 c1 c2 from_tss w1 w2 c cmd handles a w1' w2' rsp1 rsp2 n). Qed.
Print Assumptions C35_over_tcp.

(** Even then it need not be what the TPM sent: the TPM answers with twelve
    bytes whose size field says 16 and that announce four random bytes, and
    the caller gets four zeros, here in pieces of one byte and of two. *)
Example C35_tcp_example :
  let answer := [x80; x01; x00; x00; x00; x10; x00; x00; x00; x00; x00; x04] in
  let w := ([x00; x00; x00; x0c] ++ answer ++ [x00; x00; x00; x00], []) in
  let c := {| tpm_tcp := true; plat_tcp := false; locality := 0 |} in
  let conn k := tcp_connection (pipe (fun _ => k)) c in
  let cmd := VStruct [VInt 4] in
  valid_call GetRandom cmd VUnit area0 /\ fits (command_frame GetRandom cmd VUnit area0)
  /\ (let '(_, rsp, r) := transact (conn 1%nat) w (command_frame GetRandom cmd VUnit area0) empty_buffer in
      firstn 12 rsp = answer /\ r = Ok 12%nat)
  /\ (let '(_, rsp, r) := transact (conn 2%nat) w (command_frame GetRandom cmd VUnit area0) empty_buffer in
      firstn 12 rsp = answer /\ r = Ok 12%nat)
  /\ snd (run_command (fun _ => InvalidData) (conn 1%nat) w GetRandom cmd) = Ok (VStruct [v2b 64 [x00; x00; x00; x00]])
  /\ snd (run_command (fun _ => InvalidData) (conn 2%nat) w GetRandom cmd) = Ok (VStruct [v2b 64 [x00; x00; x00; x00]]).
Proof. exact c35_tcp_example. Qed.
