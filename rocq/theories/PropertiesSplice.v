(** Commands the network takes only a part of (C84). *)
(* Restates the theorems of SpliceFacts.v; proofs are there. *)
From Coq Require Import ZArith NArith List Lia Bool.
From Coq Require Import Init.Byte.
From Verif Require Import Prelude Types Marshal WireSpec Catalogue Errors Tpm2b Client ClientSpec ClientProofs ClientFacts
  Tcp TcpSpec TcpProofs Remote RemoteFacts.
From Verif Require Import SpliceFacts.
Import ListNotations.
Open Scope Z_scope.

(** ** C84 *)
(** A command the network takes whole is dealt with as over a network that
    always does (so C70 holds of it). *)
Theorem C84_whole_partial S pieces (f : tpm_device S) l k ks s cmd rsp :
  Z.of_nat (length cmd) < 2 ^ 32 -> (9 + length cmd <= k)%nat ->
  tcp_transact (throttled pieces f) (port_ends l) (k :: ks, idle s) cmd rsp
  = (let '(x, rsp', r) := tcp_transact (network pieces f) (port_ends l) (idle s) cmd rsp in ((ks, x), rsp', r)).
Proof. exact (c84_whole_partial S pieces f l k ks s cmd rsp). Qed.
Print Assumptions C84_whole_partial.

(** A command it takes a part of fails, the TPM does nothing and the response
    buffer is left alone; but that part stays with the simulator. *)
Theorem C84_cut_partial S pieces (f : tpm_device S) l k ks s cmd rsp :
  0 <= l < 256 -> Z.of_nat (length cmd) < 2 ^ 32 -> (k < 9 + length cmd)%nat ->
  tcp_transact (throttled pieces f) (port_ends l) (k :: ks, idle s) cmd rsp
  = ((ks, {| device := s; taken := firstn k (sent l cmd); waiting := [] |}), rsp, Err WriteZero).
Proof. exact (c84_cut_partial S pieces f l k ks s cmd rsp). Qed.
Print Assumptions C84_cut_partial.

(** The next command sent completes it: what the TPM executes is the part of
    the first command followed by the beginning of the second's frame, at the
    first one's locality, and its response is returned as the response to the
    second. *)
Theorem C84_spliced_partial S pieces (f : tpm_device S) l1 l2 k s cmd1 cmd2 rsp s' r :
  0 <= l1 < 256 -> 0 <= l2 < 256 -> Z.of_nat (length cmd1) < 2 ^ 32 -> Z.of_nat (length cmd2) < 2 ^ 32 ->
  (9 <= k < 9 + length cmd1)%nat -> (length cmd1 <= k + length cmd2)%nat ->
  f s l1 (firstn (length cmd1) (firstn (k - 9) cmd1 ++ sent l2 cmd2)) = (s', Some r) ->
  (length r <= length rsp)%nat -> Z.of_nat (length r) < 2 ^ 32 ->
  exists x,
    tcp_transact (throttled pieces f) (port_ends l2)
      ([], {| device := s; taken := firstn k (sent l1 cmd1); waiting := [] |}) cmd2 rsp
    = (x, overwrite r rsp, Ok (length r)).
Proof. exact (c84_spliced_partial S pieces f l1 l2 k s cmd1 cmd2 rsp s' r). Qed.
Print Assumptions C84_spliced_partial.

(** TPM2_Shutdown(TPM_SU_STATE) and TPM2_Startup(TPM_SU_STATE), and the network
    takes 19 bytes of the first.  The first call fails, the second succeeds,
    and what the TPM executed is TPM2_Shutdown(TPM_SU_CLEAR). *)
Theorem C84_refuted :
  let net := throttled (fun _ n => n) remembering in
  let '(w, _, r1) := tcp_transact net (port_ends 0) ([19%nat], idle []) shutdown_command (repeat x00 10) in
  let '(w', _, r2) := tcp_transact net (port_ends 0) w startup_command (repeat x00 10) in
  r1 = Err WriteZero /\ r2 = Ok 10%nat
  /\ device (snd w) = []
  /\ device (snd w') = [[x80; x01; x00; x00; x00; x0c; x00; x00; x01; x45; x00; x00]].
Proof. exact c84_refuted. Qed.
Print Assumptions C84_refuted.

Example C84_example :
  0 <= 0 < 256 /\ (9 <= 19 < 9 + length shutdown_command)%nat
  /\ (length shutdown_command <= 19 + length startup_command)%nat
  /\ snd (remembering [] 0 (firstn (length shutdown_command)
        (firstn (19 - 9) shutdown_command ++ sent 0 startup_command)))
     = Some [x80; x01; x00; x00; x00; x0a; x00; x00; x00; x00].
Proof. exact c84_example. Qed.
