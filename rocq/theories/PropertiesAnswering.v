(** The pieces in which the answers of a peer arrive (C115). *)
(* Restates the theorems of AnsweringFacts.v; proofs are there. *)
From Coq Require Import String ZArith NArith List Lia Bool.
From Coq Require Import Init.Byte.
From Verif Require Import Prelude Types Marshal WireSpec Catalogue Errors Tpm2b Client ClientSpec ClientProofs ClientFacts
  Tcp TcpSpec TcpProofs Remote RemoteFacts Controls ControlsFacts Cut Hearing HearingFacts Answering.
From Verif Require Import AnsweringFacts.
Import ListNotations.
Open Scope Z_scope.

(** ** C115 *)
(** The same for a peer that answers: whatever it sends on either port when
    something is written to it or a port is shut down, however writes and
    shutdowns end, and whatever error or end of stream follows the bytes it sent.
    The pieces in which its bytes arrive change no result of any call, nothing in
    what the peer is sent (its state may be all it was sent), and nothing in what
    is left unread. *)
Theorem C115_peer P (p : peer P) R1 R2 (cut1 : cuts R1) (cut2 : cuts R2) t r1 r2 s calls :
  let '(w1, rs1) := calls_over (answering_net cut1 p) t (r1, s) calls in
  let '(w2, rs2) := calls_over (answering_net cut2 p) t (r2, s) calls in
  rs1 = rs2 /\ snd w1 = snd w2.
Proof. exact (c115_peer P p R1 R2 cut1 cut2 t r1 r2 s calls). Qed.
Print Assumptions C115_peer.

Example C115_peer_example :
  let slow : cuts unit := fun r _ _ _ => (r, 1%nat) in
  let fast : cuts nat := fun r _ n _ => (S r, n) in
  let calls := [Call (Handshake 1); Call (Signal PowerOn); Call (Handshake 2)] in
  let sent := [(true, [x00; x00; x00; x0f; x00; x00; x00; x01]); (false, [x00; x00; x00; x01]);
               (true, [x00; x00; x00; x0f; x00; x00; x00; x02])] in
  let results := [Called (Ok (Versions 5 9)); Called (Err (System 104)); Called (Ok (Versions 5 9))] in
  calls_over (answering_net slow notes_down) (port_ends 0) (tt, ([], ([], []))) calls = ((tt, (sent, ([], []))), results)
  /\ calls_over (answering_net fast notes_down) (port_ends 0) (O, ([], ([], []))) calls = ((5%nat, (sent, ([], []))), results).
Proof. exact c115_peer_example. Qed.
