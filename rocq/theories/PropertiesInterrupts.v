(** Signals during the calls of the simulator connection (C98). *)
(* Restates the theorems of InterruptsFacts.v; proofs are there. *)
From Coq Require Import ZArith NArith List Lia Bool.
From Coq Require Import Init.Byte.
From Verif Require Import Prelude Client Tcp TcpSpec TcpProofs SimulatorProofs TcpFacts Interrupts.
From Verif Require Import InterruptsFacts.
Import ListNotations.
Open Scope Z_scope.

(** ** C98 *)
(** Signals do not disturb a call that sends bare codes only, however many there
    are and whenever they come: result, connection and all that is done are as
    without signals. *)
Theorem C98_codes_partial : forall (W H C : Type) (sys : world W H C) c o ks (w : W),
  without_signals sys -> ~ one_piece o -> (forall data, o <> Hcrtm data) ->
  exists ks', perform_i sys c o (ks, w)
    = (let '(c', w', r) := perform sys c o w in (c', (ks', w'), r)).
Proof. exact c98_codes_partial. Qed.
Print Assumptions C98_codes_partial.

(** A call that sends more than a code is disturbed exactly by a signal that
    comes while it is sending: it fails as interrupted and nothing has been
    done.  Signals at any later time make no difference. *)
Theorem C98_one_piece_partial : forall (W H C : Type) (sys : world W H C) c o (w : W),
  without_signals sys -> one_piece o ->
  (forall k ks, perform_i sys c o (S k :: ks, w) = (c, (k :: ks, w), Err interrupted))
  /\ (forall ks, hd O ks = O ->
      exists ks', perform_i sys c o (ks, w) = (let '(c', w', r) := perform sys c o w in (c', (ks', w'), r))).
Proof. exact c98_one_piece_partial. Qed.
Print Assumptions C98_one_piece_partial.

(** The response buffer of a command that is interrupted is left alone. *)
Theorem C98_buffer_partial : forall (W H C : Type) (sys : world W H C) c command response k ks (w : W),
  Z.of_nat (length command) < 2 ^ 32 ->
  tcp_transact_i sys c (S k :: ks, w) command response = ((k :: ks, w), response, Err interrupted).
Proof. exact c98_buffer_partial. Qed.
Print Assumptions C98_buffer_partial.

Theorem C98_insist_partial : forall (W H C : Type) (sys : world W H C) c o ks (w : W),
  without_signals sys -> one_piece o ->
  snd (perform sys c o w) <> Err interrupted ->
  exists ks', insist (hd O ks) sys c o (ks, w)
    = (let '(c', w', r) := perform sys c o w in (c', (ks', w'), r)).
Proof. exact c98_insist_partial. Qed.
Print Assumptions C98_insist_partial.

(** The hash sequence has two exchanges of codes and between them one with the
    data: a signal while these are being sent leaves the sequence begun - its
    start has been sent and acknowledged - and not ended; signals at all other
    times make no difference.  Which system call that is - the one numbered [m],
    counting the calls that get through - depends neither on the signals nor on
    the data; if the start is not acknowledged there is none. *)
Theorem C98_hash_partial : forall (W H C : Type) (sys : world W H C) c (w : W) (l : list (event H C)),
  without_signals sys -> wf_world sys ->
  (forall data ks, exists ks',
     snd (perform (watched sys) c (Hcrtm data) (w, l)) <> Ok Done
     /\ perform_i (watched sys) c (Hcrtm data) (ks, (w, l))
        = (let '(c', w', r) := perform (watched sys) c (Hcrtm data) (w, l) in (c', (ks', w'), r)))
  \/ exists m w', forall data ks,
       (nth m ks O = O -> exists ks',
          perform_i (watched sys) c (Hcrtm data) (ks, (w, l))
          = (let '(c', w', r) := perform (watched sys) c (Hcrtm data) (w, l) in (c', (ks', w'), r)))
       /\ (nth m ks O <> O -> exists ks',
             perform_i (watched sys) c (Hcrtm data) (ks, (w, l))
             = (c, (ks', (w', l ++ signalled (tpm_tcp c) 5)), Err interrupted)).
Proof. exact c98_hash_partial. Qed.
Print Assumptions C98_hash_partial.

(** Dropping a simulator is not disturbed. *)
Theorem C98_dropped : forall (W H C : Type) (sys : world W H C) (s : @simulator H C) ks (w : W),
  without_signals sys -> snd (simulator_drop_i sys s (ks, w)) = simulator_drop sys s w.
Proof. exact c98_dropped. Qed.
Print Assumptions C98_dropped.

(** One signal, and a command that would have succeeded fails; another, and a
    hash sequence is left without its end. *)
Theorem C98_undisturbed_refuted :
  without_signals (pipe byte_by_byte)
  /\ perform (pipe byte_by_byte) (ends 0) (Transact get_random_cmd (repeat x00 14)) (response_frame random_rsp, [])
     = (ends 0, ([], []), Ok (Payload random_rsp))
  /\ perform_i (pipe byte_by_byte) (ends 0) (Transact get_random_cmd (repeat x00 14)) ([1%nat], (response_frame random_rsp, []))
     = (ends 0, ([O], (response_frame random_rsp, [])), Err interrupted)
  /\ perform (pipe byte_by_byte) (ends 0) (Hcrtm [x61]) (repeat x00 12, []) = (ends 0, ([], []), Ok Done)
  /\ perform_i (pipe byte_by_byte) (ends 0) (Hcrtm [x61]) ([0; 0; 0; 0; 0; 1]%nat, (repeat x00 12, []))
     = (ends 0, ([O], (repeat x00 8, [])), Err interrupted).
Proof. exact c98_undisturbed_refuted. Qed.
Print Assumptions C98_undisturbed_refuted.

(** Signals at each of the five system calls of a platform signal, three before
    the first. *)
Example C98_codes_case :
  perform_i (pipe byte_by_byte) (ends 0) (Signal PowerOn) ([3; 1; 1; 1; 2]%nat, ([], repeat x00 4))
  = (ends 0, ([], ([], [])), Ok Done).
Proof. exact c98_codes_case. Qed.

Example C98_one_piece_case :
  perform_i (pipe byte_by_byte) (ends 0) (Transact get_random_cmd (repeat x00 14))
    ([0; 2; 1; 1; 1; 4; 0; 1]%nat, (response_frame random_rsp, []))
  = (ends 0, ([], ([], [])), Ok (Payload random_rsp))
  /\ insist 2 (pipe byte_by_byte) (ends 0) (Transact get_random_cmd (repeat x00 14))
       ([2; 1]%nat, (response_frame random_rsp, []))
     = (ends 0, ([], ([], [])), Ok (Payload random_rsp)).
Proof. exact c98_one_piece_case. Qed.
