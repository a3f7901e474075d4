(** Peers that answer, over networks that deliver in any pieces (C115): the
    other side of crates/tpm2-client/src/connection/tcp.rs:44-432, not code of the
    repository. *)
From Coq Require Import ZArith NArith List Lia Bool.
From Coq Require Import Init.Byte.
From Verif Require Import Prelude Types Client ClientSpec Tcp TcpSpec Remote Controls Hearing.
Import ListNotations.
Open Scope Z_scope.

(** Any peer: what it sends on the two ports (the TPM's first) when something is
    written to a port, or a port is shut down, and how the write or the shutdown
    ends; and what a read gets when all that was sent has been read: an error, or
    the end of the stream. *)
Record peer (P : Type) := {
  takes : P -> bool -> list byte -> P * (list byte * list byte) * outcome io_error nat;
  shuts : P -> bool -> P * (list byte * list byte) * outcome io_error unit;
  stops : P -> bool -> P * option io_error
}.
Arguments takes {P} _ _ _ _.
Arguments shuts {P} _ _ _.
Arguments stops {P} _ _ _.
Definition both (a b : list byte * list byte) : list byte * list byte := (fst a ++ fst b, snd a ++ snd b).
(** The state is that of the network, which decides how much a read gets, and
    that of the peer with what it sent and nobody has read. *)
Definition answering_net {R P} (cut : cuts R) (p : peer P) : world (R * (P * (list byte * list byte))) bool unit := {|
  tcp_connect := fun w _ port => (w, Ok (port =? 2321));
  write := fun '(r, (s, due)) h buf => let '(s', more, o) := takes p s h buf in ((r, (s', both due more)), o);
  read := fun '(r, (s, due)) h n =>
    match port h due with
    | [] =>
        let '(s', e) := stops p s h in
        ((r, (s', due)), match e with Some e => Err e | None => Ok [] end)
    | q =>
        let '(r', k) := cut r h n q in
        let k := Nat.min n (Nat.max 1 k) in
        ((r', (s, set_port h (skipn k q) due)), Ok (firstn k q))
    end;
  shutdown := fun '(r, (s, due)) h => let '(s', more, o) := shuts p s h in ((r, (s', both due more)), o);
  sleep_one_second := fun w => w;
  read_to_string := fun w _ => (w, Ok []);
  spawn := fun w _ _ _ => (w, Ok tt);
  kill := fun w _ => (w, Ok tt)
|}.
