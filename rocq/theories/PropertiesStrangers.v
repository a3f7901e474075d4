(** Users of a simulator among strangers (C103). *)
(* Restates the theorems of StrangersFacts.v; proofs are there. *)
From Coq Require Import String ZArith NArith List Lia Bool.
From Coq Require Import Init.Byte.
From Verif Require Import Prelude Types Client ClientSpec Tcp TcpSpec Controls ControlsFacts Crowd CrowdProofs CrowdFacts Strangers.
From Verif Require Clients ClientsFacts.
From Verif Require Import StrangersFacts.
Import ListNotations.
Open Scope Z_scope.

(** ** C103 *)
(** Whatever users do and strangers send, in whatever order and pieces: every
    event amounts, at the machine, to nothing, to one turn of the user that moved
    or was attended to, or to one request of the stranger that was heeded.  After
    each of the events the machine is where these leave it and each user is at
    the same point of its session, with the same results, as at the machine
    itself.  The requests of a stranger are spelled out, one after the other, by
    the bytes that this stranger itself sent on that port: none is made up of
    bytes of others, nothing is skipped, and what is left has not been taken. *)
Theorem C103_strangers S (f : S -> request -> S * list byte) s starts n es :
  polite f -> Forall start_ok starts ->
  exists orders, Forall2 amounts_to es orders /\
    forall k, let y := happened (answering f) (firstn k es) (gathered s starts n) in
      let o := concat (firstn k orders) in
      let z := entered f o (s, seats starts) in
      shared (people y) = fst z /\ Forall2 level_with (users (people y)) (snd z)
      /\ forall j h, (j < n)%nat -> exists p, nth_error (strangers y) j = Some p
           /\ Forall (speakable h) (asked j h o)
           /\ thrown j h (firstn k es) = flat_map spelled (asked j h o) ++ port h p.
Proof. exact (c103_strangers S f s starts n es). Qed.
Print Assumptions C103_strangers.

(** And strangers hold nobody up: a user with [n] calls is through after
    [16426 n + 1] rounds in which it moves and each of its ports is attended to,
    whatever the others and the strangers do. *)
Theorem C103_through S (f : S -> request -> S * list byte) s starts n i l cs rounds :
  polite f -> Forall start_ok starts -> nth_error starts i = Some (l, cs) ->
  Forall (fun es => List.In (By (Attends i true)) es /\ List.In (By (Attends i false)) es /\ exists p, List.In (By (Acts i p)) es) rounds ->
  16426 * Z.of_nat (length cs) < Z.of_nat (length rounds) ->
  exists x, nth_error (users (people (happened (answering f) (concat rounds) (gathered s starts n)))) i = Some x
    /\ calls x = [] /\ in_call x = None /\ length (have x) = length cs /\ out x = ([], []) /\ inc x = ([], []).
Proof. exact (c103_through S f s starts n i l cs rounds). Qed.
Print Assumptions C103_through.

(** A user sends a command in the midst of a stranger's bytes: the first half of
    one, a power-off on the other port, the second half and rubbish. *)
Example C103_example :
  let starts := [(3, [Call (Transact [x80] (repeat x00 RESP_BUFFER_SIZE))])] in
  let user := [By (Acts 0 9); By (Attends 0 true)] in
  let es := [Throws 0 true [x00; x00; x00; x08; x00; x00; x00]; By (Acts 0 9); Heeds 0 true; By (Acts 0 9);
             Throws 0 false [x00; x00; x00; x02]; Heeds 0 false; By (Attends 0 true);
             Throws 0 true [x00; x02; xaa; xbb; xff; xff; xff; xff; xff]; By (Acts 0 9); Heeds 0 true; Heeds 0 true]
            ++ concat (repeat user 9) in
  let y := happened (answering recorder) es (gathered [] starts 1) in
  polite recorder /\ Forall start_ok starts
  /\ shared (people y) = [AskSignal PowerOff; AskCommand 3 [x80]; AskCommand 0 [xaa; xbb]]
  /\ map have (users (people y)) = [[Called (Ok (Payload [x80; x01; x00; x00; x00; x0a; x00; x00; x01; x01]))]]
  /\ strangers y = [([xff; xff; xff; xff; xff], [])].
Proof. exact c103_example. Qed.
