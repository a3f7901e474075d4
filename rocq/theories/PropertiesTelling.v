(** What the error of a call tells about it (C116). *)
(* Restates the theorems of TellingFacts.v; proofs are there. *)
From Coq Require Import String ZArith NArith List Lia Bool.
From Coq Require Import Init.Byte.
From Verif Require Import Prelude Types Marshal WireSpec Catalogue Errors Tpm2b Client ClientSpec ClientProofs ClientFacts
  Tcp TcpSpec TcpProofs Remote RemoteFacts Controls ControlsFacts Crowd CrowdProofs CrowdFacts Cut CutFacts Telling.
From Verif Require Import TellingFacts.
Import ListNotations.
Open Scope Z_scope.

(** ** C116 *)
(** A session over ports that each take some number of bytes and then no more,
    where what is read is up to an adversary and the operating system reports
    errors of its own only.  Of every call the first requests are done, and the
    outcome tells about them: success, a response that does not fit, or an error
    of the library means that all were done; that a write got nowhere, that not
    all were; the end of the stream, or an invalid answer, that some were. *)
Theorem C116_session R S (adv : whims R S) (f : machine S) r0 n l s calls :
  sound adv -> 0 <= l < 256 -> Forall proper_call calls ->
  exists w rs parts,
    calls_over (cut_off adv f) (port_ends l) {| adversary := r0; room := n; far_end := quiet s |} calls = (w, rs)
    /\ told l calls parts rs
    /\ unit_ (far_end w) = does f s (concat parts).
Proof. exact (c116_session R S adv f r0 n l s calls). Qed.
Print Assumptions C116_session.

(** So for the last call of a session, if it makes one request: unless the
    operating system reported an error, or the call panicked, the result says
    whether the request was done - and the machine is in the state that the
    calls before left, with or without it. *)
Theorem C116_one R S (adv : whims R S) (f : machine S) r0 n l s calls x q :
  sound adv -> 0 <= l < 256 -> Forall proper_call (calls ++ [x]) ->
  requests_of (fold_left locality_past calls l) x = [q] ->
  exists w rs w' r,
    calls_over (cut_off adv f) (port_ends l) {| adversary := r0; room := n; far_end := quiet s |} calls = (w, rs)
    /\ calls_over (cut_off adv f) (port_ends l) {| adversary := r0; room := n; far_end := quiet s |} (calls ++ [x]) = (w', rs ++ [r])
    /\ (uninformative r = false ->
        unit_ (far_end w') = if says_undone r then unit_ (far_end w) else fst (f (unit_ (far_end w)) q)).
Proof. exact (c116_one R S adv f r0 n l s calls x q). Qed.
Print Assumptions C116_one.

Theorem C116_unclear :
  let x := Call (Transact [x80; x01] (repeat x00 16)) in
  let before n := {| adversary := tt; room := (n, n); far_end := quiet [] |} in
  sound reset_by_peer /\ proper_call x
  /\ (let '(w1, rs1) := calls_over (cut_off reset_by_peer keeping) (port_ends 3) (before 0%nat) [x] in
      let '(w2, rs2) := calls_over (cut_off reset_by_peer keeping) (port_ends 3) (before 100%nat) [x] in
      rs1 = [Called (Err (System 104))] /\ rs2 = rs1
      /\ unit_ (far_end w1) = [] /\ unit_ (far_end w2) = [AskCommand 3 [x80; x01]]).
Proof. exact c116_unclear. Qed.
Print Assumptions C116_unclear.

Example C116_example :
  let x := Call (Transact [x80; x01] (repeat x00 16)) in
  let calls := [Call Reinit; x; Call (Hcrtm [x61]); x] in
  sound silent /\ Forall proper_call calls
  /\ requests_of (fold_left locality_past (firstn 3 calls) 0) x = [AskCommand 0 [x80; x01]]
  /\ (let '(w, rs) := calls_over (cut_off silent keeping) (port_ends 0) {| adversary := tt; room := (20%nat, 20%nat); far_end := quiet [] |} calls in
      rs = [Called (Err UnexpectedEof); Called (Err UnexpectedEof); Called (Err UnexpectedEof); Called (Err WriteZero)]
      /\ unit_ (far_end w) = [AskSignal NvOff; AskCommand 0 [x80; x01]; AskHashStart]).
Proof. exact c116_example. Qed.
