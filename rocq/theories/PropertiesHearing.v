(** What calls make of the bytes they receive (C115). *)
(* Restates the theorems of HearingFacts.v; proofs are there. *)
From Coq Require Import String ZArith NArith List Lia Bool.
From Coq Require Import Init.Byte.
From Verif Require Import Prelude Types Marshal WireSpec Catalogue Errors Tpm2b Client ClientSpec ClientProofs ClientFacts
  Tcp TcpSpec TcpProofs Remote RemoteFacts Controls ControlsFacts Cut Hearing.
From Verif Require Import HearingFacts.
Import ListNotations.
Open Scope Z_scope.

(** ** C115 *)
(** Whatever bytes a peer sends on the two ports - proper answers or not -, and
    in whatever pieces they arrive: the results of a series of calls, each made
    whatever became of those before, are what the bytes say, and so is what is
    left unread. *)
Theorem C115_session R (cut : cuts R) l r w calls :
  exists r', calls_over (channel cut) (port_ends l) (r, w) calls = ((r', fst (says_all calls w)), snd (says_all calls w)).
Proof. exact (c115_session R cut l r w calls). Qed.
Print Assumptions C115_session.

(** So two networks that deliver the same bytes, in different pieces, give the
    same results and leave the same bytes. *)
Theorem C115_pieces R1 R2 (cut1 : cuts R1) (cut2 : cuts R2) l1 l2 r1 r2 w calls :
  let '(w1, rs1) := calls_over (channel cut1) (port_ends l1) (r1, w) calls in
  let '(w2, rs2) := calls_over (channel cut2) (port_ends l2) (r2, w) calls in
  rs1 = rs2 /\ snd w1 = snd w2.
Proof. exact (c115_pieces R1 R2 cut1 cut2 l1 l2 r1 r2 w calls). Qed.
Print Assumptions C115_pieces.

(** Bytes after those that the calls used change nothing: if no call met the end
    of its stream, then the calls have the same results over any network that
    delivers the same bytes and more, and leave the additional bytes unread. *)
Theorem C115_more R1 R2 (cut1 : cuts R1) (cut2 : cuts R2) l1 l2 r1 r2 tpm platform more_tpm more_platform calls :
  let '(w1, rs1) := calls_over (channel cut1) (port_ends l1) (r1, (tpm, platform)) calls in
  let '(w2, rs2) := calls_over (channel cut2) (port_ends l2) (r2, (tpm ++ more_tpm, platform ++ more_platform)) calls in
  Forall (fun r => starved r = false) rs1 ->
  rs1 = rs2 /\ snd w2 = (fst (snd w1) ++ more_tpm, snd (snd w1) ++ more_platform).
Proof. exact (c115_more R1 R2 cut1 cut2 l1 l2 r1 r2 tpm platform more_tpm more_platform calls). Qed.
Print Assumptions C115_more.

(** A call that meets the end of its stream leaves nothing on it: every later
    call that waits for something on the same port meets the end too. *)
Theorem C115_end R (cut : cuts R) l r w calls x later :
  let '(_, rs) := calls_over (channel cut) (port_ends l) (r, w) (calls ++ x :: later) in
  starved (nth (length calls) rs (Called Panic)) = true ->
  Forall2 (fun y result => heard_on y = heard_on x -> listens y -> starved result = true) later (skipn (S (length calls)) rs).
Proof. exact (c115_end R cut l r w calls x later). Qed.
Print Assumptions C115_end.

(** A peer that answers a handshake, refuses a signal and stops in the middle of
    the answer to the next call; byte by byte, and all at once. *)
Example C115_example :
  let slow : cuts unit := fun r _ _ _ => (r, 1%nat) in
  let fast : cuts nat := fun r _ n _ => (S r, n) in
  let bytes := ([x00; x00; x00; x01; x00; x00; x00; x07; x00; x00; x00; x00; x00; x00],
                [x00; x00; x00; x01; x00; x00; x00; x00; xff]) in
  let calls := [Call (Handshake 1); Call (Signal PowerOn); Call FailureMode; Call (AlternativeResult 0); Call (Hcrtm [x61])] in
  let results := [Called (Ok (Versions 1 7)); Called (Err InvalidData); Called (Ok Done);
                  Called (Err UnexpectedEof); Called (Err UnexpectedEof)] in
  calls_over (channel slow) (port_ends 0) (tt, bytes) calls = ((tt, ([], [xff])), results)
  /\ snd (calls_over (channel fast) (port_ends 0) (O, bytes) calls) = results
  /\ Forall (fun r => starved r = false) (snd (calls_over (channel slow) (port_ends 0) (tt, bytes) (firstn 3 calls)))
  /\ listens (Call (Hcrtm [x61])).
Proof. exact c115_example. Qed.
