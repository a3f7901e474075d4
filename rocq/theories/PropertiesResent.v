(** A command that was cut off and is sent again (C113). *)
(* Restates the theorems of ResentFacts.v; proofs are there. *)
From Coq Require Import String ZArith NArith List Lia Bool.
From Coq Require Import Init.Byte.
From Verif Require Import Prelude Types Marshal WireSpec Catalogue Errors Tpm2b Client ClientSpec ClientProofs ClientFacts
  Tcp TcpSpec TcpProofs Remote RemoteFacts Controls ControlsFacts Crowd CrowdProofs CrowdFacts Cut Trickle TrickleFacts.
From Verif Require CutFacts.
From Verif Require Import ResentFacts.
Import ListNotations.
Open Scope Z_scope.

(** ** C113 *)
(** A command of which the network does not take the last bytes, and then
    whatever is sent on the TPM's port, be it the same command again: the
    simulator executes the beginning of the first command, completed by the first
    bytes of what comes, header and all, and goes on reading in its middle.  As
    long as too little comes it executes nothing. *)
Theorem C113_resent loc command k more :
  0 <= loc < 256 -> (k < length command)%nat -> Z.of_nat (length command) < 2 ^ 32 ->
  let missing := (length command - k)%nat in
  standing ([], []) (firstn (9 + k) (in_bytes [AskCommand loc command]) ++ map (pair true) more)
  = if (missing <=? length more)%nat
    then AskCommand loc (firstn k command ++ firstn missing more) :: standing ([], []) (map (pair true) (skipn missing more))
    else [].
Proof. exact (c113_resent loc command k more). Qed.
Print Assumptions C113_resent.

(** Over a network that takes 13 bytes of a command and then everything: the call
    fails because not all was written, the same call again succeeds, and the
    simulator has executed one command, which nobody asked for. *)
Example C113_resent_example :
  let x := Call (Transact [x80; x01; x00; x00; x00; x0c; x00; x00; x01; x44; x00; x00] (repeat x00 16)) in
  proper_call x
  /\ let '(w, rs) := calls_over (trickling so_much obliging) (port_ends 0)
       {| humour := ([13]%nat, (0, 0)%nat); passed := []; beyond := quiet [] |} [x; x] in
     nth 0 rs (Called Panic) = Called (Err WriteZero)
     /\ succeeded (nth 1 rs (Called Panic))
     /\ unit_ (beyond w) = [AskCommand 0 [x80; x01; x00; x00; x00; x00; x00; x08; x00; x00; x00; x00]].
Proof. exact c113_resent_example. Qed.
