(** A client that dies, or a connection that breaks, at any point (C87). *)
(* Restates the theorems of SeverFacts.v; proofs are there. *)
From Coq Require Import String ZArith NArith List Lia Bool.
From Coq Require Import Init.Byte.
From Verif Require Import Prelude Types Marshal WireSpec Catalogue Errors Tpm2b Client ClientSpec ClientProofs ClientFacts
  Server ServerSpec ServerProofs ServerFacts Tcp TcpSpec TcpProofs Remote RemoteFacts SpliceFacts OnceFacts.
From Verif Require Import SeverFacts.
Import ListNotations.
Open Scope Z_scope.

(** ** C87 *)
(** Whatever the client reads, and whenever it dies or the connection breaks -
    after any number [n] of bytes -, the TPM has executed the first commands of
    the session, as many as are complete in [n] bytes, each once and in order,
    and nothing else: no part of a command, no mixture, none of the later ones. *)
Theorem C87_prefix R S deliver failure (f : tpm_device S) l s n (r : R) steps :
  0 <= l < 256 -> Forall step_ok steps ->
  let commands := in_order l steps in
  device (sim (fst (session_over (severed deliver failure f) (port_ends l)
                      {| line := r; left := n; sim := idle s |} steps)))
  = executes f s (firstn (complete n commands) commands).
Proof. exact (c87_prefix R S deliver failure f l s n r steps). Qed.
Print Assumptions C87_prefix.

(** "As many as are complete": what is sent for these is within the [n] bytes,
    what is sent for one more is not. *)
Theorem C87_as_many n cmds :
  let stream cmds := concat (map (fun p => sent (fst p) (snd p)) cmds) in
  (complete n cmds <= length cmds)%nat
  /\ (length (stream (firstn (complete n cmds) cmds)) <= n)%nat
  /\ ((complete n cmds < length cmds)%nat -> (n < length (stream (firstn (1 + complete n cmds) cmds)))%nat).
Proof. exact (c87_as_many n cmds). Qed.
Print Assumptions C87_as_many.

(** Three commands and forty-five bytes; the client reads nonsense. *)
Example C87_example :
  let steps := [Run Startup (VStruct [VStruct [VInt 0]]) VUnit area0; SetLocality 3;
                Run GetRandom (VStruct [VInt 2]) VUnit area0; Run GetRandom (VStruct [VInt 3]) VUnit area0] in
  let f : tpm_device (list (Z * list byte)) := fun s l cmd => (s ++ [(l, cmd)], Some []) in
  let deliver (r : nat) (_ : simulator (list (Z * list byte))) (_ : bool) (n : nat) :=
    (Datatypes.S r, if Nat.even r then Ok (repeat xff n) else Err (System 104)) in
  Forall step_ok steps
  /\ complete 45 (in_order 0 steps) = 2%nat
  /\ fst (session_over (severed deliver None f) (port_ends 0) {| line := 0%nat; left := 45; sim := idle [] |} steps)
     = {| line := 2%nat; left := 0;
          sim := {| device := [(0, [x80; x01; x00; x00; x00; x0c; x00; x00; x01; x44; x00; x00]);
                               (3, [x80; x01; x00; x00; x00; x0c; x00; x00; x01; x7b; x00; x02])];
                    taken := [x00; x00; x00];
                    waiting := repeat x00 16 |} |}.
Proof. exact c87_example. Qed.
