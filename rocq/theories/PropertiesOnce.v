(** Every command is executed once, in order (C85). *)
(* Restates the theorems of OnceFacts.v; proofs are there. *)
From Coq Require Import String ZArith NArith List Lia Bool.
From Coq Require Import Init.Byte.
From Verif Require Import Prelude Types Marshal WireSpec Catalogue Errors Tpm2b Client ClientSpec ClientProofs ClientFacts
  Server ServerSpec ServerProofs ServerFacts Tcp TcpSpec TcpProofs Remote RemoteFacts.
From Verif Require Import OnceFacts.
Import ListNotations.
Open Scope Z_scope.

(** ** C85 *)
(** Whatever the TPM answers - also errors, nonsense or nothing - and however
    it is delivered, over TCP the TPM executes exactly the commands of the
    session, each once, in the order and at the localities given; only those
    too long for the client's buffer are left out.  The results are those of
    the TPM at hand. *)
Theorem C85_once S pieces (f : tpm_device S) l s steps :
  0 <= l < 256 -> Forall step_ok steps ->
  (forall s l cmd s' r, f s l cmd = (s', Some r) -> Z.of_nat (length r) <= 4096) ->
  remote_session pieces (remembers f) (port_ends l) (idle (s, [])) steps
  = (idle (fst (local_session f l s steps), in_order l steps), snd (local_session f l s steps)).
Proof. exact (c85_once S pieces f l s steps). Qed.
Print Assumptions C85_once.

(** In particular an error does not mean that nothing was done: a call that
    fails because of the TPM's answer has had its command executed, and trying
    again has it executed again. *)
Theorem C85_again S pieces (f : tpm_device S) l s n c cmd handles a :
  0 <= l < 256 -> valid_call c cmd handles a -> fits (command_frame c cmd handles a) ->
  (forall s l cmd s' r, f s l cmd = (s', Some r) -> Z.of_nat (length r) <= 4096) ->
  snd (device (fst (remote_session pieces (remembers f) (port_ends l) (idle (s, []))
                      (repeat (Run c cmd handles a) n))))
  = repeat (l, command_frame c cmd handles a) n.
Proof. exact (c85_again S pieces f l s n c cmd handles a). Qed.
Print Assumptions C85_again.

(** A TPM that answers nonsense, then nothing. *)
Example C85_example :
  let f : tpm_device nat := fun n _ _ => (Datatypes.S n, match n with O => Some (repeat xff 10) | _ => None end) in
  let steps := [Run Startup (VStruct [VStruct [VInt 0]]) VUnit area0; SetLocality 3;
                Run GetRandom (VStruct [VInt 2]) VUnit area0] in
  Forall step_ok steps
  /\ (forall s l cmd s' r, f s l cmd = (s', Some r) -> Z.of_nat (length r) <= 4096)
  /\ remote_session (fun _ _ => 1%nat) (remembers f) (port_ends 0) (idle (0%nat, [])) steps
     = (idle (2%nat, [(0, [x80; x01; x00; x00; x00; x0c; x00; x00; x01; x44; x00; x00]);
                      (3, [x80; x01; x00; x00; x00; x0c; x00; x00; x01; x7b; x00; x02])]),
        [Err (FromTss 0xffffffff); Err UnexpectedEof]).
Proof. exact c85_example. Qed.
