(** The client over TCP and the client at the TPM itself (C70). *)
(* Restates the theorems of RemoteFacts.v; proofs are there. *)
From Coq Require Import String ZArith NArith List Lia Bool.
From Coq Require Import Init.Byte.
From Verif Require Import Prelude Types Marshal WireSpec Catalogue Errors Tpm2b Client ClientSpec ClientProofs ClientFacts
  Server ServerSpec ServerProofs ServerFacts EndToEnd EndToEndFacts Tcp TcpSpec TcpProofs Remote.
From Verif Require Import RemoteFacts.
Import ListNotations.
Open Scope Z_scope.

(** ** C70 *)
(** The simulator deals with a command frame as soon as it has all of it, and
    with nothing else. *)
Theorem C70_understood S (f : tpm_device S) n x :
  (exists l cmd rest, 0 <= l < 256 /\ Z.of_nat (length cmd) < 2 ^ 32
   /\ taken x = u32be 8 ++ be_bytes 1 l ++ u32be (Z.of_nat (length cmd)) ++ cmd ++ rest
   /\ deal f (Datatypes.S n) x
      = deal f n {| device := fst (f (device x) l cmd); taken := rest;
          waiting := waiting x ++ match snd (f (device x) l cmd) with
                                  | Some r => u32be (Z.of_nat (length r)) ++ r ++ [x00; x00; x00; x00]
                                  | None => [] end |})
  \/ ((forall l cmd rest, 0 <= l < 256 -> Z.of_nat (length cmd) < 2 ^ 32 ->
       taken x <> u32be 8 ++ be_bytes 1 l ++ u32be (Z.of_nat (length cmd)) ++ cmd ++ rest)
      /\ deal f (Datatypes.S n) x = x).
Proof. exact (c70_understood S f n x). Qed.
Print Assumptions C70_understood.

(** A connection made with the default ports is the one of the theorems below. *)
Theorem C70_connected S pieces (f : tpm_device S) ip x :
  connect (network pieces f) ip None None x = (x, Ok (port_ends 0)).
Proof. exact (c70_connected S pieces f ip x). Qed.
Print Assumptions C70_connected.

(** One command over TCP to a simulator that is idle: the TPM gets it at the
    locality set, its state changes as if it were at hand, and the caller gets
    the same result; if a response that fits the buffer (or none) came back the
    simulator is idle again. *)
Theorem C70_command S pieces (f : tpm_device S) l s c cmd handles a :
  0 <= l < 256 -> valid_call c cmd handles a ->
  (forall s l cmd s' r, f s l cmd = (s', Some r) -> Z.of_nat (length r) < 2 ^ 32) ->
  exists x,
    run_command_with_handles FromTss (tcp_connection (network pieces f) (port_ends l)) (idle s) c cmd handles a
    = (x, snd (run_command_with_handles FromTss (local f l) s c cmd handles a))
    /\ device x = fst (run_command_with_handles FromTss (local f l) s c cmd handles a)
    /\ ((forall s l cmd s' r, f s l cmd = (s', Some r) -> Z.of_nat (length r) <= 4096) ->
        x = idle (fst (run_command_with_handles FromTss (local f l) s c cmd handles a))).
Proof. exact (c70_command S pieces f l s c cmd handles a). Qed.
Print Assumptions C70_command.

(** So a whole session - commands at any localities, whatever the TPM answers
    within the client's buffer, delivered in whatever pieces - gives what it
    gives at the TPM itself. *)
Theorem C70_session S pieces (f : tpm_device S) l s steps :
  0 <= l < 256 -> Forall step_ok steps ->
  (forall s l cmd s' r, f s l cmd = (s', Some r) -> Z.of_nat (length r) <= 4096) ->
  remote_session pieces f (port_ends l) (idle s) steps
  = (idle (fst (local_session f l s steps)), snd (local_session f l s steps)).
Proof. exact (c70_session S pieces f l s steps). Qed.
Print Assumptions C70_session.

(** And with the repository's server behind the simulator, client and server
    meet over TCP as they do directly (C49, C52). *)
Theorem C70_server D X (dr : Drbg D) (es : EntropySource X) pieces l ctx c cmd handles a :
  wf_drbg dr -> never_fails dr -> 0 <= l < 256 -> valid_call c cmd handles a ->
  run_command_with_handles FromTss (tcp_connection (network pieces (served_device dr es)) (port_ends l)) (idle ctx) c cmd handles a
  = (idle (fst (run_command_with_handles FromTss (direct dr es) ctx c cmd handles a)),
     snd (run_command_with_handles FromTss (direct dr es) ctx c cmd handles a)).
Proof. exact (c70_server D X dr es pieces l ctx c cmd handles a). Qed.
Print Assumptions C70_server.

(** Startup, then two random numbers at locality 3, over TCP delivered byte by
    byte, to the repository's server. *)
Example C70_example :
  let steps := [Run Startup (VStruct [VStruct [VInt 0]]) VUnit area0; SetLocality 3;
                Run GetRandom (VStruct [VInt 0]) VUnit area0; Run GetRandom (VStruct [VInt 2]) VUnit area0] in
  Forall step_ok steps
  /\ remote_session (fun _ _ => 1%nat) (served_device FakeDrbg FakeEntropy) (port_ends 0) (idle fake) steps
     = (idle {| drbg := 2; entropy := tt |},
        [Err (FromTss 0x143); Err (FromTss 0x904); Err (FromTss 0x904)]).
Proof. exact c70_example. Qed.

Example C70_proper :
  let steps := [Run GetRandom (VStruct [VInt 2]) VUnit area0; SetLocality 3;
                Run GetRandom (VStruct [VInt 2]) VUnit area0; SetLocality 0;
                Run GetRandom (VStruct [VInt 2]) VUnit area0] in
  let '(x, rs) := remote_session (fun _ n => n) proper (port_ends 0) (idle 5) steps in
  x = idle 7
  /\ map (omap (fun r => match fst r with VStruct [VTpm2b n b] => (n, firstn 2 b) | _ => (0, []) end)) rs
     = [Ok (2, [xaa; x05]); Err (FromTss 0x907); Ok (2, [xaa; x06])].
Proof. exact c70_proper. Qed.
