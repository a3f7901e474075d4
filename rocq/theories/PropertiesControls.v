(** Controls and commands over TCP, against any machine (C81).  [at_hand],
    [unwired] (what the calls mean to the machine), [well_spoken] and
    [operation_ok] are in Controls.v, with the simulator at the other end. *)
(* Restates the theorems of ControlsFacts.v; proofs are there. *)
From Coq Require Import String ZArith NArith List Lia Bool.
From Coq Require Import Init.Byte.
From Verif Require Import Prelude Types Marshal WireSpec Catalogue Errors Tpm2b Client ClientSpec ClientProofs ClientFacts
  Tcp TcpSpec TcpProofs Remote RemoteFacts Controls.
From Verif Require Import ControlsFacts.
Import ListNotations.
Open Scope Z_scope.

(** ** C81 *)
(** The simulator understands exactly the requests of the protocol, each on its
    port, from their first byte to their last. *)
Theorem C81_understood tpm_port b q rest :
  front tpm_port b = Some (q, rest) <-> speakable tpm_port q /\ b = spelled q ++ rest.
Proof. exact (c81_understood tpm_port b q rest). Qed.
Print Assumptions C81_understood.

(** A connection made with the default ports is the one of the theorems below. *)
Theorem C81_connected S pieces (f : machine S) ip x :
  connect (wires pieces f) ip None None x = (x, Ok (port_ends 0)).
Proof. exact (c81_connected S pieces f ip x). Qed.
Print Assumptions C81_connected.

Example C81_understood_case :
  front true ([x00; x00; x00; x08; x03; x00; x00; x00; x02; xaa; xbb] ++ [x00; x00]) = Some (AskCommand 3 [xaa; xbb], [x00; x00])
  /\ front true [x00; x00; x00; x08; x03; x00; x00; x00; x02; xaa] = None
  /\ front false [x00; x00; x00; x01; xff] = Some (AskSignal PowerOn, [xff])
  /\ front true [x00; x00; x00; x01; xff] = None.
Proof. exact c81_understood_case. Qed.

(** One call of a connection to a simulator at rest, with any machine behind it
    and however the answers are cut into pieces: the machine is asked for what
    the call means, the caller gets its answer, and the simulator is at rest
    again. *)
Theorem C81_call S pieces (f : machine S) l o s :
  well_spoken f -> 0 <= l < 256 -> operation_ok o ->
  (forall command response, o = Transact command response ->
     forall s' r, f s (AskCommand l command) = (s', Some r) -> (length r <= length response)%nat) ->
  perform (wires pieces f) (port_ends l) o (quiet s)
  = (port_ends (locality_after l o), quiet (fst (at_hand f l o s)), snd (at_hand f l o s)).
Proof. exact (c81_call S pieces f l o s). Qed.
Print Assumptions C81_call.

(** So a whole session of control calls, commands of the client and changes of
    locality, in any order, on both ports: every result is the one that the
    machine itself gives, and the machine ends in the same state. *)
Theorem C81_session S pieces (f : machine S) l s calls :
  well_spoken f -> modest f -> 0 <= l < 256 -> Forall call_ok calls ->
  wired pieces f (port_ends l) (quiet s) calls
  = (quiet (fst (unwired f l s calls)), snd (unwired f l s calls)).
Proof. exact (c81_session S pieces f l s calls). Qed.
Print Assumptions C81_session.

(** Every call asks the machine for exactly this, or for the beginning of it if
    the machine falls silent, and then the call is an error. *)
Theorem C81_asked S pieces (f : machine S) l o s log :
  well_spoken f -> 0 <= l < 256 -> operation_ok o ->
  (forall command response, o = Transact command response ->
     forall s' r, f s (AskCommand l command) = (s', Some r) -> (length r <= length response)%nat) ->
  exists s' seen r,
    perform (wires pieces (noting f)) (port_ends l) o (quiet (s, log))
    = (port_ends (locality_after l o), quiet (s', log ++ seen), r)
    /\ (exists more, seen ++ more = asked l o)
    /\ (forall a, r = Ok a -> seen = asked l o)
    /\ (r = Err UnexpectedEof \/ exists a, r = Ok a).
Proof. exact (c81_asked S pieces f l o s log). Qed.
Print Assumptions C81_asked.

(** Every call whose arguments are of their types is covered, with the client's
    own response buffer. *)
Example C81_covered :
  (forall l, 0 <= l <= 255 -> call_ok (Call (Locality l)))
  /\ (forall z, 0 <= z <= 4294967295 -> call_ok (Call (ActSignaled z)))
  /\ (forall cmd, Z.of_nat (length cmd) <= 4294967295 -> call_ok (Call (Transact cmd (repeat x00 RESP_BUFFER_SIZE)))).
Proof. exact c81_covered. Qed.

Example C81_example :
  let calls := [Call (Handshake 1); RunCommand GetRandom (VStruct [VInt 2]) VUnit area0; Call Reinit;
                Call (Locality 3); Call (Hcrtm [x61; x62]); RunCommand GetRandom (VStruct [VInt 2]) VUnit area0;
                Call (ActSignaled 5); Call ResponseSizes; Call FailureMode;
                RunCommand GetRandom (VStruct [VInt 2]) VUnit area0; Call (Signal NvOff); Call EndSession] in
  well_spoken bulb /\ modest bulb /\ Forall call_ok calls
  /\ wired (fun _ _ => 3%nat) bulb (port_ends 0) (quiet (false, false)) calls
     = (quiet (true, true),
        [Called (Ok (Versions 2 7)); Ran (Err (FromTss 0x100)); Called (Ok Done);
         Called (Ok Done); Called (Ok Done); Ran (Err (FromTss 0x143));
         Called (Ok (Number 5)); Called (Ok (Sizes 0x01010101 0x01010101 0x01010101 0x01010101)); Called (Ok Done);
         Ran (Err UnexpectedEof); Called (Ok Done); Called (Ok Done)]).
Proof. exact c81_example. Qed.

(** The machine is asked for the three steps of the sequence, and for no more
    than the first if it does not answer that. *)
Example C81_asked_example :
  asked 0 (Hcrtm [x61]) = [AskHashStart; AskHashData [x61]; AskHashEnd]
  /\ let silent : machine unit := fun _ _ => (tt, None) in
     well_spoken silent
     /\ perform (wires (fun _ n => n) (noting silent)) (port_ends 0) (Hcrtm [x61]) (quiet (tt, []))
        = (port_ends 0, quiet (tt, [AskHashStart]), Err UnexpectedEof).
Proof. exact c81_asked_example. Qed.
