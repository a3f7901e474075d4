(** Commands the network takes in parts, over whole sessions (C84). *)
(* Restates the theorems of ChokeFacts.v; proofs are there. *)
From Coq Require Import String ZArith NArith List Lia Bool.
From Coq Require Import Init.Byte.
From Verif Require Import Prelude Types Marshal WireSpec Catalogue Errors Tpm2b Client ClientSpec ClientProofs ClientFacts
  Server ServerSpec ServerProofs ServerFacts Tcp TcpSpec TcpProofs Remote RemoteFacts SpliceFacts OnceFacts SeverFacts.
From Verif Require Import ChokeFacts.
Import ListNotations.
Open Scope Z_scope.

(** ** C84 *)
(** Whole sessions, whatever part of each command the network takes and
    whatever it reports and delivers: what was taken is a beginning of what is
    sent for each command, one after the other, and the TPM has executed the
    commands that stand in it - not those of the session - as far as they are
    whole. *)
Theorem C84_stream_partial R S takes deliver (f : tpm_device S) l s (r : R) steps :
  0 <= l < 256 -> Forall step_ok steps ->
  let w := fst (session_over (choked takes deliver f) (port_ends l) {| mood := r; carried := []; far := idle s |} steps) in
  exists parts cmds rest,
    Forall2 (fun p part => exists k, part = firstn k (sent (fst p) (snd p))) (in_order l steps) parts
    /\ carried w = concat parts
    /\ carried w = frames cmds ++ rest /\ Forall command_ok cmds /\ no_command rest
    /\ device (far w) = executes f s cmds.
Proof. exact (c84_stream_partial R S takes deliver f l s r steps). Qed.
Print Assumptions C84_stream_partial.

(** These commands are fixed by the bytes taken. *)
Theorem C84_unique cmds1 : forall cmds2 rest1 rest2,
  Forall command_ok cmds1 -> Forall command_ok cmds2 -> no_command rest1 -> no_command rest2 ->
  frames cmds1 ++ rest1 = frames cmds2 ++ rest2 -> cmds1 = cmds2 /\ rest1 = rest2.
Proof. exact (c84_unique cmds1). Qed.
Print Assumptions C84_unique.

(** If the network takes one, two or three bytes of a command, no command is
    executed any more: the part and whatever is sent later never make a
    command. *)
Theorem C84_deaf_partial R S takes deliver (f : tpm_device S) l s (r : R) c cmd handles a steps :
  0 <= l < 256 -> Forall step_ok (Run c cmd handles a :: steps) -> fits (command_frame c cmd handles a) ->
  (1 <= snd (fst (takes r (idle s) (sent l (command_frame c cmd handles a)))) <= 3)%nat ->
  device (far (fst (session_over (choked takes deliver f) (port_ends l) {| mood := r; carried := []; far := idle s |}
                      (Run c cmd handles a :: steps)))) = s.
Proof. exact (c84_deaf_partial R S takes deliver f l s r c cmd handles a steps). Qed.
Print Assumptions C84_deaf_partial.

(** A network that takes each command whole or not at all does no harm: the
    TPM executes those taken, in order, and nothing else. *)
Theorem C84_all_or_nothing_partial R S takes deliver (f : tpm_device S) l s (r : R) steps :
  0 <= l < 256 -> Forall step_ok steps ->
  (forall r x buf, snd (fst (takes r x buf)) = 0%nat \/ (length buf <= snd (fst (takes r x buf)))%nat) ->
  let w := fst (session_over (choked takes deliver f) (port_ends l) {| mood := r; carried := []; far := idle s |} steps) in
  exists went, length went = length (in_order l steps)
    /\ let those := map fst (filter snd (combine (in_order l steps) went)) in
       carried w = frames those /\ taken (far w) = [] /\ device (far w) = executes f s those.
Proof. exact (c84_all_or_nothing_partial R S takes deliver f l s r steps). Qed.
Print Assumptions C84_all_or_nothing_partial.

(** Two commands of the library, of which the network takes 20 and 21 bytes:
    the TPM has executed one command, which nobody gave.  Of three, the first
    of which it takes three bytes of, none is executed. *)
Example C84_stream_example :
  let takes (ks : list nat) (_ : simulator (list (list byte))) (_ : list byte) := (tl ks, hd 0%nat ks, Ok (hd 0%nat ks)) in
  let deliver (ks : list nat) (_ : simulator (list (list byte))) (_ : bool) (_ : nat) := (ks, Err UnexpectedEof) in
  let startup := Run Startup (VStruct [VStruct [VInt 1]]) VUnit area0 in
  let after ks steps := fst (session_over (choked takes deliver remembering) (port_ends 0)
                               {| mood := ks; carried := []; far := idle [] |} steps) in
  Forall step_ok [startup] /\ in_order 0 [startup] = [(0, startup_command)]
  /\ device (far (after [20; 21]%nat [startup; startup]))
     = [[x80; x01; x00; x00; x00; x0c; x00; x00; x01; x44; x00; x00]]
  /\ carried (after [20; 21]%nat [startup; startup])
     = frames [(0, [x80; x01; x00; x00; x00; x0c; x00; x00; x01; x44; x00; x00])] ++ skipn 1 (sent 0 startup_command)
  /\ device (far (after [3; 21; 21]%nat [startup; startup; startup])) = []
  /\ device (far (after [0; 21; 21]%nat [startup; startup; startup])) = [startup_command; startup_command].
Proof. exact c84_stream_example. Qed.
