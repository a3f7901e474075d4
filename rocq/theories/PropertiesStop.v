(** A connection after it was ended (C97). *)
(* Restates the theorems of StopFacts.v; proofs are there. *)
From Coq Require Import String ZArith NArith List Lia Bool Arith.
From Coq Require Import Init.Byte.
From Verif Require Import Prelude Client Tcp TcpSpec TcpProofs SimulatorProofs TcpFacts.
From Verif Require Import StopFacts.
Import ListNotations.
Open Scope Z_scope.

(** ** C97 *)
(** Ending the session or stopping the simulator ends the connection. *)
Theorem C97_ended : forall (W H C : Type) (sys : world W H C) shut c o (w w' : W) c' a,
  respects_shutdown sys shut -> o = EndSession \/ o = StopSimulator ->
  perform sys c o w = (c', w', Ok a) -> over shut c' w'.
Proof. exact c97_ended. Qed.
Print Assumptions C97_ended.

(** From then on, in any sequence of calls, each fails and nothing is sent,
    received or shut down. *)
Theorem C97_no_more : forall (W H C : Type) (sys : world W H C) shut c (w : W) (l : list (event H C)) os,
  respects_shutdown sys shut -> over shut c w ->
  exists c' w' rs, one_by_one (watched sys) c os (w, l) = (c', (w', l), rs)
    /\ Forall2 only_locality os rs /\ over shut c' w'.
Proof. exact c97_no_more. Qed.
Print Assumptions C97_no_more.

(** So a simulator that was stopped nicely, or whose session was ended, is
    killed when it is dropped: the stop messages of the drop cannot be sent. *)
Theorem C97_dropped : forall (W H C : Type) (sys : world W H C) shut (s : @simulator H C) (w : W) (l : list (event H C)),
  respects_shutdown sys shut -> over shut (conn s) w ->
  snd (simulator_drop (watched sys) s (w, l)) = l ++ [Killed (child s)].
Proof. exact c97_dropped. Qed.
Print Assumptions C97_dropped.

Theorem C97_nicely_then_dropped : forall (W H C : Type) (sys : world W H C) shut (s : @simulator H C) (w : W) (l : list (event H C)) w1 l1,
  respects_shutdown sys shut -> quiet_world sys ->
  stop_nicely (watched sys) s (w, l) = ((w1, l1), Ok tt) ->
  snd (simulator_drop (watched sys) s (w1, l1)) = l ++ conversation (conn s) StopSimulator Done ++ [Killed (child s)].
Proof. exact c97_nicely_then_dropped. Qed.
Print Assumptions C97_nicely_then_dropped.

Example C97_breaking : respects_shutdown breaking (fun w h => List.In h w) /\ quiet_world breaking.
Proof. exact c97_breaking. Qed.

Example C97_case :
  let s := {| child := tt; conn := {| tpm_tcp := true; plat_tcp := false; locality := 0 |} |} in
  let told := map (Out true) [x00; x00; x00; x15] ++ [Shut true] ++ map (Out false) [x00; x00; x00; x15] ++ [Shut false] in
  stop_nicely (watched breaking) s ([], []) = (([false; true], told), Ok tt)
  /\ snd (simulator_drop (watched breaking) s ([false; true], told)) = told ++ [Killed tt]
  /\ snd (simulator_drop (watched breaking) s ([], [])) = told
  /\ one_by_one (watched breaking) (conn s) [Signal PowerOn; Locality 3; Transact [x80] [x00]] ([false; true], told)
     = ({| tpm_tcp := true; plat_tcp := false; locality := 3 |}, ([false; true], told), [Err (System 32); Ok Done; Err (System 32)]).
Proof. exact c97_case. Qed.
