(** Starting a simulator while it starts up (C96): [TcpSimulator::new] runs
    beside the process that it started, which writes its port files and begins
    to listen at times of its own. *)
(* Restates the theorems of StartFacts.v; proofs are there. *)
From Coq Require Import String ZArith NArith List Lia Bool Arith.
From Coq Require Import Init.Byte.
From Verif Require Import Prelude Client Tcp TcpSpec TcpProofs SimulatorProofs TcpFacts.
From Verif Require Import StartFacts.
Import ListNotations.
Open Scope Z_scope.

(** ** C96 *)
(** If the simulator's files appear whole and it is up by the time of the last
    attempt (after three pauses), it is found, on every schedule: however late
    each file and each port is, and whatever time calls and pauses take. *)
Theorem C96_waits_partial : forall s second bin args cwd ip text1 text2 port1 port2 t t0,
  port_text text1 port1 -> port_text text2 port2 ->
  appears_whole s (file_in cwd (list_byte_of_string "command.port")) text1 ->
  appears_whole s (file_in cwd (list_byte_of_string "platform.port")) text2 ->
  up s cwd ip text1 text2 port1 port2 t0 ->
  (t0 <= t + 1 + 3 * (second + 1))%nat ->
  snd (simulator_new (beside s second) bin args cwd ip t)
  = Ok {| child := tt; conn := {| tpm_tcp := port1; plat_tcp := port2; locality := 0 |} |}.
Proof. exact c96_waits_partial. Qed.
Print Assumptions C96_waits_partial.

(** And a success is a connection to the ports of that simulator, whether or
    not it was up in time. *)
Theorem C96_ports_partial : forall s second bin args cwd ip text1 text2 port1 port2 t t' sim,
  port_text text1 port1 -> port_text text2 port2 ->
  appears_whole s (file_in cwd (list_byte_of_string "command.port")) text1 ->
  appears_whole s (file_in cwd (list_byte_of_string "platform.port")) text2 ->
  simulator_new (beside s second) bin args cwd ip t = (t', Ok sim) ->
  tpm_tcp (conn sim) = port1 /\ plat_tcp (conn sim) = port2.
Proof. exact c96_ports_partial. Qed.
Print Assumptions C96_ports_partial.

(** The bound is exact: if its file is not there by then, the start fails, and
    the simulator has been left running (C60). *)
Theorem C96_gives_up : forall s second bin args cwd ip t,
  (forall u, (u <= t + 1 + 3 * (second + 1))%nat -> content s u (file_in cwd (list_byte_of_string "command.port")) = None) ->
  snd (simulator_new (beside s second) bin args cwd ip t) = Err (System 2).
Proof. exact c96_gives_up. Qed.
Print Assumptions C96_gives_up.

Example C96_gives_up_case :
  let never := {| content := fun _ _ => None; listening := fun _ _ _ => true |} in
  snd (simulator_new (beside never 5) [x62] [] [x2f] [x69] 0%nat) = Err (System 2)
  /\ fst (simulator_new (beside never 5) [x62] [] [x2f] [x69] 0%nat) = 20%nat.
Proof. exact c96_gives_up_case. Qed.

(** A file is seen half written: the port is cut short. *)
Theorem C96_half_written : forall s second path digits1 digits2 t,
  digits1 <> [] -> Forall is_digit (digits1 ++ digits2) -> decimal (digits1 ++ digits2) <= 65535 ->
  content s t path = Some digits1 ->
  snd (read_port (beside s second) path t) = Ok (decimal (digits1 ++ digits2) / 10 ^ Z.of_nat (length digits2)).
Proof. exact c96_half_written. Qed.
Print Assumptions C96_half_written.

Theorem C96_waits_refuted :
  let start first := snd (simulator_new (beside (in_tmp (Some (list_byte_of_string first))) 100)
                            [x62] [] (list_byte_of_string "/t") [x69] 1%nat) in
  (forall first, up (in_tmp first) (list_byte_of_string "/t") [x69]
                   (list_byte_of_string "2321") (list_byte_of_string "2322") 2321 2322 3)
  /\ omap (fun sim => tpm_tcp (conn sim)) (start "4000"%string) = Ok 4000
  /\ start ""%string = Err InvalidData
  /\ omap (fun sim => tpm_tcp (conn sim)) (start "23"%string) = Ok 23.
Proof. exact c96_waits_refuted. Qed.
Print Assumptions C96_waits_refuted.

(** The same simulator is found when its file appears whole. *)
Example C96_waits_case :
  appears_whole (in_tmp None) (list_byte_of_string "/t/command.port") (list_byte_of_string "2321")
  /\ appears_whole (in_tmp None) (list_byte_of_string "/t/platform.port") (list_byte_of_string "2322")
  /\ snd (simulator_new (beside (in_tmp None) 100) [x62] [] (list_byte_of_string "/t") [x69] 1%nat)
     = Ok {| child := tt; conn := {| tpm_tcp := 2321; plat_tcp := 2322; locality := 0 |} |}.
Proof. exact c96_waits_case. Qed.

Example C96_half_written_case :
  snd (read_port (beside (in_tmp (Some (list_byte_of_string "23"))) 1) (list_byte_of_string "/t/command.port") 1%nat) = Ok 23
  /\ decimal (list_byte_of_string "2321") / 10 ^ 2 = 23.
Proof. exact c96_half_written_case. Qed.
