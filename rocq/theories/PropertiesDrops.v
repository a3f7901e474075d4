(** C91: streams are opened, used and closed in that order, and none is left
    open.  C92: every call makes a bounded number of system calls. *)
(* Restates the theorems of DropsFacts.v; proofs are there. *)
From Coq Require Import ZArith NArith List Lia Bool.
From Coq Require Import Init.Byte.
From Verif Require Import Prelude Tcp TcpSpec Drops DropsSpec.
From Verif Require Import DropsFacts.
Import ListNotations.
Open Scope Z_scope.

(** ** C91 *)
(** Connecting: whatever the system answers, a failure leaves nothing open, a
    success exactly the two streams of the connection. *)
Theorem C91_connect : forall (W H C : Type) (sys : world W H C) close ip tpm_port plat_port (w : W),
  let '((_, calls), r) := connect_with_retries_closing (traced sys) (traced_close close) ip tpm_port plat_port (w, []) in
  lives [] calls (match r with Ok c => [plat_tcp c; tpm_tcp c] | _ => [] end).
Proof. exact c91_connect. Qed.
Print Assumptions C91_connect.

(** A connection from first to last: whatever operations are tried and however
    they end, each stream is used only while open and none is left open. *)
Theorem C91_connection : forall (W H C : Type) (sys : world W H C) close ip tpm_port plat_port os (w : W),
  lives [] (snd (with_connection (traced sys) (traced_close close) ip tpm_port plat_port os (w, []))) [].
Proof. exact c91_connection. Qed.
Print Assumptions C91_connection.

(** The same for a simulator that is started, used and dropped. *)
Theorem C91_simulator : forall (W H C : Type) (sys : world W H C) close bin args cwd ip os (w : W),
  lives [] (snd (with_simulator (traced sys) (traced_close close) bin args cwd ip os (w, []))) [].
Proof. exact c91_simulator. Qed.
Print Assumptions C91_simulator.

(** Apart from the closing these are the functions of the other claims. *)
Theorem C91_same : forall (W H C : Type) (sys : world W H C) ip tpm_port plat_port bin args cwd (w : W),
  let close := fun (w : W) (_ : H) => w in
  connect_with_retries_closing sys close ip tpm_port plat_port w = connect_with_retries sys ip tpm_port plat_port w
  /\ simulator_new_closing sys close bin args cwd ip w = simulator_new sys bin args cwd ip w
  /\ forall s, simulator_dropped sys close s w = simulator_drop sys s w.
Proof. exact c91_same. Qed.
Print Assumptions C91_same.

Example C91_example :
  snd (with_connection (traced flaky) (traced_close (fun w _ => w)) [] None None [Signal PowerOn; Locality 3] (0%nat, []))
  = [Opened 0%nat; Elsewhere; Closed 0%nat; Elsewhere; Elsewhere; Elsewhere; Opened 3%nat; Opened 4%nat]
    ++ repeat (Used 4%nat) 8 ++ [Closed 3%nat; Closed 4%nat].
Proof. exact c91_example. Qed.

(** Streams left open, used too late or closed twice would be noticed. *)
Example C91_leak : ~ lives [] [Opened 0%nat; Elsewhere] []
  /\ ~ lives [] [Opened 0%nat; Closed 0%nat; Used 0%nat] []
  /\ ~ lives [] [Opened 0%nat; Closed 0%nat; Closed 0%nat] [].
Proof. exact c91_leak. Qed.


(** ** C92 *)
(** Whatever the network answers, an operation makes at most a fixed number of
    system calls, and only on the two streams of its connection. *)
Theorem C92_operation : forall (W H C : Type) (sys : world W H C) c o (w : W) (l : list (call H)),
  let '((_, (_, l')), _) := perform (traced sys) c o (w, l) in
  exists calls, l' = l ++ calls /\ (length calls <= most_calls o)%nat
    /\ Forall (fun e => e = Used (tpm_tcp c) \/ e = Used (plat_tcp c)) calls.
Proof. exact c92_operation. Qed.
Print Assumptions C92_operation.

(** Connecting, starting and dropping, with the streams closed again. *)
Theorem C92_around : forall (W H C : Type) (sys : world W H C) close (w : W),
  (forall ip tpm_port plat_port, (length (snd (fst
     (connect_with_retries_closing (traced sys) (traced_close close) ip tpm_port plat_port (w, [])))) <= 15)%nat)
  /\ (forall bin args cwd ip, (length (snd (fst
     (simulator_new_closing (traced sys) (traced_close close) bin args cwd ip (w, [])))) <= 30)%nat)
  /\ (forall s, (length (snd (simulator_dropped (traced sys) (traced_close close) s (w, []))) <= 13)%nat).
Proof. exact c92_around. Qed.
Print Assumptions C92_around.

(** A whole history makes no more calls than its operations may. *)
Theorem C92_history : forall (W H C : Type) (sys : world W H C) c os (w : W),
  (length (snd (snd (use_all (traced sys) c os (w, [])))) <= fold_right plus 0 (map most_calls os))%nat.
Proof. exact c92_history. Qed.
Print Assumptions C92_history.

(** The bounds are reached. *)
Example C92_reached : let c := {| tpm_tcp := 3; plat_tcp := 4; locality := 0 |}%nat in
  forallb (fun o => (length (snd (snd (fst (perform (traced flaky) c o (0%nat, []))))) =? most_calls o)%nat)
    [Transact [x80] []; Hcrtm [x01]; Handshake 1; AlternativeResult 1; Signal PowerOn; Reinit; FailureMode;
     ActSignaled 1; FirmwareHash 1; FirmwareSvn 1; Locality 1; EndSession; StopSimulator] = true.
Proof. exact c92_reached. Qed.
