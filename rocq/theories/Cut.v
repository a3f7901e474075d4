(** Both ports of a simulator, cut off: each takes so many bytes more and then
    none, or none once it was shut down, and what the client is told by its
    system calls is up to an adversary (C109).  Like Controls.v this is the
    peer of crates/tpm2-client/src/connection/tcp.rs:44-432, not code of the
    repository. *)
From Coq Require Import ZArith NArith List Lia Bool.
From Coq Require Import Init.Byte.
From Verif Require Import Prelude Types Client ClientSpec Tcp TcpSpec Controls.
Import ListNotations.
Open Scope Z_scope.

Record cut (R S : Type) := { adversary : R; room : nat * nat; far_end : bench S }.
Arguments adversary {R S} _.
Arguments room {R S} _.
Arguments far_end {R S} _.
Definition room_at (h : bool) (n : nat * nat) : nat := if h then fst n else snd n.
Definition set_room (h : bool) (k : nat) (n : nat * nat) : nat * nat := if h then (k, snd n) else (fst n, k).
(** The simulator gets some bytes on a port, and does what it can. *)
Definition arrives {S} (f : machine S) (h : bool) (bytes : list byte) (b : bench S) : bench S :=
  work f (length (port h (got b) ++ bytes)) h
    {| unit_ := unit_ b; got := set_port h (port h (got b) ++ bytes) (got b); due := due b |}.
(** The adversary has a state of its own and sees everything: what is read may
    be late, cut, wrong or an error; a write that is cut short may report the
    bytes taken or an error; shutting down may fail. *)
Record whims (R S : Type) := {
  delivers : R -> bench S -> bool -> nat -> R * outcome io_error (list byte);
  refuses : R -> option io_error;
  hangs_up : R -> bool -> R * outcome io_error unit
}.
Arguments delivers {R S} _.
Arguments refuses {R S} _.
Arguments hangs_up {R S} _.
Definition cut_off {R S} (adv : whims R S) (f : machine S) : world (cut R S) bool unit := {|
  tcp_connect := fun w _ port => (w, Ok (port =? 2321));
  write := fun w h buf =>
    let n := Nat.min (length buf) (room_at h (room w)) in
    ({| adversary := adversary w; room := set_room h (room_at h (room w) - n) (room w);
        far_end := arrives f h (firstn n buf) (far_end w) |},
     if (n =? length buf)%nat then Ok n
     else match refuses adv (adversary w) with Some e => Err e | None => Ok n end);
  read := fun w h n =>
    let '(r, o) := delivers adv (adversary w) (far_end w) h n in
    ({| adversary := r; room := room w; far_end := far_end w |}, o);
  shutdown := fun w h =>
    let '(r, o) := hangs_up adv (adversary w) h in
    ({| adversary := r; room := set_room h 0 (room w); far_end := far_end w |}, o);
  sleep_one_second := fun w => w;
  read_to_string := fun w _ => (w, Ok []);
  spawn := fun w _ _ _ => (w, Ok tt);
  kill := fun w _ => (w, Ok tt)
|}.
(** Calls one after the other over any network, each made whatever became of the
    one before; as [wired] in Controls.v. *)
Fixpoint calls_over {W C} (sys : world W bool C) (t : tcp bool) (w : W) (calls : list call) : W * list result :=
  match calls with
  | [] => (w, [])
  | Call o :: calls' =>
      let '(t', w', r) := perform sys t o w in
      let '(w'', rs) := calls_over sys t' w' calls' in (w'', Called r :: rs)
  | RunCommand c cmd handles a :: calls' =>
      let '(w', r) := run_command_with_handles FromTss (tcp_connection sys t) w c cmd handles a in
      let '(w'', rs) := calls_over sys t w' calls' in (w'', Ran r :: rs)
  end.

(** ** The specification *)
(** What a machine is after it did some requests. *)
Definition does {S} (f : machine S) (s : S) (qs : list request) : S := fold_left (fun s q => fst (f s q)) qs s.
(** The requests that make up a call. *)
Definition requests_of (loc : Z) (x : call) : list request :=
  match x with
  | Call (Transact command _) => [AskCommand loc command]
  | Call (Hcrtm data) => [AskHashStart; AskHashData data; AskHashEnd]
  | Call (Handshake v) => [AskHandshake v]
  | Call (AlternativeResult z) => [AskAlternative z]
  | Call (Signal s) => [AskSignal s]
  | Call Reinit => [AskSignal NvOff; AskSignal PowerOff; AskSignal PowerOn; AskSignal NvOn]
  | Call FailureMode => [AskFailureMode]
  | Call ResponseSizes => [AskSizes]
  | Call (ActSignaled z) => [AskAct z]
  | Call (FirmwareHash z) => [AskFirmwareHash z]
  | Call (FirmwareSvn z) => [AskFirmwareSvn z]
  | Call (Locality _) => []
  | Call EndSession => [AskEnd true; AskEnd false]
  | Call StopSimulator => [AskStop true; AskStop false]
  | RunCommand c cmd handles a =>
      if Z.of_nat (length (command_frame c cmd handles a)) <=? 4096
      then [AskCommand loc (command_frame c cmd handles a)] else []
  end.
Definition locality_past (loc : Z) (x : call) : Z := match x with Call o => locality_after loc o | _ => loc end.
(** Of each call of a session the beginning, and all of it if the call
    succeeded. *)
Definition succeeded (r : result) : Prop :=
  match r with Called (Ok _) | Ran (Ok _) => True | _ => False end.
Inductive begun : Z -> list call -> list (list request) -> list result -> Prop :=
| begun_none loc : begun loc [] [] []
| begun_one loc x xs part rest parts r rs :
    requests_of loc x = part ++ rest -> (succeeded r -> rest = []) ->
    begun (locality_past loc x) xs parts rs ->
    begun loc (x :: xs) (part :: parts) (r :: rs).
(** What is sent for requests on a port. *)
Definition on_port (q : request) : bool :=
  match q with
  | AskCommand _ _ | AskHashStart | AskHashData _ | AskHashEnd | AskHandshake _ | AskAlternative _ => true
  | AskEnd h | AskStop h => h
  | _ => false
  end.
Definition sent_on (h : bool) (qs : list request) : list byte :=
  flat_map spelled (filter (fun q => Bool.eqb (on_port q) h) qs).
(** Arguments of their types, with response buffers of any size. *)
Definition proper_call (x : call) : Prop :=
  match x with Call o => operation_ok o | RunCommand c cmd handles a => valid_call c cmd handles a end.

(** *** When the answers are right *)
(** The peer that hides nothing: what is due is delivered in pieces of whatever
    sizes, and it counts what it delivered on each port; a write that is cut
    short reports the bytes taken or an error. *)
Definition honest {S} (pieces : S -> nat -> nat) (e : option io_error) : whims (nat * nat) S := {|
  delivers := fun r b h n =>
    let q := skipn (room_at h r) (port h (due b)) in
    let k := Nat.min n (Nat.max 1 (pieces (unit_ b) (length q))) in
    (set_room h (room_at h r + length (firstn k q)) r, Ok (firstn k q));
  refuses := fun _ => e;
  hangs_up := fun r _ => (r, Ok tt)
|}.
(** Of some requests, those that get through when each port takes so many
    bytes more, and how many it takes after them: the first one that does not fit
    its port is cut and uses it up, and the end of a session closes its port. *)
Definition closing (q : request) : bool := match q with AskEnd _ | AskStop _ => true | _ => false end.
Fixpoint through (n : nat * nat) (qs : list request) : list request * (nat * nat) :=
  match qs with
  | [] => ([], n)
  | q :: qs' =>
      if (length (spelled q) <=? room_at (on_port q) n)%nat then
        let '(part, n') := through (set_room (on_port q)
          (if closing q then 0 else room_at (on_port q) n - length (spelled q)) n) qs' in (q :: part, n')
      else ([], set_room (on_port q) 0 n)
  end.
Fixpoint all_through (l : Z) (n : nat * nat) (calls : list call) : list (list request) * (nat * nat) :=
  match calls with
  | [] => ([], n)
  | x :: calls' =>
      let '(part, n') := through n (requests_of l x) in
      let '(parts, n'') := all_through (locality_past l x) n' calls' in (part :: parts, n'')
  end.
(** The results: that of the machine itself if all requests of the call got
    through, else no success. *)
Fixpoint told_so {S} (f : machine S) (l : Z) (s : S) (calls : list call) (parts : list (list request)) (rs : list result) : Prop :=
  match calls, parts, rs with
  | [], [], [] => True
  | x :: calls', part :: parts', r :: rs' =>
      (part = requests_of l x -> [r] = snd (unwired f l s [x]))
      /\ (part <> requests_of l x -> ~ succeeded r)
      /\ told_so f (locality_past l x) (does f s part) calls' parts' rs'
  | _, _, _ => False
  end.
