(** A complete simulator at the other end of both ports: any machine behind the
    protocol that crates/tpm2-client/src/connection/tcp.rs:44-432 speaks, with
    the codes of 435-455 and 545-562.  Like Remote.v this is the peer, not code
    of the repository; C81 says that a client over TCP cannot tell it from the
    machine itself. *)
From Coq Require Import ZArith NArith List Lia Bool.
From Coq Require Import Init.Byte.
From Verif Require Import Prelude Types Client ClientSpec Tcp TcpSpec.
Import ListNotations.
Open Scope Z_scope.

(** What the machine can be asked to do. *)
Inductive request :=
| AskCommand (loc : Z) (cmd : list byte)
| AskHashStart | AskHashData (data : list byte) | AskHashEnd
| AskHandshake (client_version : Z)
| AskAlternative (result : Z)
| AskSignal (s : signal)
| AskFailureMode
| AskSizes
| AskAct (handle : Z)
| AskFirmwareHash (hash : Z)
| AskFirmwareSvn (svn : Z)
| AskEnd (tpm_port : bool)                       (* the session on this port is over *)
| AskStop (tpm_port : bool).                     (* the simulator is to stop *)
(** The machine: a request changes it and gives the bytes of the answer, or
    none at all. *)
Definition machine (S : Type) : Type := S -> request -> S * option (list byte).

(** *** The machine at hand *)
Section AtHand.
Context {S : Type} (f : machine S).
Definition ask (q : request) : io S (list byte) := fun s =>
  match f s q with (s', Some r) => (s', Ok r) | (s', None) => (s', Err UnexpectedEof) end.
Definition tell (q : request) : io S unit := fun s => (fst (f s q), Ok tt).
Definition done {A} (m : io S A) : io S answer := io_bind m (fun _ => io_ret Done).
(** What each call of a connection means to it. *)
Definition at_hand (loc : Z) (o : operation) : io S answer :=
  match o with
  | Transact command response =>
      io_bind (ask (AskCommand loc command)) (fun r =>
      if (length response <? length r)%nat then io_err InvalidInput else io_ret (Payload r))
  | Hcrtm data => io_bind (ask AskHashStart) (fun _ => io_bind (ask (AskHashData data)) (fun _ => done (ask AskHashEnd)))
  | Handshake v => io_bind (ask (AskHandshake v)) (fun r => io_ret (Versions (be_val (firstn 4 r)) (be_val (skipn 4 r))))
  | AlternativeResult z => done (ask (AskAlternative z))
  | Signal s => done (ask (AskSignal s))
  | Reinit => io_bind (ask (AskSignal NvOff)) (fun _ => io_bind (ask (AskSignal PowerOff)) (fun _ =>
              io_bind (ask (AskSignal PowerOn)) (fun _ => done (ask (AskSignal NvOn)))))
  | FailureMode => done (ask AskFailureMode)
  | ResponseSizes => io_bind (ask AskSizes) (fun r =>
      io_ret (Sizes (le_val (firstn 4 r)) (be_val (firstn 4 (skipn 4 r)))
                    (le_val (firstn 4 (skipn 8 r))) (be_val (skipn 12 r))))
  | ActSignaled z => io_bind (ask (AskAct z)) (fun r => io_ret (Number (be_val r)))
  | FirmwareHash z => done (ask (AskFirmwareHash z))
  | FirmwareSvn z => done (ask (AskFirmwareSvn z))
  | Locality _ => io_ret Done
  | EndSession => io_bind (tell (AskEnd true)) (fun _ => done (tell (AskEnd false)))
  | StopSimulator => io_bind (tell (AskStop true)) (fun _ => done (tell (AskStop false)))
  end.
End AtHand.

(** *** The machine behind the two ports *)

(** The request at the front of what came in on a port, and the rest; [None]
    if it is not complete or not known. *)
Definition word (b : list byte) : Z := be_val (firstn 4 b).
Definition known_signal (code : Z) : option signal :=
  option_map snd (find (fun p => fst p =? code)
    [(1, PowerOn); (2, PowerOff); (3, PhysicalPresenceOn); (4, PhysicalPresenceOff); (9, CancelOn); (10, CancelOff);
     (11, NvOn); (12, NvOff); (13, KeyCacheOn); (14, KeyCacheOff); (17, Reset); (18, Restart)]).
Definition front (tpm_port : bool) (b : list byte) : option (request * list byte) :=
  let plain q := Some (q, skipn 4 b) in
  let number q := if (8 <=? length b)%nat then Some (q (word (skipn 4 b)), skipn 8 b) else None in
  if (length b <? 4)%nat then None
  else if word b =? 20 then plain (AskEnd tpm_port)
  else if word b =? 21 then plain (AskStop tpm_port)
  else if tpm_port then
    if word b =? 5 then plain AskHashStart
    else if word b =? 6 then
      let n := Z.to_nat (word (skipn 4 b)) in
      if (8 <=? length b)%nat && (8 + n <=? length b)%nat
      then Some (AskHashData (firstn n (skipn 8 b)), skipn (8 + n) b) else None
    else if word b =? 7 then plain AskHashEnd
    else if word b =? 8 then
      let n := Z.to_nat (word (skipn 5 b)) in
      if (9 <=? length b)%nat && (9 + n <=? length b)%nat
      then Some (AskCommand (be_val (firstn 1 (skipn 4 b))) (firstn n (skipn 9 b)), skipn (9 + n) b) else None
    else if word b =? 15 then number AskHandshake
    else if word b =? 16 then number AskAlternative
    else None
  else
    match known_signal (word b) with
    | Some s => plain (AskSignal s)
    | None =>
        if word b =? 25 then plain AskSizes
        else if word b =? 26 then number AskAct
        else if word b =? 30 then plain AskFailureMode
        else if word b =? 35 then number AskFirmwareHash
        else if word b =? 36 then number AskFirmwareSvn
        else None
    end.
(** The same as bytes: how each request is spelled, and on which port.  [front]
    takes exactly these (C81). *)
Definition signal_number (s : signal) : Z :=
  match s with
  | PowerOn => 1 | PowerOff => 2 | PhysicalPresenceOn => 3 | PhysicalPresenceOff => 4 | CancelOn => 9 | CancelOff => 10
  | NvOn => 11 | NvOff => 12 | KeyCacheOn => 13 | KeyCacheOff => 14 | Reset => 17 | Restart => 18
  end.
Definition spelled (q : request) : list byte :=
  let number := be_bytes 4 in
  match q with
  | AskHashStart => number 5
  | AskHashData data => number 6 ++ number (Z.of_nat (length data)) ++ data
  | AskHashEnd => number 7
  | AskCommand loc cmd => number 8 ++ be_bytes 1 loc ++ number (Z.of_nat (length cmd)) ++ cmd
  | AskHandshake z => number 15 ++ number z
  | AskAlternative z => number 16 ++ number z
  | AskEnd _ => number 20
  | AskStop _ => number 21
  | AskSizes => number 25
  | AskAct z => number 26 ++ number z
  | AskFailureMode => number 30
  | AskFirmwareHash z => number 35 ++ number z
  | AskFirmwareSvn z => number 36 ++ number z
  | AskSignal s => number (signal_number s)
  end.
Definition speakable (tpm_port : bool) (q : request) : Prop :=
  match q with
  | AskHashStart | AskHashEnd => tpm_port = true
  | AskHashData data => tpm_port = true /\ Z.of_nat (length data) < 2 ^ 32
  | AskCommand loc cmd => tpm_port = true /\ 0 <= loc < 256 /\ Z.of_nat (length cmd) < 2 ^ 32
  | AskHandshake z | AskAlternative z => tpm_port = true /\ 0 <= z < 2 ^ 32
  | AskEnd h | AskStop h => tpm_port = h
  | AskSizes | AskFailureMode | AskSignal _ => tpm_port = false
  | AskAct z | AskFirmwareHash z | AskFirmwareSvn z => tpm_port = false /\ 0 <= z < 2 ^ 32
  end.
(** The answer as it is sent: with its length if that is not fixed, and four
    zero bytes behind it; nothing at the end of a session. *)
Definition framed (q : request) (r : option (list byte)) : list byte :=
  match q, r with
  | (AskEnd _ | AskStop _), _ => []
  | (AskCommand _ _ | AskSizes), Some r => be_bytes 4 (Z.of_nat (length r)) ++ r ++ [x00; x00; x00; x00]
  | _, Some r => r ++ [x00; x00; x00; x00]
  | _, None => []
  end.

(** The machine, and for each port (the TPM's first) what it took and has not
    dealt with yet and what is due to the client. *)
Record bench (S : Type) := { unit_ : S; got : list byte * list byte; due : list byte * list byte }.
Arguments unit_ {S} _.
Arguments got {S} _.
Arguments due {S} _.
Definition quiet {S} (s : S) : bench S := {| unit_ := s; got := ([], []); due := ([], []) |}.
Definition port (h : bool) (p : list byte * list byte) : list byte := if h then fst p else snd p.
Definition set_port (h : bool) (b : list byte) (p : list byte * list byte) : list byte * list byte :=
  if h then (b, snd p) else (fst p, b).
(** It deals with complete requests as they come in on a port. *)
Fixpoint work {S} (f : machine S) (fuel : nat) (h : bool) (x : bench S) : bench S :=
  match fuel with
  | O => x
  | Datatypes.S fuel' =>
      match front h (port h (got x)) with
      | None => x
      | Some (q, rest) =>
          let '(s', r) := f (unit_ x) q in
          work f fuel' h {| unit_ := s'; got := set_port h rest (got x);
                            due := set_port h (port h (due x) ++ framed q r) (due x) |}
      end
  end.
(** The network: everything sent is taken, what is due is delivered in pieces of
    whatever sizes: they may depend on the machine's state, so on everything
    that happened before. *)
Definition wires {S} (pieces : S -> nat -> nat) (f : machine S) : world (bench S) bool unit := {|
  tcp_connect := fun w _ port => (w, Ok (port =? 2321));
  write := fun w h buf =>
    (work f (length (port h (got w) ++ buf)) h
       {| unit_ := unit_ w; got := set_port h (port h (got w) ++ buf) (got w); due := due w |}, Ok (length buf));
  read := fun w h n =>
    let q := port h (due w) in
    let k := Nat.min n (Nat.max 1 (pieces (unit_ w) (length q))) in
    ({| unit_ := unit_ w; got := got w; due := set_port h (skipn k q) (due w) |}, Ok (firstn k q));
  shutdown := fun w _ => (w, Ok tt);
  sleep_one_second := fun w => w;
  read_to_string := fun w _ => (w, Ok []);
  spawn := fun w _ _ _ => (w, Ok tt);
  kill := fun w _ => (w, Ok tt)
|}.

(** *** Sessions: calls of the connection and commands of the client, over the
    wires and at the machine; every result is kept. *)
Inductive call :=
| Call (o : operation)
| RunCommand (c : command) (cmd handles : val) (a : area).
Inductive result :=
| Called (r : outcome io_error answer)
| Ran (r : outcome io_error (val * val)).
Fixpoint wired {S} (pieces : S -> nat -> nat) (f : machine S) (t : tcp bool) (x : bench S) (calls : list call)
    : bench S * list result :=
  match calls with
  | [] => (x, [])
  | Call o :: calls' =>
      let '(t', x', r) := perform (wires pieces f) t o x in
      let '(x'', rs) := wired pieces f t' x' calls' in (x'', Called r :: rs)
  | RunCommand c cmd handles a :: calls' =>
      let '(x', r) := run_command_with_handles FromTss (tcp_connection (wires pieces f) t) x c cmd handles a in
      let '(x'', rs) := wired pieces f t x' calls' in (x'', Ran r :: rs)
  end.
(** A command at the machine: the response is put into the client's buffer. *)
Definition machine_connection {S} (f : machine S) (loc : Z) : connection S io_error := {|
  transact := fun s cmd rsp =>
    match at_hand f loc (Transact cmd rsp) s with
    | (s', Ok (Payload r)) => (s', overwrite r rsp, Ok (length r))
    | (s', Err e) => (s', rsp, Err e)
    | (s', _) => (s', rsp, Panic)
    end |}.
Fixpoint unwired {S} (f : machine S) (loc : Z) (s : S) (calls : list call) : S * list result :=
  match calls with
  | [] => (s, [])
  | Call o :: calls' =>
      let '(s', r) := at_hand f loc o s in
      let '(s'', rs) := unwired f (locality_after loc o) s' calls' in (s'', Called r :: rs)
  | RunCommand c cmd handles a :: calls' =>
      let '(s', r) := run_command_with_handles FromTss (machine_connection f loc) s c cmd handles a in
      let '(s'', rs) := unwired f loc s' calls' in (s'', Ran r :: rs)
  end.

(** Answers have the lengths of the protocol, and responses fit the client's
    buffers. *)
Definition well_spoken {S} (f : machine S) : Prop :=
  forall s q s' r, f s q = (s', Some r) ->
  match q with
  | AskCommand _ _ => Z.of_nat (length r) < 2 ^ 32
  | AskHandshake _ => length r = 8%nat
  | AskSizes => length r = 16%nat
  | AskAct _ => length r = 4%nat
  | _ => r = []
  end.
(** Arguments are of their types: a byte or 32 bits; lengths can be written in
    32 bits. *)
Definition operation_ok (o : operation) : Prop :=
  match o with
  | Transact command _ => Z.of_nat (length command) < 2 ^ 32
  | Hcrtm data => Z.of_nat (length data) < 2 ^ 32
  | Handshake z | AlternativeResult z | ActSignaled z | FirmwareHash z | FirmwareSvn z => 0 <= z < 2 ^ 32
  | Locality l => 0 <= l < 256
  | _ => True
  end.
(** Calls as a client makes them: with a response buffer of at least 4096 bytes,
    which the responses of the machine fit. *)
Definition call_ok (x : call) : Prop :=
  match x with
  | Call o => operation_ok o
              /\ match o with Transact _ response => 4096 <= Z.of_nat (length response) | _ => True end
  | RunCommand c cmd handles a => valid_call c cmd handles a
  end.
Definition modest {S} (f : machine S) : Prop :=
  forall s l cmd s' r, f s (AskCommand l cmd) = (s', Some r) -> Z.of_nat (length r) <= 4096.
