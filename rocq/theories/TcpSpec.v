(** Specification of the conversation with the simulator: what is said on the
    two ports for each operation.  A conversation is recorded byte by byte, so
    it does not matter in which pieces the network takes and delivers it. *)
From Coq Require Import ZArith NArith List Lia Bool.
From Coq Require Import Init.Byte.
From Verif Require Import Prelude Tcp.
Import ListNotations.
Open Scope Z_scope.

(** ** What is observed *)
Inductive event (H C : Type) :=
| Out (h : H) (b : byte)                              (* a byte taken by the network *)
| In (h : H) (b : byte)                               (* a byte delivered by it *)
| Shut (h : H)
| Dial (ip : list byte) (port : Z) (answered : option H)
| Slept
| ReadFile (path : list byte) (found : option (list byte))
| Spawned (bin : list byte) (args : list (list byte)) (cwd : list byte) (c : C)
| Killed (c : C).
Arguments Out {H C} _ _.
Arguments In {H C} _ _.
Arguments Shut {H C} _.
Arguments Dial {H C} _ _ _.
Arguments Slept {H C}.
Arguments ReadFile {H C} _ _.
Arguments Spawned {H C} _ _ _ _.
Arguments Killed {H C} _.

Definition ok {E A} (r : outcome E A) : option A := match r with Ok a => Some a | _ => None end.
(** A world that keeps a record. *)
Definition watched {W H C} (sys : world W H C) : world (W * list (event H C)) H C := {|
  tcp_connect := fun w ip port => let '(w', r) := tcp_connect sys (fst w) ip port in
                                  ((w', snd w ++ [Dial ip port (ok r)]), r);
  write := fun w h buf => let '(w', r) := write sys (fst w) h buf in
             ((w', snd w ++ match r with Ok n => map (Out h) (firstn n buf) | _ => [] end), r);
  read := fun w h n => let '(w', r) := read sys (fst w) h n in
             ((w', snd w ++ match r with Ok bs => map (In h) bs | _ => [] end), r);
  shutdown := fun w h => let '(w', r) := shutdown sys (fst w) h in
             ((w', snd w ++ match r with Ok _ => [Shut h] | _ => [] end), r);
  sleep_one_second := fun w => (sleep_one_second sys (fst w), snd w ++ [Slept]);
  read_to_string := fun w p => let '(w', r) := read_to_string sys (fst w) p in
                               ((w', snd w ++ [ReadFile p (ok r)]), r);
  spawn := fun w bin args cwd => let '(w', r) := spawn sys (fst w) bin args cwd in
             ((w', snd w ++ match r with Ok c => [Spawned bin args cwd c] | _ => [] end), r);
  kill := fun w c => let '(w', r) := kill sys (fst w) c in ((w', snd w ++ [Killed c]), r)
|}.
(** Counts returned by system calls are within the buffer given. *)
Definition wf_world {W H C} (sys : world W H C) : Prop :=
  (forall w h buf w' n, write sys w h buf = (w', Ok n) -> (n <= length buf)%nat)
  /\ (forall w h n w' bs, read sys w h n = (w', Ok bs) -> (length bs <= n)%nat).

(** ** Operations of a connection *)
Inductive operation :=
| Transact (command response : list byte)
| Hcrtm (data : list byte)
| Handshake (client_version : Z)
| AlternativeResult (result : Z)
| Signal (s : signal)
| Reinit
| FailureMode
| ResponseSizes
| ActSignaled (act_handle : Z)
| FirmwareHash (hash : Z)
| FirmwareSvn (svn : Z)
| Locality (l : Z)
| EndSession
| StopSimulator.
Inductive answer :=
| Done
| Payload (bytes : list byte)
| Number (z : Z)
| Versions (server_version endpoint_info : Z)
| Sizes (command_size command response_size response : Z).

Definition unit_answer {W} (r : W * outcome io_error unit) : W * outcome io_error answer :=
  (fst r, omap (fun _ => Done) (snd r)).
(** Perform one; the answer to [Transact] is the slice returned. *)
Definition perform {W H C} (sys : world W H C) (c : tcp H) (o : operation) (w : W)
    : tcp H * W * outcome io_error answer :=
  let keep (r : W * outcome io_error answer) := (c, fst r, snd r) in
  match o with
  | Transact command response =>
      let '(w', response', r) := tcp_transact sys c w command response in
      (c, w', omap (fun n => Payload (firstn n response')) r)
  | Hcrtm data => keep (unit_answer (hcrtm_sequence sys c data w))
  | Handshake v => keep (let '(w', r) := remote_handshake sys c v w in
                         (w', omap (fun x => Versions (fst x) (snd x)) r))
  | AlternativeResult z => keep (unit_answer (set_alternative_result sys c z w))
  | Signal s => keep (unit_answer (platform_signal sys c s w))
  | Reinit => keep (unit_answer (reinit sys c w))
  | FailureMode => keep (unit_answer (test_failure_mode sys c w))
  | ResponseSizes => keep (let '(w', r) := get_command_response_sizes sys c w in
                           (w', omap (fun '(x1, x2, x3, x4) => Sizes x1 x2 x3 x4) r))
  | ActSignaled z => keep (let '(w', r) := act_get_signaled sys c z w in (w', omap Number r))
  | FirmwareHash z => keep (unit_answer (set_firmware_hash sys c z w))
  | FirmwareSvn z => keep (unit_answer (set_firmware_svn sys c z w))
  | Locality l => (set_locality c l, w, Ok Done)
  | EndSession => keep (unit_answer (session_end sys c w))
  | StopSimulator => keep (unit_answer (stop_simulator sys c w))
  end.
(** A history of operations that all succeed. *)
Fixpoint perform_all {W H C} (sys : world W H C) (c : tcp H) (os : list operation) (w : W)
    : tcp H * W * option (list answer) :=
  match os with
  | [] => (c, w, Some [])
  | o :: os' =>
      match perform sys c o w with
      | (c', w', Ok a) => let '(c'', w'', r) := perform_all sys c' os' w' in (c'', w'', option_map (cons a) r)
      | (c', w', _) => (c', w', None)
      end
  end.

(** ** The protocol: the conversation for each operation and answer *)
Section Protocol.
Context {H C : Type}.
Definition send (h : H) (bs : list byte) : list (event H C) := map (Out h) bs.
Definition receive (h : H) (bs : list byte) : list (event H C) := map (In h) bs.
Definition u32be (z : Z) : list byte := be_bytes 4 z.
Definition ack (h : H) : list (event H C) := receive h [x00; x00; x00; x00].
Definition signalled (h : H) (code : Z) : list (event H C) := send h (u32be code) ++ ack h.

Definition conversation (c : tcp H) (o : operation) (a : answer) : list (event H C) :=
  let t := tpm_tcp c in
  let p := plat_tcp c in
  match o, a with
  | Transact command _, Payload bytes =>
      send t (u32be 8 ++ be_bytes 1 (locality c) ++ u32be (Z.of_nat (length command)) ++ command)
      ++ receive t (u32be (Z.of_nat (length bytes)) ++ bytes) ++ ack t
  | Hcrtm data, Done =>
      signalled t 5
      ++ send t (u32be 6 ++ u32be (Z.of_nat (length data)) ++ data) ++ ack t
      ++ signalled t 7
  | Handshake v, Versions sv ei =>
      send t (u32be 15 ++ u32be v) ++ receive t (u32be sv ++ u32be ei) ++ ack t
  | AlternativeResult z, Done => send t (u32be 16 ++ u32be z) ++ ack t
  | Signal s, Done =>
      signalled p (match s with
                   | PowerOn => 1 | PowerOff => 2 | PhysicalPresenceOn => 3 | PhysicalPresenceOff => 4
                   | CancelOn => 9 | CancelOff => 10 | NvOn => 11 | NvOff => 12
                   | KeyCacheOn => 13 | KeyCacheOff => 14 | Reset => 17 | Restart => 18 end)
  | Reinit, Done => signalled p 12 ++ signalled p 2 ++ signalled p 1 ++ signalled p 11
  | FailureMode, Done => signalled p 30
  | ResponseSizes, Sizes x1 x2 x3 x4 =>
      send p (u32be 25)
      ++ receive p (u32be 16 ++ le_bytes 4 x1 ++ u32be x2 ++ le_bytes 4 x3 ++ u32be x4) ++ ack p
  | ActSignaled z, Number n => send p (u32be 26 ++ u32be z) ++ receive p (u32be n) ++ ack p
  | FirmwareHash z, Done => send p (u32be 35 ++ u32be z) ++ ack p
  | FirmwareSvn z, Done => send p (u32be 36 ++ u32be z) ++ ack p
  | Locality _, Done => []
  | EndSession, Done => send t (u32be 20) ++ [Shut t] ++ send p (u32be 20) ++ [Shut p]
  | StopSimulator, Done => send t (u32be 21) ++ [Shut t] ++ send p (u32be 21) ++ [Shut p]
  | _, _ => []
  end.
(** An answer the protocol can give. *)
Definition u32_ok (z : Z) : Prop := 0 <= z < 2 ^ 32.
Definition answers (o : operation) (a : answer) : Prop :=
  match o, a with
  | Transact command response, Payload bytes =>
      (length bytes <= length response)%nat /\ u32_ok (Z.of_nat (length bytes))
  | Handshake _, Versions x y => u32_ok x /\ u32_ok y
  | ResponseSizes, Sizes x1 x2 x3 x4 => u32_ok x1 /\ u32_ok x2 /\ u32_ok x3 /\ u32_ok x4
  | ActSignaled _, Number z => u32_ok z
  | (Transact _ _ | Handshake _ | ResponseSizes | ActSignaled _), _ => False
  | _, Done => True
  | _, _ => False
  end.
(** What the client says, and what it hears on a port. *)
Definition said (l : list (event H C)) : list (event H C) :=
  filter (fun e => match e with In _ _ => false | _ => true end) l.
Definition locality_after (l : Z) (o : operation) : Z := match o with Locality l' => l' | _ => l end.
End Protocol.

(** The conversation of a whole history. *)
Fixpoint conversations {H C} (c : tcp H) (os : list operation) (rs : list answer) : list (event H C) :=
  match os, rs with
  | o :: os', a :: rs' =>
      conversation c o a
      ++ conversations {| tpm_tcp := tpm_tcp c; plat_tcp := plat_tcp c;
                          locality := locality_after (locality c) o |} os' rs'
  | _, _ => []
  end.

(** ** A well-behaved peer, to show that the protocol is followed to the end *)

(** Port [true] is the TPM port, [false] the platform port; the state is what
    the peer has in store for each.  It takes everything at once and delivers
    in pieces of sizes decided by [pieces]. *)
Definition pipe (pieces : nat -> nat) : world (list byte * list byte) bool unit := {|
  tcp_connect := fun w _ port => (w, Ok (port =? 2321));
  write := fun w _ buf => (w, Ok (length buf));
  read := fun w h n =>
    let q := if h then fst w else snd w in
    let k := Nat.min n (Nat.max 1 (pieces (length q))) in
    ((if h then (skipn k q, snd w) else (fst w, skipn k q)), Ok (firstn k q));
  shutdown := fun w _ => (w, Ok tt);
  sleep_one_second := fun w => w;
  read_to_string := fun w _ => (w, Ok []);
  spawn := fun w _ _ _ => (w, Ok tt);
  kill := fun w _ => (w, Ok tt)
|}.
Definition heard {C} (h : bool) (l : list (event bool C)) : list byte :=
  flat_map (fun e => match e with In h' b => if Bool.eqb h h' then [b] else [] | _ => [] end) l.

(** The peer with the answers to [l] in store, then [w]. *)
Definition in_store {C} (l : list (event bool C)) (w : list byte * list byte) : list byte * list byte :=
  (heard true l ++ fst w, heard false l ++ snd w).
(** A command whose length can be written in its frame. *)
Definition writable (o : operation) : Prop :=
  match o with Transact command _ => Z.of_nat (length command) < 2 ^ 32 | _ => True end.

(** ** Attempts: outcome of the [k]-th attempt (from 0) when all before it
    failed, with a pause of a second between two attempts *)
Fixpoint attempt {W H C A} (sys : world W H C) (f : io W A) (k : nat) (w : W) : W * outcome io_error A :=
  match k with
  | O => f w
  | S k' => f (sleep_one_second sys (fst (attempt sys f k' w)))
  end.
Definition failed {A} (r : outcome io_error A) : Prop := exists e, r = Err e.

(** What a series of attempts leaves behind: [good] describes one attempt. *)
Definition attempts {H C A} (good : list (event H C) -> outcome io_error A -> Prop)
    (seen : list (event H C)) (r : outcome io_error A) : Prop :=
  exists fails last,
    seen = concat (map (fun e => e ++ [Slept]) fails) ++ last
    /\ Forall (fun e => exists err, good e (Err err)) fails
    /\ good last r
    /\ (length fails <= 3)%nat
    /\ ((exists err, r = Err err) -> length fails = 3%nat).
(** One attempt to connect to two ports. *)
Definition dialled {H C} (ip : list byte) (p1 p2 : Z) (seen : list (event H C)) (r : outcome io_error (tcp H)) : Prop :=
  match r with
  | Ok c => seen = [Dial ip p1 (Some (tpm_tcp c)); Dial ip p2 (Some (plat_tcp c))] /\ locality c = 0
  | _ => seen = [Dial ip p1 None] \/ exists h, seen = [Dial ip p1 (Some h); Dial ip p2 None]
  end.
(** One attempt to read a file. *)
Definition file_read {H C} (path : list byte) (seen : list (event H C)) (r : outcome io_error (list byte)) : Prop :=
  seen = [ReadFile path (ok r)].

(** ** A port number as text: white space (Unicode White_Space in UTF-8)
    around a decimal number that may have a plus sign *)
Definition is_white_space (c : list byte) : Prop :=
  (exists b, c = [b] /\ (9 <= bz b <= 13 \/ bz b = 32))
  \/ c = [xc2; x85] \/ c = [xc2; xa0] \/ c = [xe1; x9a; x80]
  \/ (exists b, c = [xe2; x80; b] /\ (128 <= bz b <= 138 \/ bz b = 168 \/ bz b = 169 \/ bz b = 175))
  \/ c = [xe2; x81; x9f] \/ c = [xe3; x80; x80].
Definition is_digit (b : byte) : Prop := 48 <= bz b <= 57.
Fixpoint decimal (ds : list byte) : Z :=      (* most significant digit first *)
  match ds with
  | [] => 0
  | d :: ds' => (bz d - 48) * 10 ^ Z.of_nat (length ds') + decimal ds'
  end.
Definition port_text (text : list byte) (port : Z) : Prop :=
  exists before sign digits after,
    text = concat before ++ sign ++ digits ++ concat after
    /\ Forall is_white_space before /\ Forall is_white_space after
    /\ (sign = [] \/ sign = [x2b])
    /\ digits <> [] /\ Forall is_digit digits
    /\ port = decimal digits /\ port <= 65535.

(** Reading a port from a file, with attempts. *)
Definition port_read {H C} (path : list byte) (seen : list (event H C)) (r : outcome io_error Z) : Prop :=
  exists r1, attempts (file_read path) seen r1 /\
  match r1 with
  | Ok text => (exists port, port_text text port /\ r = Ok port)
               \/ (forall port, ~ port_text text port) /\ r = Err InvalidData
  | Err e => r = Err e
  | Panic => r = Panic
  end.
Definition or_default (d : Z) (p : option Z) : Z := match p with Some p => p | None => d end.
(** A file of a directory, as it is named to the system. *)
Definition file_in (dir name : list byte) : list byte :=
  dir ++ (if Byte.eqb (last dir x2f) x2f then [] else [x2f]) ++ name.
Definition of_processes {H C} (e : event H C) : bool := match e with Spawned _ _ _ _ | Killed _ => true | _ => false end.
Definition not_killed {H C} (e : event H C) : Prop := match e with Killed _ => False | _ => True end.

(** A world without panics in system calls, whose counts are right. *)
Definition quiet_world {W H C} (sys : world W H C) : Prop :=
  wf_world sys
  /\ (forall w ip port, is_panic (snd (tcp_connect sys w ip port)) = false)
  /\ (forall w h buf, is_panic (snd (write sys w h buf)) = false)
  /\ (forall w h n, is_panic (snd (read sys w h n)) = false)
  /\ (forall w h, is_panic (snd (shutdown sys w h)) = false)
  /\ (forall w p, is_panic (snd (read_to_string sys w p)) = false)
  /\ (forall w bin args cwd, is_panic (snd (spawn sys w bin args cwd)) = false)
  /\ (forall w c, is_panic (snd (kill sys w c)) = false).
