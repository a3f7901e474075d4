(** Model of crates/tpm2-client/src/connection/tcp.rs.

    Everything outside the program - sockets, the peer, files, processes, the
    clock - is one arbitrary "world" that answers system calls.  Streams are
    file handles; the two streams of a connection may influence each other, as
    the simulator's two ports do. *)
From Coq Require Import ZArith NArith List Lia Bool.
From Coq Require Import Init.Byte.
From Verif Require Import Prelude Client.
Import ListNotations.
Open Scope Z_scope.

(** [std::io::Error]: what the system reports, or made here with a kind. *)
Inductive io_error :=
| System (code : Z)
| WriteZero
| UnexpectedEof
| InvalidInput
| InvalidData
| Other
| FromTss (code : Z).         (* io::Error::other(TssError), crates/tpm2/src/errors/std.rs:6-10 *)

(** System calls.  [write] and [read] are single calls and may do part of the
    work; reading no bytes means end of file.  A call that is interrupted is
    repeated by the standard library in [write_all] and [read_exact]; what
    counts here is its final outcome (signals are in Interrupts.v).  [IoSlice]s are written as if joined. *)
Record world (W H C : Type) := {
  tcp_connect : W -> list byte -> Z -> W * outcome io_error H;         (* TcpStream::connect((ip, port)) *)
  write : W -> H -> list byte -> W * outcome io_error nat;
  read : W -> H -> nat -> W * outcome io_error (list byte);
  shutdown : W -> H -> W * outcome io_error unit;                      (* Shutdown::Both *)
  sleep_one_second : W -> W;
  read_to_string : W -> list byte -> W * outcome io_error (list byte);
  spawn : W -> list byte -> list (list byte) -> list byte -> W * outcome io_error C;   (* bin, args, cwd *)
  kill : W -> C -> W * outcome io_error unit
}.
Arguments tcp_connect {W H C} _.
Arguments write {W H C} _.
Arguments read {W H C} _.
Arguments shutdown {W H C} _.
Arguments sleep_one_second {W H C} _.
Arguments read_to_string {W H C} _.
Arguments spawn {W H C} _.
Arguments kill {W H C} _.

(** A call that changes the world; [>>=] is [?]. *)
Definition io (W A : Type) : Type := W -> W * outcome io_error A.
Definition io_ret {W A} (a : A) : io W A := fun w => (w, Ok a).
Definition io_err {W A} (e : io_error) : io W A := fun w => (w, Err e).
Definition io_bind {W A B} (m : io W A) (f : A -> io W B) : io W B := fun w =>
  match m w with
  | (w', Ok a) => f a w'
  | (w', Err e) => (w', Err e)
  | (w', Panic) => (w', Panic)
  end.
Notation "m >>= f" := (io_bind m f) (at level 50, left associativity).
Notation "m ;; n" := (io_bind m (fun _ => n)) (at level 61, right associativity).

(** [TcpConnection], 33-42. *)
Record tcp (H : Type) := { tpm_tcp : H; plat_tcp : H; locality : Z }.
Arguments tpm_tcp {H} _.
Arguments plat_tcp {H} _.
Arguments locality {H} _.

Section Tcp.
Context {W H C : Type} (sys : world W H C).

(** [std::io::Write::write_all].  [fuel] bounds the loop by the number of
    bytes: every round writes at least one. *)
Fixpoint write_loop (fuel : nat) (h : H) (buf : list byte) : io W unit := fun w =>
  match buf, fuel with
  | [], _ => (w, Ok tt)
  | _, O => (w, Panic)
  | _, S fuel' =>
      match write sys w h buf with
      | (w', Ok O) => (w', Err WriteZero)
      | (w', Ok n) => if (length buf <? n)%nat then (w', Panic) else write_loop fuel' h (skipn n buf) w'
      | (w', Err e) => (w', Err e)
      | (w', Panic) => (w', Panic)
      end
  end.
Definition write_all (h : H) (buf : list byte) : io W unit := write_loop (length buf) h buf.
(** [std::io::Read::read_exact]: world, what was read, result. *)
Fixpoint read_loop (fuel : nat) (h : H) (n : nat) (w : W) : W * list byte * outcome io_error unit :=
  match n, fuel with
  | O, _ => (w, [], Ok tt)
  | _, O => (w, [], Panic)
  | _, S fuel' =>
      match read sys w h n with
      | (w', Ok []) => (w', [], Err UnexpectedEof)
      | (w', Ok bs) =>
          if (n <? length bs)%nat then (w', [], Panic)
          else let '(w'', rest, r) := read_loop fuel' h (n - length bs) w' in (w'', bs ++ rest, r)
      | (w', Err e) => (w', [], Err e)
      | (w', Panic) => (w', [], Panic)
      end
  end.
Definition read_exact (h : H) (n : nat) : W -> W * list byte * outcome io_error unit := read_loop n h n.
(** [read_exact] into a local variable, and into a [U32] ([U32::get]). *)
Definition read_bytes (h : H) (n : nat) : io W (list byte) := fun w =>
  let '(w', bs, r) := read_exact h n w in (w', omap (fun _ => bs) r).
Definition read_u32 (h : H) : io W Z := read_bytes h 4 >>= fun bs => io_ret (be_val bs).
(** [U32::new(x).as_bytes()]. *)
Definition u32_bytes (x : Z) : list byte := be_bytes 4 x.
(** [write_vectored] followed by the check that everything was written, 106-118
    and alike. *)
Definition write_whole (h : H) (bytes : list byte) : io W unit :=
  (fun w => write sys w h bytes) >>= fun bytes_written =>
  if (bytes_written =? length bytes)%nat then io_ret tt else io_err WriteZero.

(** [check_response_end], 379-389. *)
Definition check_response_end (h : H) : io W unit :=
  read_u32 h >>= fun resp_end => if resp_end =? 0 then io_ret tt else io_err InvalidData.

(** [connect], 50-63; default ports 24, 27. *)
Definition connect (ip : list byte) (tpm_port plat_port : option Z) : io W (tcp H) :=
  let tpm_port := match tpm_port with Some p => p | None => 2321 end in
  let plat_port := match plat_port with Some p => p | None => 2322 end in
  (fun w => tcp_connect sys w ip tpm_port) >>= fun t =>
  (fun w => tcp_connect sys w ip plat_port) >>= fun p =>
  io_ret {| tpm_tcp := t; plat_tcp := p; locality := 0 |}.
(** The loop of [connect_with_retries], 76-88, and of
    [read_port_from_file_with_retries], 673-692: [attempts] was incremented;
    [fuel] bounds the loop. *)
Fixpoint retry_loop {A} (fuel : nat) (attempts : Z) (f : io W A) : io W A := fun w =>
  match f w with
  | (w', Ok a) => (w', Ok a)
  | (w', Err e) =>
      if 3 <? attempts then (w', Err e)
      else match fuel with
           | O => (w', Panic)
           | S fuel' => retry_loop fuel' (attempts + 1) f (sleep_one_second sys w')
           end
  | (w', Panic) => (w', Panic)
  end.
(** 71-90 *)
Definition connect_with_retries (ip : list byte) (tpm_port plat_port : option Z) : io W (tcp H) :=
  retry_loop 4 1 (connect ip tpm_port plat_port).

(** [SimulatorTpmCommandCode], 435-455. *)
Definition SignalHashStart := 5.
Definition SignalHashData := 6.
Definition SignalHashEnd := 7.
Definition SendCommand := 8.
Definition RemoteHandshake := 15.
Definition SetAlternativeResult := 16.
Definition SessionEnd := 20.
Definition Stop := 21.
(** [SimulatorPlatformCommandCode], 545-562; [SessionEnd] and [Stop] have the
    same values. *)
Definition GetCommandResponseSizes := 25.
Definition ActGetSignaled := 26.
Definition TestFailureMode := 30.
Definition SetFirmwareHash := 35.
Definition SetFirmwareSvn := 36.

(** [hcrtm_sequence], 98-128; [data.len() as u32] wraps. *)
Definition hcrtm_sequence (c : tcp H) (data : list byte) : io W unit :=
  write_all (tpm_tcp c) (u32_bytes SignalHashStart) ;;
  check_response_end (tpm_tcp c) ;;
  write_whole (tpm_tcp c) (u32_bytes SignalHashData ++ u32_bytes (Z.of_nat (length data) mod 2 ^ 32) ++ data) ;;
  check_response_end (tpm_tcp c) ;;
  write_all (tpm_tcp c) (u32_bytes SignalHashEnd) ;;
  check_response_end (tpm_tcp c).

(** [remote_handshake], 136-159: server version and endpoint info
    (494-512). *)
Definition remote_handshake (c : tcp H) (client_version : Z) : io W (Z * Z) :=
  write_whole (tpm_tcp c) (u32_bytes RemoteHandshake ++ u32_bytes client_version) ;;
  read_bytes (tpm_tcp c) 8 >>= fun resp =>
  check_response_end (tpm_tcp c) ;;
  io_ret (be_val (firstn 4 resp), be_val (skipn 4 resp)).

(** [set_alternative_result], 167-185. *)
Definition set_alternative_result (c : tcp H) (result : Z) : io W unit :=
  write_whole (tpm_tcp c) (u32_bytes SetAlternativeResult ++ u32_bytes result) ;;
  check_response_end (tpm_tcp c).

(** [SimulatorPlatformSignal], 515-542. *)
Inductive signal :=
| PowerOn | PowerOff | PhysicalPresenceOn | PhysicalPresenceOff | CancelOn | CancelOff
| NvOn | NvOff | KeyCacheOn | KeyCacheOff | Reset | Restart.
Definition signal_code (s : signal) : Z :=
  match s with
  | PowerOn => 1 | PowerOff => 2 | PhysicalPresenceOn => 3 | PhysicalPresenceOff => 4
  | CancelOn => 9 | CancelOff => 10 | NvOn => 11 | NvOff => 12
  | KeyCacheOn => 13 | KeyCacheOff => 14 | Reset => 17 | Restart => 18
  end.

(** [platform_signal], 193-198. *)
Definition platform_signal (c : tcp H) (s : signal) : io W unit :=
  write_all (plat_tcp c) (u32_bytes (signal_code s)) ;;
  check_response_end (plat_tcp c).
(** [reinit], 206-212. *)
Definition reinit (c : tcp H) : io W unit :=
  platform_signal c NvOff ;; platform_signal c PowerOff ;; platform_signal c PowerOn ;; platform_signal c NvOn.
(** [test_failure_mode], 220-225. *)
Definition test_failure_mode (c : tcp H) : io W unit :=
  write_all (plat_tcp c) (u32_bytes TestFailureMode) ;;
  check_response_end (plat_tcp c).

(** [get_command_response_sizes], 234-255.  The result has the four getters'
    values (565-594): the two sizes are in the byte order of the machine, taken
    to be little-endian. *)
Definition get_command_response_sizes (c : tcp H) : io W (Z * Z * Z * Z) :=
  write_all (plat_tcp c) (u32_bytes GetCommandResponseSizes) ;;
  read_u32 (plat_tcp c) >>= fun length =>
  if negb (length =? 16) then io_err InvalidData else
  read_bytes (plat_tcp c) 16 >>= fun resp =>
  check_response_end (plat_tcp c) ;;
  io_ret (le_val (firstn 4 resp), be_val (firstn 4 (skipn 4 resp)),
          le_val (firstn 4 (skipn 8 resp)), be_val (skipn 12 resp)).

(** [act_get_signaled], 263-286. *)
Definition act_get_signaled (c : tcp H) (act_handle : Z) : io W Z :=
  write_whole (plat_tcp c) (u32_bytes ActGetSignaled ++ u32_bytes act_handle) ;;
  read_u32 (plat_tcp c) >>= fun signaled =>
  check_response_end (plat_tcp c) ;;
  io_ret signaled.
(** [set_firmware_hash], 294-312, and [set_firmware_svn], 320-336. *)
Definition set_firmware_hash (c : tcp H) (hash : Z) : io W unit :=
  write_whole (plat_tcp c) (u32_bytes SetFirmwareHash ++ u32_bytes hash) ;;
  check_response_end (plat_tcp c).
Definition set_firmware_svn (c : tcp H) (svn : Z) : io W unit :=
  write_whole (plat_tcp c) (u32_bytes SetFirmwareSvn ++ u32_bytes svn) ;;
  check_response_end (plat_tcp c).

(** [set_locality], 339-341. *)
Definition set_locality (c : tcp H) (l : Z) : tcp H :=
  {| tpm_tcp := tpm_tcp c; plat_tcp := plat_tcp c; locality := l |}.

(** [session_end], 349-359, and [stop_simulator], 366-376. *)
Definition end_both (c : tcp H) (code : Z) : io W unit :=
  write_all (tpm_tcp c) (u32_bytes code) ;;
  (fun w => shutdown sys w (tpm_tcp c)) ;;
  write_all (plat_tcp c) (u32_bytes code) ;;
  (fun w => shutdown sys w (plat_tcp c)).
Definition session_end (c : tcp H) : io W unit := end_both c SessionEnd.
Definition stop_simulator (c : tcp H) : io W unit := end_both c Stop.

(** [transact], 394-431: world, response buffer, and the length of the slice
    returned.  [usize] has 64 bits. *)
Definition tcp_transact (c : tcp H) (w : W) (command response : list byte)
    : W * list byte * outcome io_error nat :=
  if 2 ^ 32 <=? Z.of_nat (length command) then (w, response, Err InvalidInput)
  else
    let t := tpm_tcp c in
    match (write_whole t (u32_bytes SendCommand ++ be_bytes 1 (locality c)
                          ++ u32_bytes (Z.of_nat (length command)) ++ command) ;; read_u32 t) w with
    | (w, Ok len) =>
        if Z.of_nat (length response) <? len then (w, response, Err InvalidInput)
        else
          let n := Z.to_nat len in
          let '(w, bs, r) := read_exact t n w in
          let response := overwrite bs response in
          match r with
          | Ok _ => let '(w, r) := check_response_end t w in (w, response, omap (fun _ => n) r)
          | Err e => (w, response, Err e)
          | Panic => (w, response, Panic)
          end
    | (w, Err e) => (w, response, Err e)
    | (w, Panic) => (w, response, Panic)
    end.
(** [Connection for TcpConnection], 392-432.  [set_locality] aside, nothing in
    the connection changes, so its state is the world. *)
Definition tcp_connection (c : tcp H) : connection W io_error := {| transact := tcp_transact c |}.

(** ** [TcpSimulator], 625-722 *)

(** [str::trim]: the characters with the Unicode property White_Space
    ([char::is_whitespace]), encoded in UTF-8. *)
Definition white_space : list (list byte) :=
  [[x09]; [x0a]; [x0b]; [x0c]; [x0d]; [x20]; [xc2; x85]; [xc2; xa0]; [xe1; x9a; x80];
   [xe2; x80; x80]; [xe2; x80; x81]; [xe2; x80; x82]; [xe2; x80; x83]; [xe2; x80; x84]; [xe2; x80; x85];
   [xe2; x80; x86]; [xe2; x80; x87]; [xe2; x80; x88]; [xe2; x80; x89]; [xe2; x80; x8a];
   [xe2; x80; xa8]; [xe2; x80; xa9]; [xe2; x80; xaf]; [xe2; x81; x9f]; [xe3; x80; x80]].
Fixpoint starts_with (s p : list byte) : bool :=
  match p, s with
  | [], _ => true
  | c :: p', b :: s' => Byte.eqb b c && starts_with s' p'
  | _ :: _, [] => false
  end.
(** Drop characters of [cs] from the front; [fuel] is the length of the text. *)
Fixpoint strip (fuel : nat) (cs : list (list byte)) (s : list byte) : list byte :=
  match fuel with
  | O => s
  | S fuel' => match find (starts_with s) cs with
               | Some c => strip fuel' cs (skipn (length c) s)
               | None => s
               end
  end.
Definition trim_start (s : list byte) : list byte := strip (length s) white_space s.
Definition trim_end (s : list byte) : list byte := rev (strip (length s) (map (@rev byte) white_space) (rev s)).
Definition trim (s : list byte) : list byte := trim_end (trim_start s).
(** [str::parse::<u16>]: an optional plus sign and decimal digits; [None] for
    no digits, another character, or overflow. *)
Definition digit (b : byte) : option Z :=
  if (48 <=? bz b) && (bz b <=? 57) then Some (bz b - 48) else None.
Fixpoint parse_digits (acc : Z) (s : list byte) : option Z :=
  match s with
  | [] => Some acc
  | b :: s' =>
      match digit b with
      | None => None
      | Some d => if 65535 <? acc * 10 + d then None else parse_digits (acc * 10 + d) s'
      end
  end.
Definition parse_u16 (s : list byte) : option Z :=
  match s with
  | [] => None
  | b :: s' =>
      if Byte.eqb b x2b then match s' with [] => None | _ => parse_digits 0 s' end
      else parse_digits 0 s
  end.

(** [read_port_from_file_with_retries], 672-693.  A file that can be read but
    does not parse is an error at once: the [?] on 680 leaves the function. *)
Definition read_port (path : list byte) : io W Z :=
  retry_loop 4 1 (fun w => read_to_string sys w path) >>= fun text =>
  match parse_u16 (trim text) with
  | Some port => io_ret port
  | None => io_err InvalidData
  end.

(** [TcpSimulator] is a child process and a connection, 625-628. *)
Record simulator := { child : C; conn : tcp H }.
(** [Path::join] of a name that is not absolute, as on Unix: with a slash unless
    the directory is empty or ends with one. *)
Definition join (dir name : list byte) : list byte :=
  match rev dir with
  | [] => name
  | c :: _ => if Byte.eqb c x2f then dir ++ name else dir ++ x2f :: name
  end.
(** File names, 659-665. *)
Definition command_port : list byte :=   (* "command.port" *)
  [x63; x6f; x6d; x6d; x61; x6e; x64; x2e; x70; x6f; x72; x74].
Definition platform_port : list byte :=  (* "platform.port" *)
  [x70; x6c; x61; x74; x66; x6f; x72; x6d; x2e; x70; x6f; x72; x74].
(** [TcpSimulator::new], 632-670.  The error of [spawn] keeps its kind and gets
    a longer text, which is not modelled. *)
Definition simulator_new (bin : list byte) (args : list (list byte)) (cwd ip : list byte) : io W simulator :=
  (fun w => spawn sys w bin args cwd) >>= fun ch =>
  read_port (join cwd command_port) >>= fun tpm_port =>
  read_port (join cwd platform_port) >>= fun plat_port =>
  connect_with_retries ip (Some tpm_port) (Some plat_port) >>= fun c =>
  io_ret {| child := ch; conn := c |}.
(** [stop_nicely], 696-698; [stop], 701-705. *)
Definition stop_nicely (s : simulator) : io W unit := stop_simulator (conn s).
Definition simulator_stop (s : simulator) : io W unit := fun w =>
  let '(w', r) := kill sys w (child s) in (w', omap_err (fun _ => Other) r).
(** [drop], 719-721. *)
Definition simulator_drop (s : simulator) : W -> W := fun w =>
  match stop_nicely s w with
  | (w', Ok _) => w'
  | (w', Err _) => fst (simulator_stop s w')
  | (w', Panic) => w'
  end.
End Tcp.
