(** Signals during the calls of crates/tpm2-client/src/connection/tcp.rs.

    A system call on a stream that a signal interrupts has done nothing and
    reports EINTR ([ErrorKind::Interrupted]).  The standard library repeats such
    a call in [write_all] and [read_exact]; a call of [write_vectored] returns
    the error.  Tcp.v is about what is left of this if there are no signals;
    here are the same functions with them. *)
From Coq Require Import ZArith NArith List Lia Bool.
From Coq Require Import Init.Byte.
From Verif Require Import Prelude Client Tcp TcpSpec.
Import ListNotations.
Open Scope Z_scope.

(** EINTR. *)
Definition interrupted : io_error := System 4.
Definition is_interrupted (e : io_error) : bool := match e with System 4 => true | _ => false end.

(** A system without signals, and with it a schedule of them: the first number
    is how many signals come before the next call on a stream gets through, the
    second how many before the one after that, and so on. *)
Definition signals (W : Type) : Type := (list nat * W)%type.

Section Interrupts.
Context {W H C : Type} (sys : world W H C).

(** The system calls. *)
Definition disturbed {A} (call : io W A) : io (signals W) A := fun s =>
  match s with
  | (S k :: ks, w) => ((k :: ks, w), Err interrupted)
  | (ks, w) => let '(w', r) := call w in ((tl ks, w'), r)
  end.
Definition write_call (h : H) (buf : list byte) : io (signals W) nat := disturbed (fun w => write sys w h buf).
Definition read_call (h : H) (n : nat) : io (signals W) (list byte) := disturbed (fun w => read sys w h n).
(** Shutting down does not wait, so no signal interrupts it. *)
Definition shutdown_call (h : H) : io (signals W) unit := fun s =>
  let '(w', r) := shutdown sys (snd s) h in ((fst s, w'), r).

(** How many signals are still to come. *)
Definition to_come (ks : list nat) : nat := fold_right plus 0%nat ks.

(** [std::io::Write::write_all] and [std::io::Read::read_exact]; every round
    writes or reads a byte or is used up by a signal. *)
Fixpoint write_loop_i (fuel : nat) (h : H) (buf : list byte) : io (signals W) unit := fun s =>
  match buf, fuel with
  | [], _ => (s, Ok tt)
  | _, O => (s, Panic)
  | _, S fuel' =>
      match write_call h buf s with
      | (s', Ok O) => (s', Err WriteZero)
      | (s', Ok n) => if (length buf <? n)%nat then (s', Panic) else write_loop_i fuel' h (skipn n buf) s'
      | (s', Err e) => if is_interrupted e then write_loop_i fuel' h buf s' else (s', Err e)
      | (s', Panic) => (s', Panic)
      end
  end.
Definition write_all_i (h : H) (buf : list byte) : io (signals W) unit := fun s =>
  write_loop_i (length buf + to_come (fst s)) h buf s.
Fixpoint read_loop_i (fuel : nat) (h : H) (n : nat) (s : signals W) : signals W * list byte * outcome io_error unit :=
  match n, fuel with
  | O, _ => (s, [], Ok tt)
  | _, O => (s, [], Panic)
  | _, S fuel' =>
      match read_call h n s with
      | (s', Ok []) => (s', [], Err UnexpectedEof)
      | (s', Ok bs) =>
          if (n <? length bs)%nat then (s', [], Panic)
          else let '(s'', rest, r) := read_loop_i fuel' h (n - length bs) s' in (s'', bs ++ rest, r)
      | (s', Err e) => if is_interrupted e then read_loop_i fuel' h n s' else (s', [], Err e)
      | (s', Panic) => (s', [], Panic)
      end
  end.
Definition read_exact_i (h : H) (n : nat) : signals W -> signals W * list byte * outcome io_error unit := fun s =>
  read_loop_i (n + to_come (fst s)) h n s.
Definition read_bytes_i (h : H) (n : nat) : io (signals W) (list byte) := fun s =>
  let '(s', bs, r) := read_exact_i h n s in (s', omap (fun _ => bs) r).
Definition read_u32_i (h : H) : io (signals W) Z := read_bytes_i h 4 >>= fun bs => io_ret (be_val bs).
(** [write_vectored], 106-118 and alike: one call, not repeated. *)
Definition write_whole_i (h : H) (bytes : list byte) : io (signals W) unit :=
  write_call h bytes >>= fun bytes_written =>
  if (bytes_written =? length bytes)%nat then io_ret tt else io_err WriteZero.

(** The functions of tcp.rs, as in Tcp.v: 379-389, ... *)
Definition check_response_end_i (h : H) : io (signals W) unit :=
  read_u32_i h >>= fun resp_end => if resp_end =? 0 then io_ret tt else io_err InvalidData.
(** 98-128 *)
Definition hcrtm_sequence_i (c : tcp H) (data : list byte) : io (signals W) unit :=
  write_all_i (tpm_tcp c) (u32_bytes SignalHashStart) ;;
  check_response_end_i (tpm_tcp c) ;;
  write_whole_i (tpm_tcp c) (u32_bytes SignalHashData ++ u32_bytes (Z.of_nat (length data) mod 2 ^ 32) ++ data) ;;
  check_response_end_i (tpm_tcp c) ;;
  write_all_i (tpm_tcp c) (u32_bytes SignalHashEnd) ;;
  check_response_end_i (tpm_tcp c).
(** 136-159 *)
Definition remote_handshake_i (c : tcp H) (client_version : Z) : io (signals W) (Z * Z) :=
  write_whole_i (tpm_tcp c) (u32_bytes RemoteHandshake ++ u32_bytes client_version) ;;
  read_bytes_i (tpm_tcp c) 8 >>= fun resp =>
  check_response_end_i (tpm_tcp c) ;;
  io_ret (be_val (firstn 4 resp), be_val (skipn 4 resp)).
(** 167-185, 294-312, 320-336: a code and a number. *)
Definition set_number_i (h : H) (code value : Z) : io (signals W) unit :=
  write_whole_i h (u32_bytes code ++ u32_bytes value) ;;
  check_response_end_i h.
(** 193-198, 220-225: a code. *)
Definition signal_i (h : H) (code : Z) : io (signals W) unit :=
  write_all_i h (u32_bytes code) ;;
  check_response_end_i h.
(** 206-212 *)
Definition reinit_i (c : tcp H) : io (signals W) unit :=
  signal_i (plat_tcp c) (signal_code NvOff) ;; signal_i (plat_tcp c) (signal_code PowerOff) ;;
  signal_i (plat_tcp c) (signal_code PowerOn) ;; signal_i (plat_tcp c) (signal_code NvOn).
(** 234-255 *)
Definition get_command_response_sizes_i (c : tcp H) : io (signals W) (Z * Z * Z * Z) :=
  write_all_i (plat_tcp c) (u32_bytes GetCommandResponseSizes) ;;
  read_u32_i (plat_tcp c) >>= fun length =>
  if negb (length =? 16) then io_err InvalidData else
  read_bytes_i (plat_tcp c) 16 >>= fun resp =>
  check_response_end_i (plat_tcp c) ;;
  io_ret (le_val (firstn 4 resp), be_val (firstn 4 (skipn 4 resp)),
          le_val (firstn 4 (skipn 8 resp)), be_val (skipn 12 resp)).
(** 263-286 *)
Definition act_get_signaled_i (c : tcp H) (act_handle : Z) : io (signals W) Z :=
  write_whole_i (plat_tcp c) (u32_bytes ActGetSignaled ++ u32_bytes act_handle) ;;
  read_u32_i (plat_tcp c) >>= fun signaled =>
  check_response_end_i (plat_tcp c) ;;
  io_ret signaled.
(** 349-359, 366-376 *)
Definition end_both_i (c : tcp H) (code : Z) : io (signals W) unit :=
  write_all_i (tpm_tcp c) (u32_bytes code) ;;
  shutdown_call (tpm_tcp c) ;;
  write_all_i (plat_tcp c) (u32_bytes code) ;;
  shutdown_call (plat_tcp c).
(** 394-431 *)
Definition tcp_transact_i (c : tcp H) (s : signals W) (command response : list byte)
    : signals W * list byte * outcome io_error nat :=
  if 2 ^ 32 <=? Z.of_nat (length command) then (s, response, Err InvalidInput)
  else
    let t := tpm_tcp c in
    match (write_whole_i t (u32_bytes SendCommand ++ be_bytes 1 (locality c)
                            ++ u32_bytes (Z.of_nat (length command)) ++ command) ;; read_u32_i t) s with
    | (s, Ok len) =>
        if Z.of_nat (length response) <? len then (s, response, Err InvalidInput)
        else
          let n := Z.to_nat len in
          let '(s, bs, r) := read_exact_i t n s in
          let response := overwrite bs response in
          match r with
          | Ok _ => let '(s, r) := check_response_end_i t s in (s, response, omap (fun _ => n) r)
          | Err e => (s, response, Err e)
          | Panic => (s, response, Panic)
          end
    | (s, Err e) => (s, response, Err e)
    | (s, Panic) => (s, response, Panic)
    end.
(** [drop] of a simulator, 696-721; killing does not wait. *)
Definition simulator_drop_i (s : @simulator H C) : signals W -> signals W := fun w =>
  match end_both_i (conn s) Stop w with
  | (w', Ok _) => w'
  | (w', Err _) => (fst w', fst (simulator_stop sys s (snd w')))
  | (w', Panic) => w'
  end.
End Interrupts.

(** One operation, as [perform] in TcpSpec.v. *)
Definition perform_i {W H C} (sys : world W H C) (c : tcp H) (o : operation) (s : signals W)
    : tcp H * signals W * outcome io_error answer :=
  let keep (r : signals W * outcome io_error answer) := (c, fst r, snd r) in
  match o with
  | Transact command response =>
      let '(s', response', r) := tcp_transact_i sys c s command response in
      (c, s', omap (fun n => Payload (firstn n response')) r)
  | Hcrtm data => keep (unit_answer (hcrtm_sequence_i sys c data s))
  | Handshake v => keep (let '(s', r) := remote_handshake_i sys c v s in
                         (s', omap (fun x => Versions (fst x) (snd x)) r))
  | AlternativeResult z => keep (unit_answer (set_number_i sys (tpm_tcp c) SetAlternativeResult z s))
  | Signal g => keep (unit_answer (signal_i sys (plat_tcp c) (signal_code g) s))
  | Reinit => keep (unit_answer (reinit_i sys c s))
  | FailureMode => keep (unit_answer (signal_i sys (plat_tcp c) TestFailureMode s))
  | ResponseSizes => keep (let '(s', r) := get_command_response_sizes_i sys c s in
                           (s', omap (fun '(x1, x2, x3, x4) => Sizes x1 x2 x3 x4) r))
  | ActSignaled z => keep (let '(s', r) := act_get_signaled_i sys c z s in (s', omap Number r))
  | FirmwareHash z => keep (unit_answer (set_number_i sys (plat_tcp c) SetFirmwareHash z s))
  | FirmwareSvn z => keep (unit_answer (set_number_i sys (plat_tcp c) SetFirmwareSvn z s))
  | Locality l => (set_locality c l, s, Ok Done)
  | EndSession => keep (unit_answer (end_both_i sys c SessionEnd s))
  | StopSimulator => keep (unit_answer (end_both_i sys c Stop s))
  end.
