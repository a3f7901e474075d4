(** Several users of one simulator who use all of its connection, both ports and
    all calls (crates/tpm2-client/src/connection/tcp.rs:44-432).  As in
    Clients.v, a call can be stopped before each of its system calls; the peer
    is the machine of Controls.v. *)
From Coq Require Import ZArith NArith List Lia Bool.
From Coq Require Import Init.Byte.
From Verif Require Import Prelude Types Client ClientSpec Tcp TcpSpec Controls.
From Verif Require Clients.
Import ListNotations.
Open Scope Z_scope.

(** A call up to its next system call; [true] is the stream to the TPM port. *)
Inductive talk (A : Type) : Type :=
| Said (a : A)
| Writes (h : bool) (bytes : list byte) (k : outcome io_error nat -> talk A)
| Reads (h : bool) (n : nat) (k : outcome io_error (list byte) -> talk A)
| Shuts (h : bool) (k : outcome io_error unit -> talk A).
Arguments Said {A} _.
Arguments Writes {A} _ _ _.
Arguments Reads {A} _ _ _.
Arguments Shuts {A} _ _.
Fixpoint next {A B} (p : talk A) (f : A -> talk B) : talk B :=
  match p with
  | Said a => f a
  | Writes h bytes k => Writes h bytes (fun o => next (k o) f)
  | Reads h n k => Reads h n (fun o => next (k o) f)
  | Shuts h k => Shuts h (fun o => next (k o) f)
  end.
(** Nobody acts in between. *)
Definition stream {H} (c : tcp H) (h : bool) : H := if h then tpm_tcp c else plat_tcp c.
Fixpoint run_talk {A W H C} (sys : world W H C) (c : tcp H) (p : talk A) (w : W) : W * A :=
  match p with
  | Said a => (w, a)
  | Writes h bytes k => let '(w', o) := write sys w (stream c h) bytes in run_talk sys c (k o) w'
  | Reads h n k => let '(w', o) := read sys w (stream c h) n in run_talk sys c (k o) w'
  | Shuts h k => let '(w', o) := shutdown sys w (stream c h) in run_talk sys c (k o) w'
  end.
(** The [?] operator. *)
Definition failing (A : Type) : Type := talk (outcome io_error A).
Definition try {A B} (m : failing A) (f : A -> failing B) : failing B :=
  next m (fun o => match o with Ok a => f a | Err e => Said (Err e) | Panic => Said Panic end).
Definition fine {A} (a : A) : failing A := Said (Ok a).
Definition fails {A} (e : io_error) : failing A := Said (Err e).

(** ** The functions of Tcp.v, stopped before each system call *)
(** [std::io::Write::write_all] and [std::io::Read::read_exact], as in Tcp.v. *)
Definition raw_write_t (h : bool) (bytes : list byte) : failing nat := Writes h bytes Said.
Fixpoint write_loop_t (fuel : nat) (h : bool) (buf : list byte) : failing unit :=
  match buf, fuel with
  | [], _ => fine tt
  | _, O => Said Panic
  | _, S fuel' =>
      Writes h buf (fun o =>
        match o with
        | Ok O => fails WriteZero
        | Ok n => if (length buf <? n)%nat then Said Panic else write_loop_t fuel' h (skipn n buf)
        | Err e => fails e
        | Panic => Said Panic
        end)
  end.
Definition write_all_t (h : bool) (buf : list byte) : failing unit := write_loop_t (length buf) h buf.
Fixpoint read_loop_t (fuel : nat) (h : bool) (n : nat) : talk (list byte * outcome io_error unit) :=
  match n, fuel with
  | O, _ => Said ([], Ok tt)
  | _, O => Said ([], Panic)
  | _, S fuel' =>
      Reads h n (fun o =>
        match o with
        | Ok [] => Said ([], Err UnexpectedEof)
        | Ok bs =>
            if (n <? length bs)%nat then Said ([], Panic)
            else next (read_loop_t fuel' h (n - length bs)) (fun '(rest, r) => Said (bs ++ rest, r))
        | Err e => Said ([], Err e)
        | Panic => Said ([], Panic)
        end)
  end.
Definition read_bytes_t (h : bool) (n : nat) : failing (list byte) :=
  next (read_loop_t n h n) (fun '(bs, r) => Said (omap (fun _ => bs) r)).
Definition read_u32_t (h : bool) : failing Z := try (read_bytes_t h 4) (fun bs => fine (be_val bs)).
(** [write_vectored] followed by the check, tcp.rs:106-118 and alike. *)
Definition write_whole_t (h : bool) (bytes : list byte) : failing unit :=
  try (raw_write_t h bytes) (fun n => if (n =? length bytes)%nat then fine tt else fails WriteZero).
(** [check_response_end], 379-389. *)
Definition check_end_t (h : bool) : failing unit :=
  try (read_u32_t h) (fun resp_end => if resp_end =? 0 then fine tt else fails InvalidData).
(** [hcrtm_sequence], 98-128. *)
Definition hcrtm_t (data : list byte) : failing unit :=
  try (write_all_t true (u32_bytes SignalHashStart)) (fun _ =>
  try (check_end_t true) (fun _ =>
  try (write_whole_t true (u32_bytes SignalHashData ++ u32_bytes (Z.of_nat (length data) mod 2 ^ 32) ++ data)) (fun _ =>
  try (check_end_t true) (fun _ =>
  try (write_all_t true (u32_bytes SignalHashEnd)) (fun _ =>
  check_end_t true))))).
(** [remote_handshake], 136-159. *)
Definition handshake_t (client_version : Z) : failing (Z * Z) :=
  try (write_whole_t true (u32_bytes RemoteHandshake ++ u32_bytes client_version)) (fun _ =>
  try (read_bytes_t true 8) (fun resp =>
  try (check_end_t true) (fun _ => fine (be_val (firstn 4 resp), be_val (skipn 4 resp))))).
(** [set_alternative_result], 167-185. *)
Definition alternative_t (result : Z) : failing unit :=
  try (write_whole_t true (u32_bytes SetAlternativeResult ++ u32_bytes result)) (fun _ => check_end_t true).
(** [platform_signal], 193-198. *)
Definition signal_t (s : signal) : failing unit :=
  try (write_all_t false (u32_bytes (signal_code s))) (fun _ => check_end_t false).
(** [reinit], 206-212. *)
Definition reinit_t : failing unit :=
  try (signal_t NvOff) (fun _ => try (signal_t PowerOff) (fun _ => try (signal_t PowerOn) (fun _ => signal_t NvOn))).
(** [test_failure_mode], 220-225. *)
Definition failure_t : failing unit :=
  try (write_all_t false (u32_bytes TestFailureMode)) (fun _ => check_end_t false).
(** [get_command_response_sizes], 234-255, with the getters 565-594. *)
Definition sizes_t : failing (Z * Z * Z * Z) :=
  try (write_all_t false (u32_bytes GetCommandResponseSizes)) (fun _ =>
  try (read_u32_t false) (fun length =>
  if negb (length =? 16) then fails InvalidData else
  try (read_bytes_t false 16) (fun resp =>
  try (check_end_t false) (fun _ =>
  fine (le_val (firstn 4 resp), be_val (firstn 4 (skipn 4 resp)),
        le_val (firstn 4 (skipn 8 resp)), be_val (skipn 12 resp)))))).
(** [act_get_signaled], 263-286. *)
Definition act_t (act_handle : Z) : failing Z :=
  try (write_whole_t false (u32_bytes ActGetSignaled ++ u32_bytes act_handle)) (fun _ =>
  try (read_u32_t false) (fun signaled => try (check_end_t false) (fun _ => fine signaled))).
(** [set_firmware_hash], 294-312, and [set_firmware_svn], 320-336. *)
Definition firmware_hash_t (hash : Z) : failing unit :=
  try (write_whole_t false (u32_bytes SetFirmwareHash ++ u32_bytes hash)) (fun _ => check_end_t false).
Definition firmware_svn_t (svn : Z) : failing unit :=
  try (write_whole_t false (u32_bytes SetFirmwareSvn ++ u32_bytes svn)) (fun _ => check_end_t false).
(** [session_end], 349-359, and [stop_simulator], 366-376. *)
Definition end_both_t (code : Z) : failing unit :=
  try (write_all_t true (u32_bytes code)) (fun _ => try (Shuts true Said) (fun _ =>
  try (write_all_t false (u32_bytes code)) (fun _ => Shuts false Said))).
(** [transact], 394-431. *)
Definition transact_t (loc : Z) (command response : list byte) : talk (list byte * outcome io_error nat) :=
  if 2 ^ 32 <=? Z.of_nat (length command) then Said (response, Err InvalidInput)
  else
    next (try (write_whole_t true (u32_bytes SendCommand ++ be_bytes 1 loc
                                   ++ u32_bytes (Z.of_nat (length command)) ++ command))
              (fun _ => read_u32_t true)) (fun o =>
    match o with
    | Ok len =>
        if Z.of_nat (length response) <? len then Said (response, Err InvalidInput)
        else
          let n := Z.to_nat len in
          next (read_loop_t n true n) (fun '(bs, r) =>
            let response := overwrite bs response in
            match r with
            | Ok _ => next (check_end_t true) (fun r => Said (response, omap (fun _ => n) r))
            | Err e => Said (response, Err e)
            | Panic => Said (response, Panic)
            end)
    | Err e => Said (response, Err e)
    | Panic => Said (response, Panic)
    end).
Definition shown {A B} (f : A -> B) (m : failing A) : failing B := next m (fun o => Said (omap f o)).
(** Any method of the connection, 98-376 and 394-431; [set_locality], 339-341, is
    in [level_after]. *)
Definition operation_t (loc : Z) (o : operation) : failing answer :=
  let unit_t := shown (fun _ : unit => Done) in
  match o with
  | Transact command response =>
      next (transact_t loc command response) (fun '(response', r) => Said (omap (fun n => Payload (firstn n response')) r))
  | Hcrtm data => unit_t (hcrtm_t data)
  | Handshake v => shown (fun x => Versions (fst x) (snd x)) (handshake_t v)
  | AlternativeResult z => unit_t (alternative_t z)
  | Signal s => unit_t (signal_t s)
  | Reinit => unit_t reinit_t
  | FailureMode => unit_t failure_t
  | ResponseSizes => shown (fun '(x1, x2, x3, x4) => Sizes x1 x2 x3 x4) sizes_t
  | ActSignaled z => shown Number (act_t z)
  | FirmwareHash z => unit_t (firmware_hash_t z)
  | FirmwareSvn z => unit_t (firmware_svn_t z)
  | Locality l => fine Done
  | EndSession => unit_t (end_both_t SessionEnd)
  | StopSimulator => unit_t (end_both_t Stop)
  end.
(** [run_command_with_handles], lib.rs:142-195. *)
Definition command_t (loc : Z) (c : command) (cmd handles : val) (a : area) : failing (val * val) :=
  match build_command c cmd handles a with
  | Err e => fails (FromTss e)
  | Panic => Said Panic
  | Ok bytes =>
      next (transact_t loc bytes (repeat x00 RESP_BUFFER_SIZE)) (fun '(resp_buffer, r) => Said
        match r with
        | Ok _ => omap_err FromTss (parse_response c a resp_buffer)
        | Err e => Err e
        | Panic => Panic
        end)
  end.
Definition call_t (loc : Z) (x : call) : talk result :=
  match x with
  | Call o => next (operation_t loc o) (fun r => Said (Called r))
  | RunCommand c cmd handles a => next (command_t loc c cmd handles a) (fun r => Said (Ran r))
  end.
Definition level_after (loc : Z) (x : call) : Z := match x with Call o => locality_after loc o | _ => loc end.

(** ** The users *)
(** A user with a connection of its own, as [client] in Clients.v; for each port
    what it sent that was not taken, and what was sent to it and it has not
    read. *)
Record user := {
  set_level : Z;
  calls : list call;
  in_call : option (talk result);
  have : list result;
  out : list byte * list byte;
  inc : list byte * list byte
}.
Definition newcomer (l : Z) (cs : list call) : user :=
  {| set_level := l; calls := cs; in_call := None; have := []; out := ([], []); inc := ([], []) |}.
Definition proceeds (x : user) (p : talk result) (o i : list byte * list byte) : user :=
  {| set_level := set_level x; calls := calls x; in_call := Some p; have := have x; out := o; inc := i |}.
Definition user_moves (piece : nat) (x : user) : user :=
  match in_call x with
  | None =>
      match calls x with
      | [] => x
      | c :: rest =>
          {| set_level := level_after (set_level x) c; calls := rest; in_call := Some (call_t (set_level x) c);
             have := have x; out := out x; inc := inc x |}
      end
  | Some (Said r) =>
      {| set_level := set_level x; calls := calls x; in_call := None; have := have x ++ [r]; out := out x; inc := inc x |}
  | Some (Writes h bytes k) =>
      proceeds x (k (Ok (length bytes))) (set_port h (port h (out x) ++ bytes) (out x)) (inc x)
  | Some (Reads h n k) =>
      match port h (inc x) with
      | [] => x
      | q =>
          let m := Nat.min (Nat.min n (length q)) (Nat.max 1 piece) in
          proceeds x (k (Ok (firstn m q))) (out x) (set_port h (skipn m q) (inc x))
      end
  | Some (Shuts h k) => proceeds x (k (Ok tt)) (out x) (inc x)
  end.
(** Everybody: a user moves, or the machine takes the first request that came in
    from a user on a port, if it is complete, and answers. *)
Record crowd (S : Type) := { shared : S; users : list user }.
Arguments shared {S} _.
Arguments users {S} _.
Inductive act :=
| Acts (i piece : nat)
| Attends (i : nat) (tpm_port : bool).
Definition acts {S} (f : machine S) (y : crowd S) (m : act) : crowd S :=
  match m with
  | Acts i piece =>
      match nth_error (users y) i with
      | Some x => {| shared := shared y; users := Clients.put i (user_moves piece x) (users y) |}
      | None => y
      end
  | Attends i h =>
      match nth_error (users y) i with
      | Some x =>
          let b := work f 1 h {| unit_ := shared y; got := out x; due := inc x |} in
          {| shared := unit_ b;
             users := Clients.put i {| set_level := set_level x; calls := calls x; in_call := in_call x; have := have x;
                                   out := got b; inc := due b |} (users y) |}
      | None => y
      end
  end.
Definition acted {S} (f : machine S) (ms : list act) (y : crowd S) : crowd S := fold_left (acts f) ms y.

(** ** The specification: users at the machine itself, one request at a time *)
(** What a call asks the machine, request by request. *)
Inductive plan (A : Type) : Type :=
| Return (a : A)
| Request (q : request) (k : list byte -> plan A).
Arguments Return {A} _.
Arguments Request {A} _ _.
Fixpoint after {A B} (p : plan A) (f : A -> plan B) : plan B :=
  match p with Return a => f a | Request q k => Request q (fun r => after (k r) f) end.
Definition asking {A} (q : request) (f : list byte -> A) : plan A := Request q (fun r => Return (f r)).
Definition told (qs : list request) : plan (outcome io_error answer) :=
  fold_right (fun q p => Request q (fun _ => p)) (Return (Ok Done)) qs.
Definition operation_plan (loc : Z) (o : operation) : plan (outcome io_error answer) :=
  match o with
  | Transact command response =>
      asking (AskCommand loc command) (fun r =>
        if (length response <? length r)%nat then Err InvalidInput else Ok (Payload r))
  | Hcrtm data => told [AskHashStart; AskHashData data; AskHashEnd]
  | Handshake v => asking (AskHandshake v) (fun r => Ok (Versions (be_val (firstn 4 r)) (be_val (skipn 4 r))))
  | AlternativeResult z => told [AskAlternative z]
  | Signal s => told [AskSignal s]
  | Reinit => told [AskSignal NvOff; AskSignal PowerOff; AskSignal PowerOn; AskSignal NvOn]
  | FailureMode => told [AskFailureMode]
  | ResponseSizes => asking AskSizes (fun r =>
      Ok (Sizes (le_val (firstn 4 r)) (be_val (firstn 4 (skipn 4 r)))
                (le_val (firstn 4 (skipn 8 r))) (be_val (skipn 12 r))))
  | ActSignaled z => asking (AskAct z) (fun r => Ok (Number (be_val r)))
  | FirmwareHash z => told [AskFirmwareHash z]
  | FirmwareSvn z => told [AskFirmwareSvn z]
  | Locality _ => Return (Ok Done)
  | EndSession => told [AskEnd true; AskEnd false]
  | StopSimulator => told [AskStop true; AskStop false]
  end.
Definition command_plan (loc : Z) (c : command) (cmd handles : val) (a : area) : plan (outcome io_error (val * val)) :=
  match build_command c cmd handles a with
  | Err e => Return (Err (FromTss e))
  | Panic => Return Panic
  | Ok bytes =>
      asking (AskCommand loc bytes) (fun r =>
        if (RESP_BUFFER_SIZE <? length r)%nat then Err InvalidInput
        else omap_err FromTss (parse_response c a (overwrite r (repeat x00 RESP_BUFFER_SIZE))))
  end.
Definition call_plan (loc : Z) (x : call) : plan result :=
  match x with
  | Call o => after (operation_plan loc o) (fun r => Return (Called r))
  | RunCommand c cmd handles a => after (command_plan loc c cmd handles a) (fun r => Return (Ran r))
  end.
(** A plan at a machine that answers, nobody acting in between. *)
Fixpoint run_plan {S A} (f : S -> request -> S * list byte) (p : plan A) (s : S) : S * A :=
  match p with
  | Return a => (s, a)
  | Request q k => let '(s', r) := f s q in run_plan f (k r) s'
  end.
(** Users at the machine: a turn begins a call, makes one request, or ends the
    call. *)
Record sitter := { sits_at : Z; wants : list call; plans : option (plan result); knows : list result }.
Definition seated (l : Z) (cs : list call) : sitter := {| sits_at := l; wants := cs; plans := None; knows := [] |}.
Definition turn {S} (f : S -> request -> S * list byte) (z : S * list sitter) (i : nat) : S * list sitter :=
  match nth_error (snd z) i with
  | None => z
  | Some x =>
      match plans x with
      | None =>
          match wants x with
          | [] => z
          | c :: rest =>
              (fst z, Clients.put i {| sits_at := level_after (sits_at x) c; wants := rest;
                                   plans := Some (call_plan (sits_at x) c); knows := knows x |} (snd z))
          end
      | Some (Return r) =>
          (fst z, Clients.put i {| sits_at := sits_at x; wants := wants x; plans := None; knows := knows x ++ [r] |} (snd z))
      | Some (Request q k) =>
          let '(s', r) := f (fst z) q in
          (s', Clients.put i {| sits_at := sits_at x; wants := wants x; plans := Some (k r); knows := knows x |} (snd z))
      end
  end.
Definition turns {S} (f : S -> request -> S * list byte) (order : list nat) (z : S * list sitter) : S * list sitter :=
  fold_left (turn f) order z.
(** Users who make whole calls in turn. *)
Definition whole_turn {S} (f : S -> request -> S * list byte) (z : S * list sitter) (i : nat) : S * list sitter :=
  match nth_error (snd z) i with
  | None => z
  | Some x =>
      match plans x, wants x with
      | None, c :: rest =>
          let '(s', r) := run_plan f (call_plan (sits_at x) c) (fst z) in
          (s', Clients.put i {| sits_at := level_after (sits_at x) c; wants := rest; plans := None; knows := knows x ++ [r] |} (snd z))
      | _, _ => z
      end
  end.
Definition whole_turns {S} (f : S -> request -> S * list byte) (order : list nat) (z : S * list sitter) : S * list sitter :=
  fold_left (whole_turn f) order z.
(** Calls that ask the machine only once. *)
Definition one_request (x : call) : Prop :=
  match x with Call (Hcrtm _) | Call Reinit | Call EndSession | Call StopSimulator => False | _ => True end.
(** The two as others see them. *)
Definition level_with (x : user) (z : sitter) : Prop :=
  set_level x = sits_at z /\ calls x = wants z /\ have x = knows z /\ (in_call x = None <-> plans z = None).

(** Answers of the protocol; the machine always answers. *)
Definition answer_ok (q : request) (r : list byte) : Prop :=
  match q with
  | AskCommand _ _ => Z.of_nat (length r) <= 4096
  | AskHandshake _ => length r = 8%nat
  | AskSizes => length r = 16%nat
  | AskAct _ => length r = 4%nat
  | _ => r = []
  end.
Definition answering {S} (f : S -> request -> S * list byte) : machine S := fun s q => let '(s', r) := f s q in (s', Some r).
(** Calls that keep the connection open. *)
Definition stays (x : call) : Prop := x <> Call EndSession /\ x <> Call StopSimulator.
