(** Model of the server over arbitrary buffers, crates/tpm2-impl/src: the traits
    [TpmReadBuffer], [TpmWriteBuffer] and [TpmBuffers] as records of functions,
    and the same functions as in Server.v written against them.  Offsets are
    small, so [usize] additions do not overflow.  A trait method of the user's
    may panic. *)
From Coq Require Import ZArith NArith List Lia Bool.
From Coq Require Import Init.Byte.
From Verif Require Import Prelude Errors Server.
Import ListNotations.
Open Scope Z_scope.

(** The trait [TpmReadBuffer], platform/buffer.rs:6-35.  [read_into] gets the
    slice to fill and returns it; its error is [ReadOutOfBounds].  The last two
    may be overridden. *)
Record read_buffer (R : Type) := {
  len : R -> nat;
  read_into : R -> nat -> list byte -> outcome unit (list byte);
  read_u16 : R -> nat -> outcome unit Z;
  read_u32 : R -> nat -> outcome unit Z
}.
Arguments len {R} _.
Arguments read_into {R} _.
Arguments read_u16 {R} _.
Arguments read_u32 {R} _.
(** The provided [read_be_u16], 22-26, and [read_be_u32], 30-34. *)
Definition provided {R} (into : R -> nat -> list byte -> outcome unit (list byte)) (k : nat)
    (r : R) (offset : nat) : outcome unit Z :=
  omap be_val (into r offset (repeat x00 k)).

(** The trait [TpmWriteBuffer], 42-58; the error is [WriteOutOfBounds].  The
    callback is any function that changes a slice and gives a result.
    Simplified: an implementation that returns [Ok] has called the callback, and
    one that returns [Err] has not, as the documentation of the trait asks. *)
Record write_buffer (W : Type) := {
  reading : read_buffer W;
  write : W -> nat -> list byte -> W * outcome unit unit;
  call_back : forall A, W -> nat -> nat -> (list byte -> A * list byte) -> W * outcome unit A
}.
Arguments reading {W} _.
Arguments write {W} _.
Arguments call_back {W} _ {A}.

(** The implementations for [[u8]], 60-94. *)
Definition slice_reader : read_buffer (list byte) :=
  let into := fun buf offset out =>
    match slice_read buf offset (length out) with Some bs => Ok bs | None => Err tt end in
  {| len := @length byte; read_into := into; read_u16 := provided into 2; read_u32 := provided into 4 |}.
Definition slice_writer : write_buffer (list byte) := {|
  reading := slice_reader;
  write := fun buf offset data =>
    match slice_write buf offset data with Some b => (b, Ok tt) | None => (buf, Err tt) end;
  call_back := fun A buf offset size f =>
    match slice_write_callback buf offset size f with Some (a, b) => (b, Ok a) | None => (buf, Err tt) end
|}.

(** [TpmBuffers], 99-110: a request that can be read, and a response. *)
Record both (B W : Type) := {
  request : read_buffer B;                  (* of get_request() *)
  get_response : B -> W;
  put_response : B -> W -> B
}.
Arguments request {B W} _.
Arguments get_response {B W} _.
Arguments put_response {B W} _.

(** [SeparateBuffers], buffers/separate.rs:1-33. *)
Definition separate_both {R W} (ri : read_buffer R) : both (R * W) W := {|
  request := {| len := fun b => len ri (fst b); read_into := fun b => read_into ri (fst b);
                read_u16 := fun b => read_u16 ri (fst b); read_u32 := fun b => read_u32 ri (fst b) |};
  get_response := snd;
  put_response := fun b w => (fst b, w)
|}.
(** [InOutBuffer], buffers/inout.rs:4-41; it does not override the provided
    methods. *)
Definition inout_both {W} (wi : write_buffer W) : both (W * nat) W :=
  let into := fun (b : W * nat) offset out =>
    if (snd b <? offset + length out)%nat then Err tt
    else read_into (reading wi) (fst b) offset out in
  {| request := {| len := snd; read_into := into;
                   read_u16 := provided into 2; read_u32 := provided into 4 |};
     get_response := fst;
     put_response := fun b w => (w, snd b) |}.
Definition inout_both_new {W} (wi : write_buffer W) (buffer : W) (request_size : nat) : W * nat :=
  (buffer, Nat.min request_size (len (reading wi) buffer)).

Section Server.
Context {D X B W : Type} (dr : Drbg D) (es : EntropySource X) (bb : both B W) (wi : write_buffer W).
Local Notation ctx := (context D X).

(** [RequestThenResponse::read_be_u16] and [read_be_u32], req_resp.rs:13-36:
    [Ok None] is the error. *)
Definition take {k : nat} (read : B -> nat -> outcome unit Z) (c : cursor B) : outcome unit (option (Z * cursor B)) :=
  match read (bufs c) (request_offset c) with
  | Ok z => Ok (Some (z, {| bufs := bufs c; request_offset := request_offset c + k;
                            response_offset := response_offset c |}))
  | Err _ => Ok None
  | Panic => Panic
  end.

(** [get_random], handler/random.rs:29-43, with [Response::write_callback],
    req_resp.rs:71-83; a panic in the callback ends the call. *)
Definition get_random_any (c : ctx) (cur : cursor B) : ctx * cursor B * outcome Z unit :=
  match @take 2 (read_u16 (request bb)) cur with
  | Panic | Err _ => (c, cur, Panic)
  | Ok None => (c, cur, Err rc_CommandSize)
  | Ok (Some (requested_bytes, cur)) =>
      let size := Z.to_nat requested_bytes in
      match call_back wi (get_response bb (bufs cur)) (response_offset cur) size
              (get_random_or_failure dr es c) with
      | (w, Ok (c', r)) =>
          (c', {| bufs := put_response bb (bufs cur) w; request_offset := request_offset cur;
                  response_offset := response_offset cur + size |}, r)
      | (w, Err _) => (c, {| bufs := put_response bb (bufs cur) w; request_offset := request_offset cur;
                             response_offset := response_offset cur |}, Err rc_Memory)
      | (w, Panic) => (c, {| bufs := put_response bb (bufs cur) w; request_offset := request_offset cur;
                             response_offset := response_offset cur |}, Panic)
      end
  end.

(** [execute_command], tpmctx.rs:58-95. *)
Definition execute_any (c : ctx) (b : B) : ctx * B * outcome Z nat :=
  let request_size := len (request bb) b in
  let cur := {| bufs := b; request_offset := 0; response_offset := 10 |} in
  match @take 2 (read_u16 (request bb)) cur with
  | Panic | Err _ => (c, b, Panic)
  | Ok None => (c, b, Err rc_CommandSize)
  | Ok (Some (_, cur)) =>
  match @take 4 (read_u32 (request bb)) cur with
  | Panic | Err _ => (c, b, Panic)
  | Ok None => (c, b, Err rc_CommandSize)
  | Ok (Some (size, cur)) =>
  if negb (size =? Z.of_nat request_size) then (c, b, Err rc_CommandSize) else
  match @take 4 (read_u32 (request bb)) cur with
  | Panic | Err _ => (c, b, Panic)
  | Ok None => (c, b, Err rc_CommandSize)
  | Ok (Some (command_code, cur)) =>
  let '(c', cur', r) :=
    if command_code =? cc_GetRandom then get_random_any c cur else (c, cur, Err rc_CommandCode) in
  let b' := bufs cur' in
  match r with
  | Err e => (c', b', Err e)
  | Panic => (c', b', Panic)
  | Ok _ =>
      let response_size := response_offset cur' in
      match write wi (get_response bb b') 0 (be_bytes 2 0x8001) with
      | (w, Panic) => (c', put_response bb b' w, Panic)
      | (w, Err _) => (c', put_response bb b' w, Err rc_Memory)
      | (w, Ok _) =>
      match write wi w 2 (be_bytes 4 (Z.of_nat response_size mod 2 ^ 32)) with
      | (w, Panic) => (c', put_response bb b' w, Panic)
      | (w, Err _) => (c', put_response bb b' w, Err rc_Memory)
      | (w, Ok _) =>
      match write wi w 6 (be_bytes 4 0) with
      | (w, Panic) => (c', put_response bb b' w, Panic)
      | (w, Err _) => (c', put_response bb b' w, Err rc_Memory)
      | (w, Ok _) => (c', put_response bb b' w, Ok response_size)
      end end end
  end end end end.

(** [fill_error], 50-56. *)
Definition fill_error_any (w : W) (error : Z) : W * outcome unit nat :=
  match write wi w 6 (be_bytes 4 error) with
  | (w, Ok _) => (w, Ok 10%nat)
  | (w, Err _) => (w, Ok 0%nat)
  | (w, Panic) => (w, Panic)
  end.
(** The common part of [execute_command_separate], 24-34, and
    [execute_command_in_place], 38-48. *)
Definition answer_any (c : ctx) (b : B) : ctx * W * outcome unit nat :=
  let '(c', b', r) := execute_any c b in
  match r with
  | Ok size => (c', get_response bb b', Ok size)
  | Err err => let '(w, n) := fill_error_any (get_response bb b') err in (c', w, n)
  | Panic => (c', get_response bb b', Panic)
  end.
End Server.

Definition separate_any {D X R W} (dr : Drbg D) (es : EntropySource X) (ri : read_buffer R) (wi : write_buffer W)
    (c : context D X) (request : R) (response : W) : context D X * W * outcome unit nat :=
  answer_any dr es (separate_both ri) wi c (request, response).
Definition in_place_any {D X W} (dr : Drbg D) (es : EntropySource X) (wi : write_buffer W)
    (c : context D X) (in_out : W) (request_size : nat) : context D X * W * outcome unit nat :=
  answer_any dr es (inout_both wi) wi c (inout_both_new wi in_out request_size).
