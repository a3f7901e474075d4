(** The server with a request in memory that others write to while a command is
    executed (crates/tpm2-impl/src).  The methods of [TpmReadBuffer] take
    [&self], but what they return can change from one call to the next.  In
    Buffers.v a reader is a function of its value; here every call of a reader
    gives a new value.  Responses are written as in Buffers.v.  Offsets are
    small, so [usize] additions do not overflow. *)
From Coq Require Import ZArith NArith List Lia Bool.
From Coq Require Import Init.Byte.
From Verif Require Import Prelude Errors Server Buffers.
Import ListNotations.
Open Scope Z_scope.

(** The trait [TpmReadBuffer], platform/buffer.rs:6-35; [read_into] gets the
    length of the slice to fill. *)
Record shared_read (R : Type) := {
  sh_len : R -> R * nat;
  sh_into : R -> nat -> nat -> R * outcome unit (list byte);
  sh_u16 : R -> nat -> R * outcome unit Z;
  sh_u32 : R -> nat -> R * outcome unit Z
}.
Arguments sh_len {R} _.
Arguments sh_into {R} _.
Arguments sh_u16 {R} _.
Arguments sh_u32 {R} _.
(** The provided [read_be_u16], 22-26, and [read_be_u32], 30-34. *)
Definition sh_provided {R} (into : R -> nat -> nat -> R * outcome unit (list byte)) (k : nat)
    (r : R) (offset : nat) : R * outcome unit Z :=
  let '(r, o) := into r offset k in (r, omap be_val o).

(** [TpmBuffers], 99-110. *)
Record shared_both (B W : Type) := {
  sh_request : shared_read B;               (* of get_request() *)
  sh_get : B -> W;                          (* get_response() *)
  sh_put : B -> W -> B
}.
Arguments sh_request {B W} _.
Arguments sh_get {B W} _.
Arguments sh_put {B W} _.
(** [SeparateBuffers], buffers/separate.rs:1-33. *)
Definition separate_shared_both {R W} (ri : shared_read R) : shared_both (R * W) W := {|
  sh_request := {|
    sh_len := fun b => let '(r, n) := sh_len ri (fst b) in ((r, snd b), n);
    sh_into := fun b offset k => let '(r, o) := sh_into ri (fst b) offset k in ((r, snd b), o);
    sh_u16 := fun b offset => let '(r, o) := sh_u16 ri (fst b) offset in ((r, snd b), o);
    sh_u32 := fun b offset => let '(r, o) := sh_u32 ri (fst b) offset in ((r, snd b), o) |};
  sh_get := snd;
  sh_put := fun b w => (fst b, w)
|}.
(** [InOutBuffer], buffers/inout.rs:4-41: the buffer, which reading can change,
    and its readable length. *)
Definition inout_shared_both {W} (rw : shared_read W) : shared_both (W * nat) W :=
  let into := fun (b : W * nat) offset k =>
    if (snd b <? offset + k)%nat then (b, Err tt)
    else let '(w, o) := sh_into rw (fst b) offset k in ((w, snd b), o) in
  {| sh_request := {| sh_len := fun b => (b, snd b); sh_into := into;
                      sh_u16 := sh_provided into 2; sh_u32 := sh_provided into 4 |};
     sh_get := fst;
     sh_put := fun b w => (w, snd b) |}.

Section Server.
Context {D X B W : Type} (dr : Drbg D) (es : EntropySource X) (bb : shared_both B W) (wi : write_buffer W).
Local Notation ctx := (context D X).

(** [RequestThenResponse::read_be_u16] and [read_be_u32], req_resp.rs:13-36, at
    the last read position, which moves on by [k]. *)
Definition sh_take (k : nat) (read : B -> nat -> B * outcome unit Z) (c : cursor B)
    : cursor B * outcome unit (option Z) :=
  match read (bufs c) (request_offset c) with
  | (b, Ok z) => ({| bufs := b; request_offset := request_offset c + k; response_offset := response_offset c |}, Ok (Some z))
  | (b, Err _) => ({| bufs := b; request_offset := request_offset c; response_offset := response_offset c |}, Ok None)
  | (b, Panic) => ({| bufs := b; request_offset := request_offset c; response_offset := response_offset c |}, Panic)
  end.

(** [get_random], handler/random.rs:29-43, with [Response::write_callback],
    req_resp.rs:71-83. *)
Definition get_random_shared (c : ctx) (cur : cursor B) : ctx * cursor B * outcome Z unit :=
  match sh_take 2 (sh_u16 (sh_request bb)) cur with
  | (cur, Panic) | (cur, Err _) => (c, cur, Panic)
  | (cur, Ok None) => (c, cur, Err rc_CommandSize)
  | (cur, Ok (Some requested_bytes)) =>
      let size := Z.to_nat requested_bytes in
      match call_back wi (sh_get bb (bufs cur)) (response_offset cur) size
              (get_random_or_failure dr es c) with
      | (w, Ok (c', r)) =>
          (c', {| bufs := sh_put bb (bufs cur) w; request_offset := request_offset cur;
                  response_offset := response_offset cur + size |}, r)
      | (w, Err _) => (c, {| bufs := sh_put bb (bufs cur) w; request_offset := request_offset cur;
                             response_offset := response_offset cur |}, Err rc_Memory)
      | (w, Panic) => (c, {| bufs := sh_put bb (bufs cur) w; request_offset := request_offset cur;
                             response_offset := response_offset cur |}, Panic)
      end
  end.

(** [execute_command], tpmctx.rs:58-95. *)
Definition execute_shared (c : ctx) (b : B) : ctx * B * outcome Z nat :=
  let '(b, request_size) := sh_len (sh_request bb) b in
  let cur := {| bufs := b; request_offset := 0; response_offset := 10 |} in
  match sh_take 2 (sh_u16 (sh_request bb)) cur with
  | (cur, Panic) | (cur, Err _) => (c, bufs cur, Panic)
  | (cur, Ok None) => (c, bufs cur, Err rc_CommandSize)
  | (cur, Ok (Some _)) =>
  match sh_take 4 (sh_u32 (sh_request bb)) cur with
  | (cur, Panic) | (cur, Err _) => (c, bufs cur, Panic)
  | (cur, Ok None) => (c, bufs cur, Err rc_CommandSize)
  | (cur, Ok (Some size)) =>
  if negb (size =? Z.of_nat request_size) then (c, bufs cur, Err rc_CommandSize) else
  match sh_take 4 (sh_u32 (sh_request bb)) cur with
  | (cur, Panic) | (cur, Err _) => (c, bufs cur, Panic)
  | (cur, Ok None) => (c, bufs cur, Err rc_CommandSize)
  | (cur, Ok (Some command_code)) =>
  let '(c', cur', r) :=
    if command_code =? cc_GetRandom then get_random_shared c cur else (c, cur, Err rc_CommandCode) in
  let b' := bufs cur' in
  match r with
  | Err e => (c', b', Err e)
  | Panic => (c', b', Panic)
  | Ok _ =>
      let response_size := response_offset cur' in
      match write wi (sh_get bb b') 0 (be_bytes 2 0x8001) with
      | (w, Panic) => (c', sh_put bb b' w, Panic)
      | (w, Err _) => (c', sh_put bb b' w, Err rc_Memory)
      | (w, Ok _) =>
      match write wi w 2 (be_bytes 4 (Z.of_nat response_size mod 2 ^ 32)) with
      | (w, Panic) => (c', sh_put bb b' w, Panic)
      | (w, Err _) => (c', sh_put bb b' w, Err rc_Memory)
      | (w, Ok _) =>
      match write wi w 6 (be_bytes 4 0) with
      | (w, Panic) => (c', sh_put bb b' w, Panic)
      | (w, Err _) => (c', sh_put bb b' w, Err rc_Memory)
      | (w, Ok _) => (c', sh_put bb b' w, Ok response_size)
      end end end
  end end end end.

(** The common part of [execute_command_separate], 24-34, and
    [execute_command_in_place], 38-48, with [fill_error], 50-56. *)
Definition answer_shared (c : ctx) (b : B) : ctx * W * outcome unit nat :=
  let '(c', b', r) := execute_shared c b in
  match r with
  | Ok size => (c', sh_get bb b', Ok size)
  | Err err => let '(w, n) := fill_error_any wi (sh_get bb b') err in (c', w, n)
  | Panic => (c', sh_get bb b', Panic)
  end.
End Server.

Definition separate_shared {D X R W} (dr : Drbg D) (es : EntropySource X) (ri : shared_read R) (wi : write_buffer W)
    (c : context D X) (request : R) (response : W) : context D X * W * outcome unit nat :=
  answer_shared dr es (separate_shared_both ri) wi c (request, response).
(** [InOutBuffer::new], inout.rs:11-14, asks the buffer for its length. *)
Definition in_place_shared {D X W} (dr : Drbg D) (es : EntropySource X) (rw : shared_read W) (wi : write_buffer W)
    (c : context D X) (in_out : W) (request_size : nat) : context D X * W * outcome unit nat :=
  let '(in_out, len) := sh_len rw in_out in
  answer_shared dr es (inout_shared_both rw) wi c (in_out, Nat.min request_size len).
