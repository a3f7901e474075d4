(** Model of the TPM server, crates/tpm2-impl/src.

    Requests and responses are byte slices, the one implementation of
    [TpmReadBuffer] and [TpmWriteBuffer] in the crate.  DRBG and entropy source
    are arbitrary implementations of their traits.  Offsets are small, so
    [usize] additions do not overflow. *)
From Coq Require Import ZArith NArith List Lia Bool.
From Coq Require Import Init.Byte.
From Verif Require Import Prelude Errors.
Import ListNotations.
Open Scope Z_scope.

(** [ServerError], error.rs:7-9, and [DrbgError], drbg/error.rs:4, have one
    value each: [tt]. *)

(** The trait [Drbg], platform/crypto/drbg/mod.rs:57-151.  [D] is [Self];
    [Entropy] and [Nonce] are the bytes [as_mut] gives.  A method with
    [&mut self] returns the new state. *)
Record Drbg (D : Type) := {
  entropy_default : list byte;
  nonce_default : list byte;
  instantiate : list byte -> list byte -> list byte -> outcome unit D;
  reseed : D -> list byte -> list byte -> D * outcome unit unit;
  next_u32 : D -> list byte -> D * outcome unit Z;
  next_u64 : D -> list byte -> D * outcome unit Z;
  fill_bytes : D -> list byte -> list byte -> D * list byte * outcome unit unit;
  requires_reseeding : D -> D * bool
}.
Arguments entropy_default {D} _.
Arguments nonce_default {D} _.
Arguments instantiate {D} _.
Arguments reseed {D} _.
Arguments next_u32 {D} _.
Arguments next_u64 {D} _.
Arguments fill_bytes {D} _.
Arguments requires_reseeding {D} _.

(** The trait [EntropySource], platform/crypto/entropy.rs:2-7. *)
Record EntropySource (X : Type) := {
  source : X;                                     (* instantiate *)
  fill_entropy : X -> list byte -> X * list byte
}.
Arguments source {X} _.
Arguments fill_entropy {X} _.

(** [TpmContext], tpmctx.rs:10-12, with [CommandHandler] and [Crypto]. *)
Record context (D X : Type) := { drbg : D; entropy : X }.
Arguments drbg {D X} _.
Arguments entropy {D X} _.

(** *** Byte slices, platform/buffer.rs *)

(** [read_into] for [[u8]], 64-70, reading [n] bytes. *)
Definition slice_read (buf : list byte) (offset n : nat) : option (list byte) :=
  if (offset + n <=? length buf)%nat then Some (firstn n (skipn offset buf)) else None.
(** [write] for [[u8]], 74-81. *)
Definition slice_write (buf : list byte) (offset : nat) (data : list byte) : option (list byte) :=
  if (offset + length data <=? length buf)%nat
  then Some (firstn offset buf ++ overwrite data (skipn offset buf)) else None.
(** [write_callback] for [[u8]], 82-93, with a callback that changes a state. *)
Definition slice_write_callback {A} (buf : list byte) (offset size : nat)
    (callback : list byte -> A * list byte) : option (A * list byte) :=
  if (offset + size <=? length buf)%nat
  then let '(a, out) := callback (firstn size (skipn offset buf)) in
       Some (a, firstn offset buf ++ out ++ skipn (offset + size) buf)
  else None.

(** *** [TpmBuffers], platform/buffer.rs:99-110 *)
Record buffers (B : Type) := {
  request_len : B -> nat;                                       (* get_request().len() *)
  request_read : B -> nat -> nat -> option (list byte);         (* get_request().read_into *)
  response : B -> list byte;                                    (* get_response() *)
  set_response : B -> list byte -> B
}.
Arguments request_len {B} _.
Arguments request_read {B} _.
Arguments response {B} _.
Arguments set_response {B} _.

(** [SeparateBuffers], buffers/separate.rs: request and response. *)
Definition separate : buffers (list byte * list byte) := {|
  request_len := fun b => length (fst b);
  request_read := fun b => slice_read (fst b);
  response := snd;
  set_response := fun b r => (fst b, r)
|}.
(** [InOutBuffer], buffers/inout.rs: the buffer and its readable length. *)
Definition inout_new (buffer : list byte) (request_size : nat) : list byte * nat :=   (* 11-14 *)
  (buffer, Nat.min request_size (length buffer)).
Definition inout : buffers (list byte * nat) := {|
  request_len := snd;                                           (* 30-32 *)
  request_read := fun b offset n =>                             (* 34-40 *)
    if (snd b <? offset + n)%nat then None else slice_read (fst b) offset n;
  response := fst;
  set_response := fun b r => (r, snd b)
|}.

(** *** [RequestResponseCursor], req_resp.rs:88-120 *)
Record cursor (B : Type) := { bufs : B; request_offset : nat; response_offset : nat }.
Arguments bufs {B} _.
Arguments request_offset {B} _.
Arguments response_offset {B} _.

(** [read_be_u16], req_resp.rs:13-22 with platform/buffer.rs:22-26, and
    [read_be_u32], 27-36 with 30-34. *)
Definition read_be {B} (bb : buffers B) (k : nat) (c : cursor B) : option (Z * cursor B) :=
  match request_read bb (bufs c) (request_offset c) k with
  | Some bytes => Some (be_val bytes,
      {| bufs := bufs c; request_offset := request_offset c + k; response_offset := response_offset c |})
  | None => None
  end.
Definition read_be_u16 {B} (bb : buffers B) := read_be bb 2.
Definition read_be_u32 {B} (bb : buffers B) := read_be bb 4.
(** [Response::write_callback], 71-83. *)
Definition write_callback {A B} (bb : buffers B) (c : cursor B) (size : nat)
    (callback : list byte -> A * list byte) : option (A * cursor B) :=
  match slice_write_callback (response bb (bufs c)) (response_offset c) size callback with
  | Some (a, r) => Some (a, {| bufs := set_response bb (bufs c) r;
      request_offset := request_offset c; response_offset := response_offset c + size |})
  | None => None
  end.

Section Server.
Context {D X : Type} (dr : Drbg D) (es : EntropySource X).
Local Notation ctx := (context D X).

(** [TpmContext::new], tpmctx.rs:16-20; [Crypto::new], crypto.rs:15-27. *)
Definition new : outcome unit ctx :=
  let '(x1, entropy_input) := fill_entropy es (source es) (entropy_default dr) in
  let '(x2, nonce) := fill_entropy es x1 (nonce_default dr) in
  omap (fun d => {| drbg := d; entropy := x2 |}) (instantiate dr entropy_input nonce []).

(** *** handler/random.rs *)

(** [try_get_random], 14-21. *)
Definition try_get_random (c : ctx) (buffer : list byte) : ctx * list byte * outcome unit unit :=
  let '(d1, reseeding) := requires_reseeding dr (drbg c) in
  let '(c2, r) :=
    if reseeding then
      let '(x, seed) := fill_entropy es (entropy c) (entropy_default dr) in
      let '(d2, r) := reseed dr d1 seed [] in
      ({| drbg := d2; entropy := x |}, r)
    else ({| drbg := d1; entropy := entropy c |}, Ok tt) in
  match r with
  | Ok _ => let '(d3, out, r) := fill_bytes dr (drbg c2) [] buffer in
            ({| drbg := d3; entropy := entropy c2 |}, out, r)
  | Err e => (c2, buffer, Err e)
  | Panic => (c2, buffer, Panic)
  end.
(** [get_random_or_faiure_mode], 23-27: [todo!()] panics. *)
Definition get_random_or_failure (c : ctx) (buffer : list byte) : (ctx * outcome Z unit) * list byte :=
  let '(c', out, r) := try_get_random c buffer in
  match r with
  | Ok _ => ((c', Ok tt), out)
  | _ => ((c', Panic), out)
  end.
(** [get_random], 29-43. *)
Definition get_random {B} (bb : buffers B) (c : ctx) (cur : cursor B) : ctx * cursor B * outcome Z unit :=
  match read_be_u16 bb cur with
  | None => (c, cur, Err rc_CommandSize)
  | Some (requested_bytes, cur) =>
      match write_callback bb cur (Z.to_nat requested_bytes) (get_random_or_failure c) with
      | Some ((c', r), cur') => (c', cur', r)
      | None => (c, cur, Err rc_Memory)
      end
  end.

(** *** tpmctx.rs *)

Definition cc_GetRandom := 0x17B.

(** [execute_command], 58-95. *)
Definition execute_command {B} (bb : buffers B) (c : ctx) (b : B) : ctx * B * outcome Z nat :=
  let request_size := request_len bb b in
  let cur := {| bufs := b; request_offset := 0; response_offset := 10 |} in
  match read_be_u16 bb cur with
  | None => (c, b, Err rc_CommandSize)
  | Some (_, cur) =>
  match read_be_u32 bb cur with
  | None => (c, b, Err rc_CommandSize)
  | Some (size, cur) =>
  if negb (size =? Z.of_nat request_size) then (c, b, Err rc_CommandSize) else
  match read_be_u32 bb cur with
  | None => (c, b, Err rc_CommandSize)
  | Some (command_code, cur) =>
  let '(c', cur', r) :=
    if command_code =? cc_GetRandom then get_random bb c cur else (c, cur, Err rc_CommandCode) in
  let b' := bufs cur' in
  match r with
  | Err e => (c', b', Err e)
  | Panic => (c', b', Panic)
  | Ok _ =>
      let response_size := response_offset cur' in
      match slice_write (response bb b') 0 (be_bytes 2 0x8001) with
      | None => (c', b', Err rc_Memory)
      | Some r1 =>
      match slice_write r1 2 (be_bytes 4 (Z.of_nat response_size mod 2 ^ 32)) with
      | None => (c', set_response bb b' r1, Err rc_Memory)
      | Some r2 =>
      match slice_write r2 6 (be_bytes 4 0) with
      | None => (c', set_response bb b' r2, Err rc_Memory)
      | Some r3 => (c', set_response bb b' r3, Ok response_size)
      end end end
  end end end end.

(** [fill_error], 50-56. *)
Definition fill_error (resp : list byte) (error : Z) : list byte * nat :=
  match slice_write resp 6 (be_bytes 4 error) with
  | None => (resp, 0%nat)
  | Some r => (r, 10%nat)
  end.

(** [execute_command_separate], 24-34: the context, the response buffer and the
    returned size. *)
Definition execute_command_separate (c : ctx) (request resp : list byte)
    : ctx * list byte * outcome unit nat :=
  let '(c', b, r) := execute_command separate c (request, resp) in
  match r with
  | Ok size => (c', snd b, Ok size)
  | Err err => let '(resp', n) := fill_error (snd b) err in (c', resp', Ok n)
  | Panic => (c', snd b, Panic)
  end.
(** [execute_command_in_place], 38-48. *)
Definition execute_command_in_place (c : ctx) (in_out : list byte) (request_size : nat)
    : ctx * list byte * outcome unit nat :=
  let '(c', b, r) := execute_command inout c (inout_new in_out request_size) in
  match r with
  | Ok size => (c', fst b, Ok size)
  | Err err => let '(buf', n) := fill_error (fst b) err in (c', buf', Ok n)
  | Panic => (c', fst b, Panic)
  end.
End Server.
