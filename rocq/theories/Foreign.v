(** The server over buffers that are a program's own (crates/tpm2-impl/src): the
    methods of [TpmReadBuffer] and [TpmWriteBuffer] are any functions, may change
    the buffer when they are called, keep the contract or not, and panic.  In
    Buffers.v and Shared.v a writer runs the callback exactly if it returns
    [Ok]; here nothing of the kind is assumed.  Offsets are small, so [usize]
    additions do not overflow.  A panic ends the call: that a buffer catches the
    panic of a callback is not modelled. *)
From Coq Require Import ZArith NArith List Lia Bool.
From Coq Require Import Init.Byte.
From Verif Require Import Prelude Errors Server Shared.
Import ListNotations.
Open Scope Z_scope.

(** The methods of the trait [TpmWriteBuffer], platform/buffer.rs:42-58, besides
    those of [TpmReadBuffer] ([shared_read] of Shared.v).  [write_callback] takes
    an [FnOnce], so it can run it once or not at all: [fw_begin] is what happens
    up to there, with the slice the callback gets ([None]: it is not run), and
    [fw_finish] the rest, with what the callback left in the slice. *)
Record foreign_write (W : Type) := {
  fw_write : W -> nat -> list byte -> W * outcome unit unit;
  fw_begin : W -> nat -> nat -> W * option (list byte);
  fw_finish : W -> option (list byte) -> W * outcome unit unit
}.
Arguments fw_write {W} _.
Arguments fw_begin {W} _.
Arguments fw_finish {W} _.

(** Both buffers as the server gets at them, [TpmBuffers], 99-110. *)
Record foreign (E : Type) := {
  f_len : E -> E * nat;                           (* get_request().len() *)
  f_u16 : E -> nat -> E * outcome unit Z;         (* get_request().read_be_u16 *)
  f_u32 : E -> nat -> E * outcome unit Z;
  f_write : E -> nat -> list byte -> E * outcome unit unit;       (* get_response().write *)
  f_begin : E -> nat -> nat -> E * option (list byte);            (* get_response().write_callback *)
  f_finish : E -> option (list byte) -> E * outcome unit unit
}.
Arguments f_len {E} _.
Arguments f_u16 {E} _.
Arguments f_u32 {E} _.
Arguments f_write {E} _.
Arguments f_begin {E} _.
Arguments f_finish {E} _.

(** [SeparateBuffers], buffers/separate.rs:1-33. *)
Definition separate_foreign {R W} (ri : shared_read R) (wi : foreign_write W) : foreign (R * W) := {|
  f_len := fun b => let '(r, n) := sh_len ri (fst b) in ((r, snd b), n);
  f_u16 := fun b offset => let '(r, o) := sh_u16 ri (fst b) offset in ((r, snd b), o);
  f_u32 := fun b offset => let '(r, o) := sh_u32 ri (fst b) offset in ((r, snd b), o);
  f_write := fun b offset data => let '(w, o) := fw_write wi (snd b) offset data in ((fst b, w), o);
  f_begin := fun b offset size => let '(w, s) := fw_begin wi (snd b) offset size in ((fst b, w), s);
  f_finish := fun b out => let '(w, o) := fw_finish wi (snd b) out in ((fst b, w), o)
|}.
(** [InOutBuffer], buffers/inout.rs:4-41: the buffer and its readable length.
    It does not override the provided methods. *)
Definition inout_into {W} (rw : shared_read W) (b : W * nat) (offset k : nat) : W * nat * outcome unit (list byte) :=
  if (snd b <? offset + k)%nat then (b, Err tt)
  else let '(w, o) := sh_into rw (fst b) offset k in ((w, snd b), o).
Definition inout_foreign {W} (rw : shared_read W) (wi : foreign_write W) : foreign (W * nat) := {|
  f_len := fun b => (b, snd b);
  f_u16 := sh_provided (inout_into rw) 2;
  f_u32 := sh_provided (inout_into rw) 4;
  f_write := fun b offset data => let '(w, o) := fw_write wi (fst b) offset data in ((w, snd b), o);
  f_begin := fun b offset size => let '(w, s) := fw_begin wi (fst b) offset size in ((w, snd b), s);
  f_finish := fun b out => let '(w, o) := fw_finish wi (fst b) out in ((w, snd b), o)
|}.

Section Server.
Context {D X E : Type} (dr : Drbg D) (es : EntropySource X) (fb : foreign E).
Local Notation ctx := (context D X).

(** [get_random], handler/random.rs:29-43, with [Response::write_callback],
    req_resp.rs:71-83; the reads are [sh_take] of Shared.v. *)
Definition get_random_foreign (c : ctx) (cur : cursor E) : ctx * cursor E * outcome Z unit :=
  match sh_take 2 (f_u16 fb) cur with
  | (cur, Panic) | (cur, Err _) => (c, cur, Panic)
  | (cur, Ok None) => (c, cur, Err rc_CommandSize)
  | (cur, Ok (Some requested_bytes)) =>
      let size := Z.to_nat requested_bytes in
      let at_ e n := {| bufs := e; request_offset := request_offset cur; response_offset := n |} in
      let '(e, slice) := f_begin fb (bufs cur) (response_offset cur) size in
      (* the callback, if it is run *)
      let '(c, r, out) :=
        match slice with
        | Some buffer => let '((c', r), out) := get_random_or_failure dr es c buffer in (c', r, Some out)
        | None => (c, Ok tt, None)
        end in
      match r with
      | Ok _ =>
          match f_finish fb e out with
          | (e, Ok _) => (c, at_ e (response_offset cur + size)%nat, Ok tt)
          | (e, Err _) => (c, at_ e (response_offset cur), Err rc_Memory)
          | (e, Panic) => (c, at_ e (response_offset cur), Panic)
          end
      | _ => (c, at_ e (response_offset cur), Panic)
      end
  end.

(** [execute_command], tpmctx.rs:58-95. *)
Definition execute_foreign (c : ctx) (e : E) : ctx * E * outcome Z nat :=
  let '(e, request_size) := f_len fb e in
  let cur := {| bufs := e; request_offset := 0; response_offset := 10 |} in
  match sh_take 2 (f_u16 fb) cur with
  | (cur, Panic) | (cur, Err _) => (c, bufs cur, Panic)
  | (cur, Ok None) => (c, bufs cur, Err rc_CommandSize)
  | (cur, Ok (Some _)) =>
  match sh_take 4 (f_u32 fb) cur with
  | (cur, Panic) | (cur, Err _) => (c, bufs cur, Panic)
  | (cur, Ok None) => (c, bufs cur, Err rc_CommandSize)
  | (cur, Ok (Some size)) =>
  if negb (size =? Z.of_nat request_size) then (c, bufs cur, Err rc_CommandSize) else
  match sh_take 4 (f_u32 fb) cur with
  | (cur, Panic) | (cur, Err _) => (c, bufs cur, Panic)
  | (cur, Ok None) => (c, bufs cur, Err rc_CommandSize)
  | (cur, Ok (Some command_code)) =>
  let '(c', cur', r) :=
    if command_code =? cc_GetRandom then get_random_foreign c cur else (c, cur, Err rc_CommandCode) in
  match r with
  | Err code => (c', bufs cur', Err code)
  | Panic => (c', bufs cur', Panic)
  | Ok _ =>
      let response_size := response_offset cur' in
      match f_write fb (bufs cur') 0 (be_bytes 2 0x8001) with
      | (e, Panic) => (c', e, Panic)
      | (e, Err _) => (c', e, Err rc_Memory)
      | (e, Ok _) =>
      match f_write fb e 2 (be_bytes 4 (Z.of_nat response_size mod 2 ^ 32)) with
      | (e, Panic) => (c', e, Panic)
      | (e, Err _) => (c', e, Err rc_Memory)
      | (e, Ok _) =>
      match f_write fb e 6 (be_bytes 4 0) with
      | (e, Panic) => (c', e, Panic)
      | (e, Err _) => (c', e, Err rc_Memory)
      | (e, Ok _) => (c', e, Ok response_size)
      end end end
  end end end end.

(** The common part of [execute_command_separate], 24-34, and
    [execute_command_in_place], 38-48, with [fill_error], 50-56. *)
Definition answer_foreign (c : ctx) (e : E) : ctx * E * outcome unit nat :=
  match execute_foreign c e with
  | (c', e, Ok size) => (c', e, Ok size)
  | (c', e, Err err) =>
      match f_write fb e 6 (be_bytes 4 err) with
      | (e, Ok _) => (c', e, Ok 10%nat)
      | (e, Err _) => (c', e, Ok 0%nat)
      | (e, Panic) => (c', e, Panic)
      end
  | (c', e, Panic) => (c', e, Panic)
  end.
End Server.

(** The two ways of executing a command; [InOutBuffer::new], inout.rs:11-14, asks
    the buffer for its length. *)
Definition served_separate {D X R W} (dr : Drbg D) (es : EntropySource X) (ri : shared_read R) (wi : foreign_write W)
    (c : context D X) (request : R) (response : W) : context D X * (R * W) * outcome unit nat :=
  answer_foreign dr es (separate_foreign ri wi) c (request, response).
Definition served_in_place {D X W} (dr : Drbg D) (es : EntropySource X) (rw : shared_read W) (wi : foreign_write W)
    (c : context D X) (in_out : W) (request_size : nat) : context D X * W * outcome unit nat :=
  let '(in_out, len) := sh_len rw in_out in
  let '(c', (w, _), r) := answer_foreign dr es (inout_foreign rw wi) c (in_out, Nat.min request_size len) in
  (c', w, r).
