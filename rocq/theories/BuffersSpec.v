(** The contract of the traits [TpmReadBuffer] and [TpmWriteBuffer]
    (crates/tpm2-impl/src/platform/buffer.rs:5-58) for a type whose values stand
    for byte strings. *)
From Coq Require Import ZArith NArith List Lia Bool.
From Coq Require Import Init.Byte.
From Verif Require Import Prelude Buffers.
Import ListNotations.
Open Scope Z_scope.

(** [n] bytes at [offset], when they are there. *)
Definition bytes_at (bs : list byte) (offset n : nat) (out : list byte) : Prop :=
  exists before after, bs = before ++ out ++ after /\ length before = offset /\ length out = n.
(** [data] put at [offset], the rest kept. *)
Definition put_at (bs : list byte) (offset : nat) (data bs' : list byte) : Prop :=
  exists before old after, bs = before ++ old ++ after /\ bs' = before ++ data ++ after
  /\ length before = offset /\ length old = length data.

Definition reads {R} (ri : read_buffer R) (content : R -> list byte) : Prop :=
  (forall r, len ri r = length (content r))
  /\ (forall r offset out,
        (offset + length out <= length (content r))%nat ->
        exists bs, read_into ri r offset out = Ok bs /\ bytes_at (content r) offset (length out) bs)
  /\ (forall r offset out,
        (length (content r) < offset + length out)%nat -> read_into ri r offset out = Err tt)
  /\ (forall r offset,                                      (* big-endian at the offset *)
        (forall bs, bytes_at (content r) offset 2 bs -> read_u16 ri r offset = Ok (be_val bs))
        /\ ((length (content r) < offset + 2)%nat -> read_u16 ri r offset = Err tt)
        /\ (forall bs, bytes_at (content r) offset 4 bs -> read_u32 ri r offset = Ok (be_val bs))
        /\ ((length (content r) < offset + 4)%nat -> read_u32 ri r offset = Err tt)).

(** A refused write changes nothing and does not run the callback.  An accepted
    callback gets some slice of the right length (what is in it is not said)
    and what it leaves there is written. *)
Definition writes {W} (wi : write_buffer W) (content : W -> list byte) : Prop :=
  reads (reading wi) content
  /\ (forall w offset data,
        (offset + length data <= length (content w))%nat ->
        exists w', write wi w offset data = (w', Ok tt) /\ put_at (content w) offset data (content w'))
  /\ (forall w offset data,
        (length (content w) < offset + length data)%nat ->
        exists w', write wi w offset data = (w', Err tt) /\ content w' = content w)
  /\ (forall A w offset size (f : list byte -> A * list byte),
        (offset + size <= length (content w))%nat ->
        (forall dest, length dest = size -> length (snd (f dest)) = size) ->
        exists w' dest, length dest = size
          /\ call_back wi w offset size f = (w', Ok (fst (f dest)))
          /\ put_at (content w) offset (snd (f dest)) (content w'))
  /\ (forall A w offset size (f : list byte -> A * list byte),
        (length (content w) < offset + size)%nat ->
        exists w', call_back wi w offset size f = (w', Err tt) /\ content w' = content w).
