(** Model of the new-style marshalling of the [tpm2] crate:
    crates/tpm2/src/{marshal,tpmi,tpmt,constants}.rs.

    [MarshalError] and [UnmarshalError] are unit structs (errors/mod.rs:18-40),
    so the error type is [unit].  A [Limits] implementation is a function
    [supports : hash -> bool]; [max_digest_size] is the provided default method.
    [marshal] returns the whole destination buffer and, on success, how many
    bytes it used: the returned slice is the buffer behind them.  No function
    here can panic, so the outcomes are [Ok] or [Err] only. *)
From Coq Require Import ZArith NArith List Lia Bool.
From Coq Require Import Init.Byte.
From Verif Require Import Prelude Types Marshal.
Import ListNotations.
Open Scope Z_scope.

(** [TpmiAlgHash], tpmi.rs:12-21, discriminants constants.rs:22-52. *)
Inductive hash := Sha1 | Sha256 | Sha384 | Sha512 | Sm3_256 | Sha3_256 | Sha3_384 | Sha3_512.
Definition hash_id (h : hash) : Z :=
  match h with
  | Sha1 => 0x0004 | Sha256 => 0x000B | Sha384 => 0x000C | Sha512 => 0x000D
  | Sm3_256 => 0x0012 | Sha3_256 => 0x0027 | Sha3_384 => 0x0028 | Sha3_512 => 0x0029
  end.
(** tpmi.rs:24-36 *)
Definition digest_size (h : hash) : nat :=
  match h with
  | Sha1 => 20 | Sha256 => 32 | Sha384 => 48 | Sha512 => 64
  | Sm3_256 => 32 | Sha3_256 => 32 | Sha3_384 => 48 | Sha3_512 => 64
  end.
(** tpmi.rs:39-47 *)
Definition BY_SIZE_DESC : list hash :=
  [Sha512; Sha3_512; Sha384; Sha3_384; Sha256; Sha3_256; Sm3_256; Sha1].
(** [Limits::max_digest_size], marshal.rs:30-37. *)
Fixpoint first_supported (supports : hash -> bool) (l : list hash) : nat :=
  match l with
  | [] => 0
  | h :: l' => if supports h then digest_size h else first_supported supports l'
  end.
Definition max_digest_size (supports : hash -> bool) : nat := first_supported supports BY_SIZE_DESC.

(** [From<TpmiAlgHash> for Alg], tpmi.rs:49-53. *)
Definition alg_of_hash (h : hash) : Z := hash_id h.
(** [TryFrom<Alg> for TpmiAlgHash], tpmi.rs:54-70. *)
Definition hash_of_alg (a : Z) : outcome unit hash :=
  if a =? 0x0004 then Ok Sha1 else if a =? 0x000B then Ok Sha256
  else if a =? 0x000C then Ok Sha384 else if a =? 0x000D then Ok Sha512
  else if a =? 0x0012 then Ok Sm3_256 else if a =? 0x0027 then Ok Sha3_256
  else if a =? 0x0028 then Ok Sha3_384 else if a =? 0x0029 then Ok Sha3_512
  else Err tt.

(** [split_first_chunk::<N>]. *)
Definition split_first_chunk (n : nat) (buf : list byte) : option (list byte * list byte) :=
  if (n <=? length buf)%nat then Some (firstn n buf, skipn n buf) else None.

(** The blanket [Marshal::marshal] of a [MarshalArray] type, marshal.rs:72-91;
    [arr] is what [marshal_array] stores. *)
Definition marshal_fixed (arr buf : list byte) : list byte * outcome unit nat :=
  match split_first_chunk (length arr) buf with
  | Some (_, rest) => (arr ++ rest, Ok (length arr))
  | None => (buf, Err tt)
  end.
(** The blanket [Unmarshal::unmarshal] of an [UnmarshalArray] type of [n]
    bytes, marshal.rs:108-118: the new [*self] and the returned rest. *)
Definition unmarshal_fixed {A} (n : nat) (of_array : list byte -> outcome unit A)
    (self : A) (buf : list byte) : A * outcome unit (list byte) :=
  match split_first_chunk n buf with
  | Some (arr, rest) =>
      match of_array arr with
      | Ok a => (a, Ok rest)
      | Err e => (self, Err e)
      | Panic => (self, Panic)
      end
  | None => (self, Err tt)
  end.

(** Integers, marshal.rs:121-136.  [k] bytes, signed iff [sg]. *)
Definition marshal_int (k : nat) (z : Z) (buf : list byte) := marshal_fixed (be_bytes k z) buf.
Definition unmarshal_int (sg : bool) (k : nat) (self : Z) (buf : list byte) :=
  unmarshal_fixed k (fun arr => Ok (int_of_be sg arr)) self buf.
(** [[u8; N]], marshal.rs:138-145. *)
Definition marshal_bytes (d buf : list byte) := marshal_fixed d buf.
(** [Alg], constants.rs:60-74. *)
Definition marshal_alg (a : Z) (buf : list byte) := marshal_int 2 a buf.
Definition unmarshal_alg (self : Z) (buf : list byte) := unmarshal_int false 2 self buf.
(** [TpmiAlgHash], tpmi.rs:71-86. *)
Definition hash_of_array (arr : list byte) : outcome unit hash := hash_of_alg (int_of_be false arr).
Definition marshal_hash (h : hash) (buf : list byte) := marshal_alg (alg_of_hash h) buf.
Definition unmarshal_hash (self : hash) (buf : list byte) := unmarshal_fixed 2 hash_of_array self buf.

(** [TpmtHa], tpmt.rs:14-20.  The digest arrays have the length given by the
    type; [wf_ha] says so. *)
Inductive ha := HaSha1 (d : list byte) | HaSha256 (d : list byte)
              | HaSha384 (d : list byte) | HaSha512 (d : list byte).
(** tpmt.rs:23-38 *)
Definition ha_hash (x : ha) : hash :=
  match x with HaSha1 _ => Sha1 | HaSha256 _ => Sha256 | HaSha384 _ => Sha384 | HaSha512 _ => Sha512 end.
Definition ha_digest (x : ha) : list byte :=
  match x with HaSha1 d | HaSha256 d | HaSha384 d | HaSha512 d => d end.
Definition wf_ha (x : ha) : Prop :=
  match x with
  | HaSha1 d => length d = 20%nat | HaSha256 d => length d = 32%nat
  | HaSha384 d => length d = 48%nat | HaSha512 d => length d = 64%nat
  end.

(** [TpmtHa::marshal], tpmt.rs:42-57. *)
Definition marshal_ha (supports : hash -> bool) (x : ha) (buf : list byte)
    : list byte * outcome unit nat :=
  if negb (supports (ha_hash x)) then (buf, Err tt)
  else match marshal_hash (ha_hash x) buf with
       | (buf1, Ok n) =>
           let '(rest, r) := match x with
                             | HaSha1 d => marshal_bytes d (skipn n buf1)
                             | HaSha256 d => marshal_bytes d (skipn n buf1)
                             | HaSha384 d => marshal_bytes d (skipn n buf1)
                             | HaSha512 d => marshal_bytes d (skipn n buf1)
                             end in
           (firstn n buf1 ++ rest, omap (fun m => (n + m)%nat) r)
       | (buf1, Err e) => (buf1, Err e)
       | (buf1, Panic) => (buf1, Panic)
       end.
(** [marshaled_size], [marshaled_size_max], tpmt.rs:58-63. *)
Definition ha_marshaled_size (x : ha) : nat := 2 + digest_size (ha_hash x).
Definition ha_marshaled_size_max (supports : hash -> bool) : nat := 2 + max_digest_size supports.

(** One arm of [TpmtHa::unmarshal]: [split_first_chunk] of the array type's
    length, then the assignment to [*self]. *)
Definition take_digest (n : nat) (mk : list byte -> ha) (self : ha) (buf : list byte)
    : ha * outcome unit (list byte) :=
  match split_first_chunk n buf with
  | Some (arr, rest) => (mk arr, Ok rest)
  | None => (self, Err tt)
  end.
(** [TpmtHa::unmarshal], tpmt.rs:66-96. *)
Definition unmarshal_ha (supports : hash -> bool) (self : ha) (buf : list byte)
    : ha * outcome unit (list byte) :=
  match split_first_chunk 2 buf with
  | None => (self, Err tt)
  | Some (arr, rest) =>
      match hash_of_array arr with
      | Err e => (self, Err e)
      | Panic => (self, Panic)
      | Ok Sha1 => if supports Sha1 then take_digest 20 HaSha1 self rest else (self, Err tt)
      | Ok Sha256 => if supports Sha256 then take_digest 32 HaSha256 self rest else (self, Err tt)
      | Ok Sha384 => if supports Sha384 then take_digest 48 HaSha384 self rest else (self, Err tt)
      | Ok Sha512 => if supports Sha512 then take_digest 64 HaSha512 self rest else (self, Err tt)
      | Ok _ => (self, Err tt)
      end
  end.
