(** [get_command_response_sizes] on machines of either byte order
    (crates/tpm2-client/src/connection/tcp.rs:234-255, 564-594). *)
From Coq Require Import ZArith NArith List Lia Bool.
From Coq Require Import Init.Byte.
From Verif Require Import Prelude Client Tcp.
Import ListNotations.
Open Scope Z_scope.

Inductive order := Little | Big.
(** A [u32] in memory. *)
Definition in_memory (m : order) (z : Z) : list byte := match m with Little => le_bytes 4 z | Big => be_bytes 4 z end.
Definition from_memory (m : order) (b : list byte) : Z := match m with Little => le_val b | Big => be_val b end.

(** The 16 bytes are read into the struct, 564-574, whose sizes are [u32] and
    whose codes are [U32]; then the four getters, 576-594. *)
Definition largest_command_size (m : order) (resp : list byte) : Z := from_memory m (firstn 4 resp).
Definition largest_command (resp : list byte) : Z := be_val (firstn 4 (skipn 4 resp)).
Definition largest_response_size (m : order) (resp : list byte) : Z := from_memory m (firstn 4 (skipn 8 resp)).
Definition largest_response (resp : list byte) : Z := be_val (skipn 12 resp).
(** 234-255. *)
Definition get_sizes_on {W H C} (m : order) (sys : world W H C) (c : tcp H) : io W (Z * Z * Z * Z) :=
  io_bind (write_all sys (plat_tcp c) (u32_bytes GetCommandResponseSizes)) (fun _ =>
  io_bind (read_u32 sys (plat_tcp c)) (fun length =>
  if negb (length =? 16) then io_err InvalidData else
  io_bind (read_bytes sys (plat_tcp c) 16) (fun resp =>
  io_bind (check_response_end sys (plat_tcp c)) (fun _ =>
  io_ret (largest_command_size m resp, largest_command resp, largest_response_size m resp, largest_response resp))))).

(** ** The specification *)
(** The bytes of a number in the other order. *)
Definition swapped (z : Z) : Z := be_val (le_bytes 4 z).
(** The simulator that the declaration of the struct, 564-574, supposes: on a
    machine of order [m] it has the two sizes in memory as numbers and the two
    codes as they are on the wire, and sends its memory. *)
Definition sent_sizes (m : order) (x1 x2 x3 x4 : Z) : list byte :=
  be_bytes 4 16 ++ in_memory m x1 ++ be_bytes 4 x2 ++ in_memory m x3 ++ be_bytes 4 x4 ++ [x00; x00; x00; x00].
