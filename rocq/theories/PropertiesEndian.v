(** The byte order of the machine (C104). *)
(* Restates the theorems of EndianFacts.v; proofs are there. *)
From Coq Require Import String ZArith NArith List Lia Bool.
From Coq Require Import Init.Byte.
From Verif Require Import Prelude Client Tcp TcpSpec TcpProofs TcpFacts Endian.
From Verif Require PortableNetFacts.
From Verif Require Import EndianFacts.
Import ListNotations.
Open Scope Z_scope.

(** ** C104 *)
(** On a little-endian machine it is the call that the other claims are about. *)
Theorem C104_little W H C (sys : world W H C) (c : tcp H) w :
  get_sizes_on Little sys c w = get_command_response_sizes sys c w.
Proof. exact (c104_little W H C sys c w). Qed.
Print Assumptions C104_little.

(** On a big-endian machine it makes the same system calls in the same world, with
    the same outcome, but for the order of the bytes of the two sizes. *)
Theorem C104_big W H C (sys : world W H C) (c : tcp H) w :
  get_sizes_on Big sys c w
  = (let '(w', r) := get_sizes_on Little sys c w in
     (w', omap (fun '(x1, x2, x3, x4) => (swapped x1, x2, swapped x3, x4)) r)).
Proof. exact (c104_big W H C sys c w). Qed.
Print Assumptions C104_big.

(** A client gets what a simulator on a machine of the same byte order has, and
    if the orders differ, the sizes - not the codes - with their bytes in the
    other order. *)
Theorem C104_reported pieces client simulator l x1 x2 x3 x4 w :
  u32_ok x1 -> u32_ok x2 -> u32_ok x3 -> u32_ok x4 ->
  get_sizes_on client (pipe pieces) (ends l) (fst w, sent_sizes simulator x1 x2 x3 x4 ++ snd w)
  = (w, Ok (match client, simulator with
            | Little, Little | Big, Big => (x1, x2, x3, x4)
            | _, _ => (swapped x1, x2, swapped x3, x4) end)).
Proof. exact (c104_reported pieces client simulator l x1 x2 x3 x4 w). Qed.
Print Assumptions C104_reported.

(** Orders that differ do matter: 4096 is reported as 1048576. *)
Example C104_example :
  u32_ok 4096 /\ u32_ok 0x17b /\ u32_ok 12
  /\ get_sizes_on Little (pipe byte_by_byte) (ends 0) ([], sent_sizes Little 4096 0x17b 12 0x17b) = (([], []), Ok (4096, 0x17b, 12, 0x17b))
  /\ get_sizes_on Big (pipe byte_by_byte) (ends 0) ([], sent_sizes Big 4096 0x17b 12 0x17b) = (([], []), Ok (4096, 0x17b, 12, 0x17b))
  /\ get_sizes_on Big (pipe byte_by_byte) (ends 0) ([], sent_sizes Little 4096 0x17b 12 0x17b) = (([], []), Ok (1048576, 0x17b, 201326592, 0x17b)).
Proof. exact c104_example. Qed.
