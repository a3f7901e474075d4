(** The simulator connection and the lists on targets whose [usize] does not
    have 64 bits (C90). *)
(* Restates the theorems of PortableNetFacts.v; proofs are there. *)
From Coq Require Import ZArith NArith List Lia Bool.
From Coq Require Import Init.Byte.
From Verif Require Import Prelude Types Marshal WireSpec MarshalProofs Errors Client Tcp TcpSpec ListSpec Tpml Portable PortableNet.
From Verif Require Import PortableNetFacts.
Import ListNotations.
Open Scope Z_scope.

(** ** C90 *)
(** Nor does it make a difference to any operation of the simulator connection,
    whatever the simulator answers. *)
Theorem C90_simulator w {W H C} (sys : world W H C) c o s :
  32 <= w -> perform_at sys w c o s = perform sys c o s.
Proof. exact (c90_simulator w (W := W) (H := H) (C := C) sys c o s). Qed.
Print Assumptions C90_simulator.

(** Nor to any call on a list, whatever 32-bit count the list says it has. *)
Theorem C90_lists w cap dflt x op :
  32 <= w -> 0 <= count_ x < 2 ^ 32 -> tpml_step_at w cap dflt x op = tpml_step cap dflt x op.
Proof. exact (c90_lists w cap dflt x op). Qed.
Print Assumptions C90_lists.

Example C90_simulator_example :
  let c := {| tpm_tcp := tt; plat_tcp := tt; locality := 0 |} in
  let o := Transact [x01] [x00; x00] in let s := be_bytes 4 65536 ++ be_bytes 4 0 in
  snd (perform_at huge_answer 32 c o s) = Err InvalidInput
  /\ snd (perform_at huge_answer 16 c o s) = Ok (Payload []).
Proof. exact c90_simulator_example. Qed.
