(** The low-level crate does not panic: its documentation promises to avoid
    panics, "while this cannot be statically guaranteed by Rust"
    (crates/tpm2/src/lib.rs:35-39).

    The places where the sources spell out a panic are [unreachable!] in the
    constructor of a layer's error (errors/tss_rc.rs:48) and [panic!] in the
    constructor of a TPM error (errors/tpm_rc/mod.rs:119). *)
(* Restates the theorems of NoPanicFacts.v; proofs are there. *)
From Coq Require Import ZArith List Lia Bool.
From Coq Require Import Strings.Byte.
From Verif Require Import Prelude Types Errors ErrorsFacts Limits LimitsFacts.
From Verif Require Import NoPanicFacts.
Import ListNotations.
Open Scope Z_scope.

(** ** C88 *)
(** No call panics: for every value, every buffer, every target and every set
    of supported algorithms. *)
Theorem C88_no_panic c : panics c = false.
Proof. exact (c88_no_panic c). Qed.
Print Assumptions C88_no_panic.

(** Of the two (private) constructors whose sources spell out a panic, a TPM
    error's panics for zero only and a layer's for no code at all. *)
Theorem C88_where v l :
  (rc_new v = Panic <-> v = 0)
  /\ (0 <= v -> layer_new l v <> Panic).
Proof. exact (c88_where v l). Qed.
Print Assumptions C88_where.

Example C88_example :
  marshal_ha (fun _ => true) (HaSha1 (repeat x5a 20)) [] = ([], Err tt)
  /\ marshal_ha (fun _ => true) (HaSha1 (repeat x5a 20)) [x01; x02; x03] = ([x00; x04; x03], Err tt)
  /\ layer_error Tcs OutOfMemory = Ok 0x2005
  /\ panics (GetHash Sha1 [x00]) = false.
Proof. exact c88_example. Qed.
