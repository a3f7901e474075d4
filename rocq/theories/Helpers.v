(** Model of crates/tpm2-impl/src/platform/crypto/drbg/helpers.rs. *)
From Coq Require Import ZArith NArith List Lia Bool.
From Coq Require Import Init.Byte.
From Verif Require Import Prelude Server.
Import ListNotations.
Open Scope Z_scope.

(** [fill_bytes_via_next], helpers.rs:9-30.  The loop over chunks of eight is
    the recursion; [?] leaves [dest] as filled so far. *)
Fixpoint fill_bytes_via_next {D} (rng : Drbg D) (d : D) (additional_input dest : list byte)
    : D * list byte * outcome unit unit :=
  match dest with
  | _ :: _ :: _ :: _ :: _ :: _ :: _ :: _ :: rest =>
      match next_u64 rng d additional_input with
      | (d', Ok w) => let '(d'', out, r) := fill_bytes_via_next rng d' [] rest in
                      (d'', le_bytes 8 w ++ out, r)
      | (d', Err e) => (d', dest, Err e)
      | (d', Panic) => (d', dest, Panic)
      end
  | _ =>
      let n := length dest in
      if (4 <? n)%nat then
        match next_u64 rng d additional_input with
        | (d', Ok w) => (d', firstn n (le_bytes 8 w), Ok tt)
        | (d', Err e) => (d', dest, Err e)
        | (d', Panic) => (d', dest, Panic)
        end
      else if (0 <? n)%nat then
        match next_u32 rng d additional_input with
        | (d', Ok w) => (d', firstn n (le_bytes 4 w), Ok tt)
        | (d', Err e) => (d', dest, Err e)
        | (d', Panic) => (d', dest, Panic)
        end
      else (d, dest, Ok tt)
  end.

(** [next_u32_via_fill], 33-37. *)
Definition next_u32_via_fill {D} (rng : Drbg D) (d : D) (additional_input : list byte) : D * outcome unit Z :=
  let '(d', buf, r) := fill_bytes rng d additional_input (repeat x00 4) in
  (d', omap (fun _ => le_val buf) r).
(** [next_u64_via_fill], 40-44. *)
Definition next_u64_via_fill {D} (rng : Drbg D) (d : D) (additional_input : list byte) : D * outcome unit Z :=
  let '(d', buf, r) := fill_bytes rng d additional_input (repeat x00 8) in
  (d', omap (fun _ => le_val buf) r).
(** [next_u64_via_u32], 47-52. *)
Definition next_u64_via_u32 {D} (rng : Drbg D) (d : D) (additional_input : list byte) : D * outcome unit Z :=
  match next_u32 rng d additional_input with
  | (d1, Ok x) =>
      match next_u32 rng d1 [] with
      | (d2, Ok y) => (d2, Ok (Z.lor (Z.shiftl y 32) x))
      | (d2, Err e) => (d2, Err e)
      | (d2, Panic) => (d2, Panic)
      end
  | (d1, Err e) => (d1, Err e)
  | (d1, Panic) => (d1, Panic)
  end.

(** A generator that implements words itself and fills with the helper, and one
    that implements filling and gets words with the helpers; mod.rs:21-24 says
    to use them this way. *)
Definition with_fill_via_next {D} (rng : Drbg D) : Drbg D := {|
  entropy_default := entropy_default rng; nonce_default := nonce_default rng;
  instantiate := instantiate rng; reseed := reseed rng;
  next_u32 := next_u32 rng; next_u64 := next_u64 rng;
  fill_bytes := fill_bytes_via_next rng;
  requires_reseeding := requires_reseeding rng
|}.
Definition with_words_via_fill {D} (rng : Drbg D) : Drbg D := {|
  entropy_default := entropy_default rng; nonce_default := nonce_default rng;
  instantiate := instantiate rng; reseed := reseed rng;
  next_u32 := next_u32_via_fill rng; next_u64 := next_u64_via_fill rng;
  fill_bytes := fill_bytes rng;
  requires_reseeding := requires_reseeding rng
|}.
