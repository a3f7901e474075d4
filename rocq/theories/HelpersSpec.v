(** Specification of the DRBG helpers: which words are asked for, in which
    order, and what bytes they stand for. *)
From Coq Require Import ZArith NArith List Lia Bool.
From Coq Require Import Init.Byte.
From Verif Require Import Prelude Server.
Import ListNotations.
Open Scope Z_scope.

Inductive width := U32 | U64.
(** Ask the generator for words one after the other; the additional input goes
    with the first.  The result is the little-endian bytes of the words got
    before the first failure. *)
Fixpoint ask_all {D} (rng : Drbg D) (d : D) (additional_input : list byte) (ws : list width)
    : D * list byte * outcome unit unit :=
  match ws with
  | [] => (d, [], Ok tt)
  | w :: ws' =>
      let '(d', r) := match w with U32 => next_u32 rng d additional_input
                                 | U64 => next_u64 rng d additional_input end in
      match r with
      | Ok z => let '(d'', bs, r') := ask_all rng d' [] ws' in
                (d'', le_bytes (match w with U32 => 4 | U64 => 8 end) z ++ bs, r')
      | Err e => (d', [], Err e)
      | Panic => (d', [], Panic)
      end
  end.
(** The words for [n] bytes: 64 bits each, but 32 bits if four bytes or fewer
    are left over. *)
Definition words_for (n : nat) : list width :=
  repeat U64 (n / 8)
  ++ (if (n mod 8 =? 0)%nat then [] else if (n mod 8 <=? 4)%nat then [U32] else [U64]).

(** Words are in the range of their type. *)
Definition wf_words {D} (rng : Drbg D) : Prop :=
  (forall d ai d' z, next_u32 rng d ai = (d', Ok z) -> 0 <= z < 2 ^ 32)
  /\ (forall d ai d' z, next_u64 rng d ai = (d', Ok z) -> 0 <= z < 2 ^ 64).
