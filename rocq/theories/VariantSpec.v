(** What C106 says the data of a variant are. *)
From Coq Require Import ZArith List.
From Coq Require Import Init.Byte.
From Verif Require Import Prelude Types WireSpec.

(** The bytes of an enum value behind its selector of [k] bytes. *)
Definition body (k : nat) (vrs : variants) (sel : Z) (args : list val) : list byte :=
  skipn k (enc (TEnum k vrs) (VEnum sel args)).
