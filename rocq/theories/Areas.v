(** Model of crates/tpm2-client/src/sessions/authorization_area: the three
    traits and their implementations.  References are the values; [N] is
    [NoSession], of which there are no values. *)
From Coq Require Import ZArith List.
From Coq Require Import Init.Byte.
From Verif Require Import Prelude Types Tpm2b Equality Client.
Import ListNotations.
Open Scope Z_scope.

Section Areas.
Context {T U V N : Type}.
(** [AuthorizationArea for ()], s0.rs:3-7. *)
Definition s0_area (self : unit) : option N * option N * option N := (None, None, None).
(** [AuthorizationArea for T], s1.rs:3-7, and [AuthorizationArea1Plus], s1.rs:8-12. *)
Definition s1_area (self : T) : option T * option N * option N := (Some self, None, None).
Definition s1_area1 (self : T) : T * option N * option N := (self, None, None).
(** For [(T, U)]: [AuthorizationArea], s2.rs:5-9, [AuthorizationArea1Plus], 11-15,
    [AuthorizationArea2Plus], 17-21. *)
Definition s2_area (self : T * U) : option T * option U * option N := (Some (fst self), Some (snd self), None).
Definition s2_area1 (self : T * U) : T * option U * option N := (fst self, Some (snd self), None).
Definition s2_area2 (self : T * U) : T * U * option N := (fst self, snd self, None).
(** For [(T, U, V)]: s3.rs:3-7, 8-12, 13-17. *)
Definition s3_area (self : T * U * V) : option T * option U * option V :=
  (Some (fst (fst self)), Some (snd (fst self)), Some (snd self)).
Definition s3_area1 (self : T * U * V) : T * option U * option V :=
  (fst (fst self), Some (snd (fst self)), Some (snd self)).
Definition s3_area2 (self : T * U * V) : T * U * option V :=
  (fst (fst self), snd (fst self), Some (snd self)).
(** [is_empty], mod.rs:12-14. *)
Definition is_empty (parts : option T * option U * option V) : bool :=
  match fst (fst parts) with None => true | Some _ => false end.
End Areas.

(** [PartialEq for PasswordSession] and [Default], derived, password.rs:20-23:
    the only field is the authorization value. *)
Definition password_eq (a b : val) : bool := derived_eq a b.
Definition password_default : val := tpm2b_default 64.
