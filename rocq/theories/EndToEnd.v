(** Client and server of the repository put together.  The repository has no
    such connection; these two are the obvious ones. *)
From Coq Require Import ZArith NArith List Lia Bool.
From Coq Require Import Init.Byte.
From Verif Require Import Prelude Server Client.
Import ListNotations.
Open Scope Z_scope.

(** [Connection::transact] that executes the command on a server it owns, the
    response going straight to the client's buffer. *)
Definition direct {D X} (dr : Drbg D) (es : EntropySource X) {E} : connection (context D X) E := {|
  transact := fun ctx cmd rsp =>
    let '(ctx', rsp', r) := execute_command_separate dr es ctx cmd rsp in
    (ctx', rsp', match r with Ok n => Ok n | _ => Panic end) |}.
(** The same in place: the command is copied to the client's response buffer
    (a panic if it does not fit) and executed there. *)
Definition in_place {D X} (dr : Drbg D) (es : EntropySource X) {E} : connection (context D X) E := {|
  transact := fun ctx cmd rsp =>
    if (length rsp <? length cmd)%nat then (ctx, rsp, Panic)
    else
    let '(ctx', rsp', r) := execute_command_in_place dr es ctx (overwrite cmd rsp) (length cmd) in
    (ctx', rsp', match r with Ok n => Ok n | _ => Panic end) |}.
