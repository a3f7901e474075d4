(** What the error of a call tells about it when the network takes of every
    write as many bytes as it likes (C116): specification only, on the network
    of Trickle.v. *)
From Coq Require Import ZArith NArith List Lia Bool.
From Coq Require Import Init.Byte.
From Verif Require Import Prelude Types Client ClientSpec Tcp TcpSpec Controls Cut Trickle Telling.
Import ListNotations.
Open Scope Z_scope.

(** An operating system reports errors of its own only.  With such an error a
    write may still have taken some bytes, or all. *)
Definition honest {R S} (adv : mercy R S) : Prop :=
  (forall r b h buf, match snd (takes_some adv r b h buf) with None | Some (System _) => True | _ => False end)
  /\ (forall r b h n, from_system (snd (gives adv r b h n)))
  /\ (forall r h, from_system (snd (closes adv r h))).
(** What an outcome tells about the bytes [part] that passed of a call that is to
    make the requests [reqs]. *)
Definition hints {A} (reqs : list request) (part : list (bool * byte)) (r : outcome io_error A) : Prop :=
  match r with
  | Ok _ | Err InvalidInput | Err (FromTss _) => part = in_bytes reqs
  | Err WriteZero => part <> in_bytes reqs
  | Err UnexpectedEof | Err InvalidData => exists q more extra, reqs = q :: more /\ part = in_bytes [q] ++ extra
  | Err Other => False
  | Err (System _) | Panic => True
  end.
Definition hints_result (reqs : list request) (part : list (bool * byte)) (r : result) : Prop :=
  match r with Called r => hints reqs part r | Ran r => hints reqs part r end.
(** Of each call of a session the first so many bytes, and its outcome. *)
Inductive hinted : Z -> list call -> list (list (bool * byte)) -> list result -> Prop :=
| hinted_none loc : hinted loc [] [] []
| hinted_one loc x xs part rest parts r rs :
    in_bytes (requests_of loc x) = part ++ rest -> hints_result (requests_of loc x) part r ->
    hinted (locality_past loc x) xs parts rs ->
    hinted loc (x :: xs) (part :: parts) (r :: rs).
(** The outcomes with which everything was asked. *)
Definition completed (r : result) : bool :=
  match r with
  | Called (Ok _) | Called (Err InvalidInput) | Called (Err (FromTss _)) => true
  | Ran (Ok _) | Ran (Err InvalidInput) | Ran (Err (FromTss _)) => true
  | _ => false
  end.
