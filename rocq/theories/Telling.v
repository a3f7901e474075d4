(** What the error of a call tells about it (C116): specification only, on the
    network of Cut.v. *)
From Coq Require Import ZArith NArith List Lia Bool.
From Coq Require Import Init.Byte.
From Verif Require Import Prelude Types Client ClientSpec Tcp TcpSpec Controls Cut.
Import ListNotations.
Open Scope Z_scope.

(** An operating system reports errors of its own only. *)
Definition from_system {A} (o : outcome io_error A) : Prop :=
  match o with Ok _ | Err (System _) => True | _ => False end.
Definition sound {R S} (adv : whims R S) : Prop :=
  (forall r b h n, from_system (snd (delivers adv r b h n)))
  /\ (forall r e, refuses adv r = Some e -> exists z, e = System z)
  /\ (forall r h, from_system (snd (hangs_up adv r h))).
(** What an outcome tells about the requests that were done, and those that
    were not. *)
Definition tells {A} (done missing : list request) (r : outcome io_error A) : Prop :=
  match r with
  | Ok _ => missing = []
  | Err WriteZero => missing <> []
  | Err UnexpectedEof | Err InvalidData => done <> []
  | Err InvalidInput | Err (FromTss _) => missing = []
  | Err Other => False
  | Err (System _) | Panic => True
  end.
Definition tells_result (done missing : list request) (r : result) : Prop :=
  match r with Called r => tells done missing r | Ran r => tells done missing r end.
(** Of each call of a session the beginning, and its outcome. *)
Inductive told : Z -> list call -> list (list request) -> list result -> Prop :=
| told_none loc : told loc [] [] []
| told_one loc x xs part rest parts r rs :
    requests_of loc x = part ++ rest -> tells_result part rest r ->
    told (locality_past loc x) xs parts rs ->
    told loc (x :: xs) (part :: parts) (r :: rs).
(** Everything but a system error tells whether a call with one request was done. *)
Definition uninformative (r : result) : bool :=
  match r with
  | Called (Err (System _)) | Called Panic | Ran (Err (System _)) | Ran Panic => true
  | _ => false
  end.
Definition says_undone (r : result) : bool :=
  match r with Called (Err WriteZero) | Ran (Err WriteZero) => true | _ => false end.
