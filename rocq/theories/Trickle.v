(** Both ports of a simulator, over a network that takes of every write as many
    bytes as it likes (C113).  Like Controls.v and Cut.v this is the peer of
    crates/tpm2-client/src/connection/tcp.rs:44-432, not code of the
    repository. *)
From Coq Require Import ZArith NArith List Lia Bool.
From Coq Require Import Init.Byte.
From Verif Require Import Prelude Types Client ClientSpec Tcp TcpSpec Controls Cut.
Import ListNotations.
Open Scope Z_scope.

(** The adversary has a state of its own and sees everything.  Of a write it
    takes so many bytes, and the client is told their number or gets an error;
    what is read may be late, cut, wrong or an error; shutting down may fail. *)
Record mercy (R S : Type) := {
  takes_some : R -> bench S -> bool -> list byte -> R * nat * option io_error;
  gives : R -> bench S -> bool -> nat -> R * outcome io_error (list byte);
  closes : R -> bool -> R * outcome io_error unit
}.
Arguments takes_some {R S} _.
Arguments gives {R S} _.
Arguments closes {R S} _.
(** [passed]: every byte taken so far, with its port (the TPM's: [true]). *)
Record trickle (R S : Type) := { humour : R; passed : list (bool * byte); beyond : bench S }.
Arguments humour {R S} _.
Arguments passed {R S} _.
Arguments beyond {R S} _.
Definition trickling {R S} (adv : mercy R S) (f : machine S) : world (trickle R S) bool unit := {|
  tcp_connect := fun w _ port => (w, Ok (port =? 2321));
  write := fun w h buf =>
    let '(r, k, e) := takes_some adv (humour w) (beyond w) h buf in
    let n := Nat.min k (length buf) in
    ({| humour := r; passed := passed w ++ map (pair h) (firstn n buf); beyond := arrives f h (firstn n buf) (beyond w) |},
     match e with Some e => Err e | None => Ok n end);
  read := fun w h n =>
    let '(r, o) := gives adv (humour w) (beyond w) h n in
    ({| humour := r; passed := passed w; beyond := beyond w |}, o);
  shutdown := fun w h =>
    let '(r, o) := closes adv (humour w) h in
    ({| humour := r; passed := passed w; beyond := beyond w |}, o);
  sleep_one_second := fun w => w;
  read_to_string := fun w _ => (w, Ok []);
  spawn := fun w _ _ _ => (w, Ok tt);
  kill := fun w _ => (w, Ok tt)
|}.

(** ** The specification *)
(** The bytes of requests, each on its port. *)
Definition in_bytes (qs : list request) : list (bool * byte) :=
  flat_map (fun q => map (pair (on_port q)) (spelled q)) qs.
Definition bytes_at (h : bool) (l : list (bool * byte)) : list byte :=
  map snd (filter (fun p => Bool.eqb (fst p) h) l).
(** What stands in bytes that come one by one: on each port the bytes since the
    last request are kept, and as soon as they are a request it is done. *)
Fixpoint standing (kept : list byte * list byte) (l : list (bool * byte)) : list request :=
  match l with
  | [] => []
  | (h, x) :: l' =>
      match front h (port h kept ++ [x]) with
      | Some (q, _) => q :: standing (set_port h [] kept) l'
      | None => standing (set_port h (port h kept ++ [x]) kept) l'
      end
  end.
(** Of each call of a session the first so many bytes passed, and all if it
    succeeded. *)
Inductive poured : Z -> list call -> list (list (bool * byte)) -> list result -> Prop :=
| poured_none loc : poured loc [] [] []
| poured_one loc x xs n part parts r rs :
    part = firstn n (in_bytes (requests_of loc x)) ->
    (succeeded r -> part = in_bytes (requests_of loc x)) ->
    poured (locality_past loc x) xs parts rs ->
    poured loc (x :: xs) (part :: parts) (r :: rs).
(** All requests of a session. *)
Fixpoint all_requests (loc : Z) (calls : list call) : list request :=
  match calls with
  | [] => []
  | x :: calls' => requests_of loc x ++ all_requests (locality_past loc x) calls'
  end.
