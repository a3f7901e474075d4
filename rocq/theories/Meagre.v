(** Both ports of a simulator, over a network that takes of every write at least
    one byte, as many as it likes, and is truthful otherwise (C114).  Like
    Controls.v this is the peer of crates/tpm2-client/src/connection/tcp.rs:44-432,
    not code of the repository. *)
From Coq Require Import ZArith NArith List Lia Bool.
From Coq Require Import Init.Byte.
From Verif Require Import Prelude Types Client ClientSpec Tcp TcpSpec Controls Cut.
Import ListNotations.
Open Scope Z_scope.

(** How many bytes of a write are taken: up to the network, which has a state
    of its own and sees everything, but one at least. *)
Definition appetite (R S : Type) : Type := R -> bench S -> bool -> list byte -> R * nat.
Definition bite (k : nat) (buf : list byte) : nat := Nat.min (Nat.max 1 k) (length buf).
Definition meagre {R S} (takes : appetite R S) (pieces : S -> nat -> nat) (f : machine S)
    : world (R * bench S) bool unit := {|
  tcp_connect := fun w _ port => (w, Ok (port =? 2321));
  write := fun w h buf =>
    let '(r, k) := takes (fst w) (snd w) h buf in
    let n := bite k buf in ((r, arrives f h (firstn n buf) (snd w)), Ok n);
  read := fun w h n => let '(x, o) := read (wires pieces f) (snd w) h n in ((fst w, x), o);
  shutdown := fun w _ => (w, Ok tt);
  sleep_one_second := fun w => w;
  read_to_string := fun w _ => (w, Ok []);
  spawn := fun w _ _ _ => (w, Ok tt);
  kill := fun w _ => (w, Ok tt)
|}.

(** ** The specification *)
(** The calls that send codes only, or nothing. *)
Definition codes_only (x : call) : bool :=
  match x with
  | Call (Signal _ | Reinit | FailureMode | ResponseSizes | Locality _ | EndSession | StopSimulator) => true
  | _ => false
  end.
(** A network that takes whole what is not a mere code of four bytes. *)
Definition takes_frames {R S} (takes : appetite R S) : Prop :=
  forall r x h buf, (4 < length buf)%nat -> (length buf <= snd (takes r x h buf))%nat.
