(** Users who leave: what C112 says of users of one simulator some of whom end
    their session with it (crates/tpm2-client/src/connection/tcp.rs:349-359)
    while the others go on. *)
From Coq Require Import ZArith NArith List Lia Bool.
From Coq Require Import Init.Byte.
From Verif Require Import Prelude Types Client Tcp TcpSpec Controls Crowd Strangers.
Import ListNotations.
Open Scope Z_scope.

(** A locality, calls that keep the connection open, and whether the user ends
    its session after them. *)
Definition visit : Type := Z * list call * bool.
Definition farewell (b : bool) : list call := if b then [Call EndSession] else [].
Definition with_farewell (v : visit) : Z * list call := (fst (fst v), snd (fst v) ++ farewell (snd v)).
(** What one move can be at the machine: nothing, a turn of the user's (Crowd.v),
    or the end of the user's session on one port. *)
Definition amounts (m : act) (o : list entry) : Prop :=
  match m with
  | Acts i _ => o = [] \/ o = [Turn i]
  | Attends i h => o = [] \/ o = [Turn i] \/ o = [Asked i h (AskEnd h)]
  end.
(** Where a user is: in the middle of its calls, as [z] at the machine itself;
    in the call that ends the session, of whose two requests the machine has
    taken some; or gone, with the ends that were not taken yet still waiting. *)
Definition whereabouts (b : bool) (x : user) (z : sitter) (ends : bool -> list request) : Prop :=
  (set_level x = sits_at z /\ calls x = wants z ++ farewell b /\ have x = knows z
   /\ (in_call x = None <-> plans z = None) /\ forall h, ends h = [])
  \/ (b = true /\ wants z = [] /\ plans z = None /\ calls x = [] /\ in_call x <> None /\ have x = knows z
      /\ (forall h, ends h = [] \/ ends h = [AskEnd h]))
  \/ (b = true /\ wants z = [] /\ plans z = None /\ calls x = [] /\ in_call x = None
      /\ have x = knows z ++ [Called (Ok Done)]
      /\ (forall h, (ends h = [] /\ port h (out x) = be_bytes 4 20) \/ (ends h = [AskEnd h] /\ port h (out x) = []))).
