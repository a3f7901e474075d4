(** Users of a simulator among strangers: others who have connections to the same
    machine and send whatever bytes they like, whenever they like
    (crates/tpm2-client/src/connection/tcp.rs is one user's end; the protocol it
    speaks lets anybody else connect, too). *)
From Coq Require Import ZArith NArith List Lia Bool.
From Coq Require Import Init.Byte.
From Verif Require Import Prelude Types Client Tcp TcpSpec Controls Crowd.
From Verif Require Clients.
Import ListNotations.
Open Scope Z_scope.

(** The users of Crowd.v, and what each stranger sent on each port (the TPM's
    first) that the machine has not taken.  What strangers are sent in answer is
    left out. *)
Record square (S : Type) := { people : crowd S; strangers : list (list byte * list byte) }.
Arguments people {S} _.
Arguments strangers {S} _.
(** A user moves or is attended to; a stranger sends bytes; the machine takes a
    stranger's first request on a port, if there is a complete one. *)
Inductive event :=
| By (m : act)
| Throws (j : nat) (tpm_port : bool) (bytes : list byte)
| Heeds (j : nat) (tpm_port : bool).
Definition happens {S} (f : machine S) (y : square S) (e : event) : square S :=
  match e with
  | By m => {| people := acts f (people y) m; strangers := strangers y |}
  | Throws j h bytes =>
      match nth_error (strangers y) j with
      | Some p => {| people := people y; strangers := Clients.put j (set_port h (port h p ++ bytes) p) (strangers y) |}
      | None => y
      end
  | Heeds j h =>
      match nth_error (strangers y) j with
      | Some p =>
          let b := work f 1 h {| unit_ := shared (people y); got := p; due := ([], []) |} in
          {| people := {| shared := unit_ b; users := users (people y) |}; strangers := Clients.put j (got b) (strangers y) |}
      | None => y
      end
  end.
Definition happened {S} (f : machine S) (es : list event) (y : square S) : square S := fold_left (happens f) es y.

(** ** The specification *)
(** What happens at the machine: a user's turn, as in Crowd.v, or a request that
    stranger [j] made on a port. *)
Inductive entry :=
| Turn (i : nat)
| Asked (j : nat) (tpm_port : bool) (q : request).
Definition enter {S} (f : S -> request -> S * list byte) (z : S * list sitter) (e : entry) : S * list sitter :=
  match e with
  | Turn i => turn f z i
  | Asked _ _ q => (fst (f (fst z) q), snd z)
  end.
Definition entered {S} (f : S -> request -> S * list byte) (es : list entry) (z : S * list sitter) : S * list sitter :=
  fold_left (enter f) es z.
(** The requests stranger [j] made on port [h], and the bytes it sent there. *)
Definition asked (j : nat) (h : bool) (es : list entry) : list request :=
  flat_map (fun e => match e with
                     | Asked j' h' q => if (j =? j')%nat && Bool.eqb h h' then [q] else []
                     | Turn _ => [] end) es.
Definition thrown (j : nat) (h : bool) (es : list event) : list byte :=
  flat_map (fun e => match e with
                     | Throws j' h' bytes => if (j =? j')%nat && Bool.eqb h h' then bytes else []
                     | _ => [] end) es.
