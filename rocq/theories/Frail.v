(** Users of one simulator, as in Crowd.v, whose connections break: each port on
    its own, at any moment, with any part of what was under way still arriving.
    The user may stop or go on, on either port.  The users' calls are those of
    crates/tpm2-client/src/connection/tcp.rs:44-432; network and machine are the
    peer, not code of the repository. *)
From Coq Require Import ZArith NArith List Lia Bool.
From Coq Require Import Init.Byte.
From Verif Require Import Prelude Types Client Tcp TcpSpec Controls Crowd GoneSpec.
From Verif Require Clients.
Import ListNotations.
Open Scope Z_scope.

(** A user, and which of its two ports are broken (the TPM's first). *)
Record guest := { person : user; torn : bool * bool }.
Definition is_torn (h : bool) (x : guest) : bool := if h then fst (torn x) else snd (torn x).
Definition tear (h : bool) (t : bool * bool) : bool * bool := if h then (true, snd t) else (fst t, true).
(** What a system call reports on a broken port: an error, or - a write - some
    number of bytes, and - a read, when all that arrived was read - the end. *)
Inductive report := Claims (n : nat) | Complains (e : io_error).
(** A move of the user, as [user_moves] in Crowd.v.  What is written to a broken
    port goes nowhere; what had arrived there can still be read. *)
Definition guest_moves (piece : nat) (o : report) (x : guest) : guest :=
  let u := person x in
  match in_call u with
  | Some (Writes h bytes k) =>
      if is_torn h x then
        {| person := proceeds u (k match o with Claims n => Ok (Nat.min n (length bytes)) | Complains e => Err e end) (out u) (inc u);
           torn := torn x |}
      else {| person := user_moves piece u; torn := torn x |}
  | Some (Reads h n k) =>
      match port h (inc u), is_torn h x with
      | [], true =>
          {| person := proceeds u (k match o with Claims _ => Ok [] | Complains e => Err e end) (out u) (inc u); torn := torn x |}
      | _, _ => {| person := user_moves piece u; torn := torn x |}
      end
  | _ => {| person := user_moves piece u; torn := torn x |}
  end.
(** The machine takes the first request that came in on a port, if it is
    complete; its answer does not get past a break. *)
Definition guest_attended {S} (f : machine S) (h : bool) (s : S) (x : guest) : S * guest :=
  let u := person x in
  let b := work f 1 h {| unit_ := s; got := out u; due := inc u |} in
  (unit_ b, {| person := {| set_level := set_level u; calls := calls u; in_call := in_call u; have := have u; out := got b;
                            inc := if is_torn h x then inc u else due b |};
               torn := torn x |}).
(** A port breaks: of what is under way in both directions the beginning still
    arrives. *)
Definition guest_torn (h : bool) (keep_out keep_in : nat) (x : guest) : guest :=
  let u := person x in
  {| person := {| set_level := set_level u; calls := calls u; in_call := in_call u; have := have u;
                  out := set_port h (firstn keep_out (port h (out u))) (out u);
                  inc := set_port h (firstn keep_in (port h (inc u))) (inc u) |};
     torn := tear h (torn x) |}.
Record house (S : Type) := { host : S; guests : list guest }.
Arguments host {S} _.
Arguments guests {S} _.
Inductive deed :=
| Goes (i piece : nat) (o : report)
| Takes (i : nat) (h : bool)
| Tears (i : nat) (h : bool) (keep_out keep_in : nat).
Definition deeds {S} (f : machine S) (y : house S) (m : deed) : house S :=
  match m with
  | Goes i piece o =>
      match nth_error (guests y) i with
      | Some x => {| host := host y; guests := Clients.put i (guest_moves piece o x) (guests y) |}
      | None => y
      end
  | Takes i h =>
      match nth_error (guests y) i with
      | Some x => {| host := fst (guest_attended f h (host y) x); guests := Clients.put i (snd (guest_attended f h (host y) x)) (guests y) |}
      | None => y
      end
  | Tears i h a b =>
      match nth_error (guests y) i with
      | Some x => {| host := host y; guests := Clients.put i (guest_torn h a b x) (guests y) |}
      | None => y
      end
  end.
Definition done_deeds {S} (f : machine S) (ms : list deed) (y : house S) : house S := fold_left (deeds f) ms y.
Definition guest_new (x : Z * list call) : guest := {| person := newcomer (fst x) (snd x); torn := (false, false) |}.
Definition opened {S} (s : S) (starts : list (Z * list call)) : house S := {| host := s; guests := map guest_new starts |}.

(** ** The specification *)
(** What the machine took at a move, from whom, with its answer; and at all of
    them.  As [heard] in GoneSpec.v. *)
Definition takes_at {S} (f : S -> request -> S * list byte) (y : house S) (m : deed) : list (nat * (request * list byte)) :=
  match m with
  | Takes i h =>
      match nth_error (guests y) i with
      | None => []
      | Some x => match front h (port h (out (person x))) with
                  | None => []
                  | Some (q, _) => [(i, (q, snd (f (host y) q)))]
                  end
      end
  | _ => []
  end.
Fixpoint all_taken {S} (f : S -> request -> S * list byte) (ms : list deed) (y : house S) : list (nat * (request * list byte)) :=
  match ms with
  | [] => []
  | m :: ms' => takes_at f y m ++ all_taken f ms' (deeds (answering f) y m)
  end.
(** The port that a call uses, if it uses one. *)
Definition call_port (x : call) : bool :=
  match x with
  | Call (Transact _ _ | Hcrtm _ | Handshake _ | AlternativeResult _) | RunCommand _ _ _ _ => true
  | _ => false
  end.
Definition failed (r : result) : Prop := match r with Called (Err _) | Ran (Err _) => True | _ => False end.
(** Calls one after the other from a locality on, with for each what was asked
    in its name: all of it, with its result, or, only if the call's port is
    broken, the beginning, with an error. *)
Inductive made (broken : bool -> bool) : Z -> list call -> list trace -> list result -> Prop :=
| made_none l : made broken l [] [] []
| made_whole l c cs part r parts rs :
    walked (call_plan l c) part (Return r) -> made broken (level_after l c) cs parts rs ->
    made broken l (c :: cs) (part :: parts) (r :: rs)
| made_failed l c cs part rest r parts rs :
    broken (call_port c) = true -> walked (call_plan l c) part rest -> failed r ->
    made broken (level_after l c) cs parts rs ->
    made broken l (c :: cs) (part :: parts) (r :: rs).
(** The requests of a port. *)
Definition to_port (h : bool) (q : request) : bool :=
  Bool.eqb h match q with
             | AskCommand _ _ | AskHashStart | AskHashData _ | AskHashEnd | AskHandshake _ | AskAlternative _ => true
             | AskEnd h' | AskStop h' => h'
             | _ => false
             end.
Definition at_port (h : bool) (tr : trace) : trace := filter (fun e => to_port h (fst e)) tr.
