(** Several clients of one simulator (crates/tpm2-client/src/connection/tcp.rs,
    crates/tpm2-client/src/lib.rs).  Tcp.v runs a call from its first system
    call to its last; here a call can be stopped before each of them, so that
    others can act in between. *)
From Coq Require Import ZArith NArith List Lia Bool.
From Coq Require Import Init.Byte.
From Verif Require Import Prelude Types Client Tcp Remote.
Import ListNotations.
Open Scope Z_scope.

(** A call up to its next system call on the stream to the TPM: it is over, or
    it writes or reads and goes on with what comes back. *)
Inductive prog (A : Type) : Type :=
| Give (a : A)
| DoWrite (bytes : list byte) (k : outcome io_error nat -> prog A)
| DoRead (n : nat) (k : outcome io_error (list byte) -> prog A).
Arguments Give {A} _.
Arguments DoWrite {A} _ _.
Arguments DoRead {A} _ _.
Fixpoint andthen {A B} (p : prog A) (f : A -> prog B) : prog B :=
  match p with
  | Give a => f a
  | DoWrite bytes k => DoWrite bytes (fun o => andthen (k o) f)
  | DoRead n k => DoRead n (fun o => andthen (k o) f)
  end.
(** Nobody acts in between. *)
Fixpoint run_prog {A W H C} (sys : world W H C) (h : H) (p : prog A) (w : W) : W * A :=
  match p with
  | Give a => (w, a)
  | DoWrite bytes k => let '(w', o) := write sys w h bytes in run_prog sys h (k o) w'
  | DoRead n k => let '(w', o) := read sys w h n in run_prog sys h (k o) w'
  end.

(** [write_vectored] and the check, tcp.rs:406-413. *)
Definition write_prog (bytes : list byte) : prog (outcome io_error unit) :=
  DoWrite bytes (fun o => Give
    match o with
    | Ok n => if (n =? length bytes)%nat then Ok tt else Err WriteZero
    | Err e => Err e
    | Panic => Panic
    end).
(** [std::io::Read::read_exact], as [read_loop] in Tcp.v. *)
Fixpoint read_prog (fuel n : nat) : prog (list byte * outcome io_error unit) :=
  match n, fuel with
  | O, _ => Give ([], Ok tt)
  | _, O => Give ([], Panic)
  | _, S fuel' =>
      DoRead n (fun o =>
        match o with
        | Ok [] => Give ([], Err UnexpectedEof)
        | Ok bs =>
            if (n <? length bs)%nat then Give ([], Panic)
            else andthen (read_prog fuel' (n - length bs)) (fun '(rest, r) => Give (bs ++ rest, r))
        | Err e => Give ([], Err e)
        | Panic => Give ([], Panic)
        end)
  end.
(** [read_exact] into a [U32]. *)
Definition u32_prog : prog (outcome io_error Z) :=
  andthen (read_prog 4 4) (fun '(bs, r) => Give (omap (fun _ => be_val bs) r)).
(** [transact] after the request is written, tcp.rs:415-430, with
    [check_response_end], 379-389. *)
Definition reply_prog (response : list byte) : prog (list byte * outcome io_error nat) :=
  andthen u32_prog (fun o =>
    match o with
    | Ok len =>
        if Z.of_nat (length response) <? len then Give (response, Err InvalidInput)
        else
          let n := Z.to_nat len in
          andthen (read_prog n n) (fun '(bs, r) =>
            let response := overwrite bs response in
            match r with
            | Ok _ =>
                andthen u32_prog (fun o => Give (response,
                  match o with
                  | Ok resp_end => if resp_end =? 0 then Ok n else Err InvalidData
                  | Err e => Err e
                  | Panic => Panic
                  end))
            | Err e => Give (response, Err e)
            | Panic => Give (response, Panic)
            end)
    | Err e => Give (response, Err e)
    | Panic => Give (response, Panic)
    end).
(** [transact], tcp.rs:394-431. *)
Definition transact_prog (loc : Z) (command response : list byte) : prog (list byte * outcome io_error nat) :=
  if 2 ^ 32 <=? Z.of_nat (length command) then Give (response, Err InvalidInput)
  else
    andthen (write_prog (u32_bytes SendCommand ++ be_bytes 1 loc
                         ++ u32_bytes (Z.of_nat (length command)) ++ command)) (fun o =>
      match o with
      | Ok _ => reply_prog response
      | Err e => Give (response, Err e)
      | Panic => Give (response, Panic)
      end).
(** [run_command_with_handles], lib.rs:142-195. *)
Definition command_prog (loc : Z) (c : command) (cmd handles : val) (a : area)
    : prog (outcome io_error (val * val)) :=
  match build_command c cmd handles a with
  | Err e => Give (Err (FromTss e))
  | Panic => Give Panic
  | Ok bytes =>
      andthen (transact_prog loc bytes (repeat x00 RESP_BUFFER_SIZE)) (fun '(resp_buffer, r) => Give
        match r with
        | Ok _ => omap_err FromTss (parse_response c a resp_buffer)
        | Err e => Err e
        | Panic => Panic
        end)
  end.

(** How a connection is lost: every call fails, or the other side closed it -
    then writes go nowhere, and reads give what had arrived before that, and then
    nothing. *)
Inductive cut := Reset (e : io_error) | Closed.
(** A client with a connection of its own: its locality, the steps it has yet
    to begin, the call it is in, the results it has got, what it sent that the
    TPM has not taken, what the TPM sent that it has not read, and whether the
    connection is lost. *)
Record client := {
  level : Z;
  todo : list step;
  doing : option (prog (outcome io_error (val * val)));
  got : list (outcome io_error (val * val));
  sent : list byte;
  coming : list byte;
  lost : option cut
}.
Definition fresh (l : Z) (steps : list step) : client :=
  {| level := l; todo := steps; doing := None; got := []; sent := []; coming := []; lost := None |}.
Definition goes_on (x : client) (p : prog (outcome io_error (val * val))) (out inc : list byte) : client :=
  {| level := level x; todo := todo x; doing := Some p; got := got x; sent := out; coming := inc; lost := lost x |}.

(** A client's next move: it begins its next step, makes its next system call,
    or returns from the call.  A write is taken whole; a read takes at most
    [piece] bytes (but one at least), and waits if there are none. *)
Definition client_moves (piece : nat) (x : client) : client :=
  match doing x with
  | None =>
      match todo x with
      | [] => x
      | SetLocality l :: rest =>
          {| level := l; todo := rest; doing := None; got := got x; sent := sent x; coming := coming x; lost := lost x |}
      | Run c cmd handles a :: rest =>
          {| level := level x; todo := rest; doing := Some (command_prog (level x) c cmd handles a);
             got := got x; sent := sent x; coming := coming x; lost := lost x |}
      end
  | Some (Give r) =>
      {| level := level x; todo := todo x; doing := None; got := got x ++ [r]; sent := sent x; coming := coming x;
         lost := lost x |}
  | Some (DoWrite bytes k) =>
      match lost x with
      | None => goes_on x (k (Ok (length bytes))) (sent x ++ bytes) (coming x)
      | Some Closed => goes_on x (k (Ok (length bytes))) (sent x) (coming x)
      | Some (Reset e) => goes_on x (k (Err e)) (sent x) (coming x)
      end
  | Some (DoRead n k) =>
      match lost x, coming x with
      | Some (Reset e), _ => goes_on x (k (Err e)) (sent x) (coming x)
      | None, [] => x
      | Some Closed, [] => goes_on x (k (Ok [])) (sent x) []
      | _, _ =>
          let m := Nat.min (Nat.min n (length (coming x))) (Nat.max 1 piece) in
          goes_on x (k (Ok (firstn m (coming x)))) (sent x) (skipn m (coming x))
      end
  end.

(** The TPM and its clients.  Each move is one of a client, or the TPM takes
    the first request of a client, if there is a complete one, and answers - it
    may have come before the connection was lost, then the answer goes nowhere -,
    or a client loses its connection: of what the TPM sent and the client has not
    read, the first [keep] bytes still arrive if the other side closed it. *)
Record house (S : Type) := { tpm : S; clients : list client }.
Arguments tpm {S} _.
Arguments clients {S} _.
Inductive move :=
| Moves (i piece : nat)
| Serves (i : nat)
| Breaks (i : nat) (how : cut) (keep : nat).
Definition put {A} (i : nat) (a : A) (l : list A) : list A := firstn i l ++ a :: skipn (Datatypes.S i) l.
Definition moves {S} (f : tpm_device S) (y : house S) (m : move) : house S :=
  match m with
  | Moves i piece =>
      match nth_error (clients y) i with
      | Some x => {| tpm := tpm y; clients := put i (client_moves piece x) (clients y) |}
      | None => y
      end
  | Serves i =>
      match nth_error (clients y) i with
      | Some x =>
          let s := deal f 1 {| device := tpm y; taken := sent x; waiting := coming x |} in
          {| tpm := device s;
             clients := put i {| level := level x; todo := todo x; doing := doing x; got := got x;
                                 sent := taken s; coming := match lost x with None => waiting s | Some _ => coming x end;
                                 lost := lost x |} (clients y) |}
      | None => y
      end
  | Breaks i how keep =>
      match nth_error (clients y) i with
      | Some x =>
          {| tpm := tpm y;
             clients := put i {| level := level x; todo := todo x; doing := doing x; got := got x;
                                 sent := sent x; coming := match how with Closed => firstn keep (coming x) | Reset _ => [] end;
                                 lost := Some how |} (clients y) |}
      | None => y
      end
  end.
Definition play {S} (f : tpm_device S) (ms : list move) (y : house S) : house S := fold_left (moves f) ms y.

(** ** The specification: one step after the other, at the TPM itself *)
(** A session at the TPM: locality, steps to do, results. *)
Record session := { at_level : Z; left : list step; results : list (outcome io_error (val * val)) }.
Definition opened (l : Z) (steps : list step) : session := {| at_level := l; left := steps; results := [] |}.
Definition whole_step {S} (f : tpm_device S) (z : S * list session) (i : nat) : S * list session :=
  match nth_error (snd z) i with
  | Some x =>
      match left x with
      | [] => z
      | SetLocality l :: rest => (fst z, put i {| at_level := l; left := rest; results := results x |} (snd z))
      | Run c cmd handles a :: rest =>
          let '(s', r) := run_command_with_handles FromTss (local f (at_level x)) (fst z) c cmd handles a in
          (s', put i {| at_level := at_level x; left := rest; results := results x ++ [r] |} (snd z))
      end
  | None => z
  end.
Definition serially {S} (f : tpm_device S) (order : list nat) (z : S * list session) : S * list session :=
  fold_left (whole_step f) order z.

(** A client as others see it, and its session: it is between steps where the
    session is, or in a call that the session has yet to make, or in a call
    that the session has made and whose result is to come. *)
Definition in_step (x : client) (z : session) : Prop :=
  level x = at_level z /\
  match doing x with
  | None => todo x = left z /\ got x = results z
  | Some _ =>
      (exists c cmd handles a, left z = Run c cmd handles a :: todo x /\ results z = got x)
      \/ (exists r, left z = todo x /\ results z = got x ++ [r])
  end.
(** With a lost connection: the session stays where it is, at most one call
    ahead of what the client got; beyond that the client gets only errors. *)
Definition fell_behind (x : client) (z : session) : Prop :=
  exists common errors more,
    got x = common ++ errors /\ results z = common ++ more /\ (length more <= 1)%nat
    /\ Forall (fun r => forall v, r <> Ok v) errors.
Definition matching (x : client) (z : session) : Prop :=
  match lost x with None => in_step x z | Some _ => fell_behind x z end.
