(** A simulator at the other end of the TCP connection: any TPM behind the
    protocol that crates/tpm2-client/src/connection/tcp.rs:29-42 and 392-432
    speak.  This is the peer, not code of the repository; a client that meets
    it must not be able to tell it from the TPM itself. *)
From Coq Require Import ZArith NArith List Lia Bool.
From Coq Require Import Init.Byte.
From Verif Require Import Prelude Types Client Server Tcp.
Import ListNotations.
Open Scope Z_scope.

(** A TPM: what it does with a command at a locality.  [None]: it closes
    the connection instead of answering. *)
Definition tpm_device (S : Type) : Type := S -> Z -> list byte -> S * option (list byte).

(** The TPM at hand, without a network: the response is put into the client's
    buffer. *)
Definition local {S} (f : tpm_device S) (loc : Z) : connection S io_error := {|
  transact := fun s cmd rsp =>
    match f s loc cmd with
    | (s', Some r) =>
        if (length rsp <? length r)%nat then (s', rsp, Err InvalidInput)
        else (s', overwrite r rsp, Ok (length r))
    | (s', None) => (s', rsp, Err UnexpectedEof)
    end |}.

(** The simulator: the TPM, what it took and has not dealt with yet, and what
    waits to be delivered. *)
Record simulator (S : Type) := { device : S; taken : list byte; waiting : list byte }.
Arguments device {S} _.
Arguments taken {S} _.
Arguments waiting {S} _.
Definition idle {S} (s : S) : simulator S := {| device := s; taken := []; waiting := [] |}.

(** It takes frames - code 8, locality, length, command - from the front of
    what it was sent as long as they are complete, and answers each: length,
    response, four zero bytes.  Anything else stays where it is. *)
Fixpoint deal {S} (f : tpm_device S) (fuel : nat) (x : simulator S) : simulator S :=
  match fuel with
  | O => x
  | Datatypes.S fuel' =>
      let n := Z.to_nat (be_val (firstn 4 (skipn 5 (taken x)))) in
      if (9 <=? length (taken x))%nat && (be_val (firstn 4 (taken x)) =? 8)
         && (9 + n <=? length (taken x))%nat
      then
        let '(s', r) := f (device x) (be_val (firstn 1 (skipn 4 (taken x)))) (firstn n (skipn 9 (taken x))) in
        deal f fuel' {| device := s'; taken := skipn (9 + n) (taken x);
          waiting := waiting x ++ match r with
                                  | Some r => be_bytes 4 (Z.of_nat (length r)) ++ r ++ [x00; x00; x00; x00]
                                  | None => [] end |}
      else x
  end.
(** The network to it: port [true] is the TPM's.  It takes everything and
    delivers in pieces of whatever sizes: they may depend on the TPM's state,
    so on everything that happened before. *)
Definition network {S} (pieces : S -> nat -> nat) (f : tpm_device S) : world (simulator S) bool unit := {|
  tcp_connect := fun w _ port => (w, Ok (port =? 2321));
  write := fun w h buf =>
    ((if h then deal f (length (taken w ++ buf))
                  {| device := device w; taken := taken w ++ buf; waiting := waiting w |} else w),
     Ok (length buf));
  read := fun w h n =>
    let q := if h then waiting w else [] in
    let k := Nat.min n (Nat.max 1 (pieces (device w) (length q))) in
    ((if h then {| device := device w; taken := taken w; waiting := skipn k q |} else w), Ok (firstn k q));
  shutdown := fun w _ => (w, Ok tt);
  sleep_one_second := fun w => w;
  read_to_string := fun w _ => (w, Ok []);
  spawn := fun w _ _ _ => (w, Ok tt);
  kill := fun w _ => (w, Ok tt)
|}.
(** The same network when it does not take everything: the numbers say how
    many bytes the next writes take at most.  [write] may do that
    (std::io::Write::write); tcp.rs calls it once per request (109, 142, 173,
    269, 300, 324 and 406). *)
Definition throttled {S} (pieces : S -> nat -> nat) (f : tpm_device S)
    : world (list nat * simulator S) bool unit :=
  let lift {A} (w : list nat * simulator S) (r : simulator S * A) := ((fst w, fst r), snd r) in
  let net := network pieces f in {|
  tcp_connect := fun w ip port => lift w (tcp_connect net (snd w) ip port);
  write := fun w h buf =>
    match fst w with
    | [] => lift w (write net (snd w) h buf)
    | k :: ks => lift (ks, snd w) (write net (snd w) h (firstn k buf))
    end;
  read := fun w h n => lift w (read net (snd w) h n);
  shutdown := fun w h => lift w (shutdown net (snd w) h);
  sleep_one_second := fun w => w;
  read_to_string := fun w p => lift w (read_to_string net (snd w) p);
  spawn := fun w b args d => lift w (spawn net (snd w) b args d);
  kill := fun w c => lift w (kill net (snd w) c)
|}.
Definition port_ends (l : Z) : tcp bool := {| tpm_tcp := true; plat_tcp := false; locality := l |}.

(** A session with either: each step sets the locality or runs a command. *)
Inductive step :=
| SetLocality (l : Z)
| Run (c : command) (cmd handles : val) (a : area).
Fixpoint remote_session {S} (pieces : S -> nat -> nat) (f : tpm_device S)
    (t : tcp bool) (x : simulator S) (steps : list step) : simulator S * list (outcome io_error (val * val)) :=
  match steps with
  | [] => (x, [])
  | SetLocality l :: steps' => remote_session pieces f (set_locality t l) x steps'
  | Run c cmd handles a :: steps' =>
      let '(x', r) := run_command_with_handles FromTss (tcp_connection (network pieces f) t) x c cmd handles a in
      let '(x'', rs) := remote_session pieces f t x' steps' in (x'', r :: rs)
  end.
Fixpoint local_session {S} (f : tpm_device S)
    (loc : Z) (s : S) (steps : list step) : S * list (outcome io_error (val * val)) :=
  match steps with
  | [] => (s, [])
  | SetLocality l :: steps' => local_session f l s steps'
  | Run c cmd handles a :: steps' =>
      let '(s', r) := run_command_with_handles FromTss (local f loc) s c cmd handles a in
      let '(s'', rs) := local_session f loc s' steps' in (s'', r :: rs)
  end.

(** The server of crates/tpm2-impl as the TPM, with a response buffer of 4096
    bytes; if it panics there is no answer. *)
Definition served_device {D X} (dr : Drbg D) (es : EntropySource X) : tpm_device (context D X) :=
  fun c _ cmd =>
    match execute_command_separate dr es c cmd (repeat x00 RESP_BUFFER_SIZE) with
    | (c', resp, Ok n) => (c', Some (firstn n resp))
    | (c', _, _) => (c', None)
    end.
