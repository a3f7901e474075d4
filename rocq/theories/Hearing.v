(** Streams of bytes that arrive in any pieces (C115): the peer of
    crates/tpm2-client/src/connection/tcp.rs:44-432, not code of the
    repository. *)
From Coq Require Import ZArith NArith List Lia Bool.
From Coq Require Import Init.Byte.
From Verif Require Import Prelude Types Marshal Catalogue Errors Client ClientSpec Tcp TcpSpec Remote Controls.
Import ListNotations.
Open Scope Z_scope.

(** What will arrive on each port (the TPM's first), and then the end of the
    stream.  How many bytes a read gets is up to the network, which has a state
    of its own: at least one, if any is left. *)
Definition cuts (R : Type) : Type := R -> bool -> nat -> list byte -> R * nat.
Definition channel {R} (cut : cuts R) : world (R * (list byte * list byte)) bool unit := {|
  tcp_connect := fun w _ port => (w, Ok (port =? 2321));
  write := fun w _ buf => (w, Ok (length buf));
  read := fun w h n =>
    let q := port h (snd w) in
    let '(r, k) := cut (fst w) h n q in
    let k := Nat.min n (Nat.max 1 k) in
    ((r, set_port h (skipn k q) (snd w)), Ok (firstn k q));
  shutdown := fun w _ => (w, Ok tt);
  sleep_one_second := fun w => w;
  read_to_string := fun w _ => (w, Ok []);
  spawn := fun w _ _ _ => (w, Ok tt);
  kill := fun w _ => (w, Ok tt)
|}.

(** ** The specification: what a stream says to a call *)
(** [n] bytes, or all there are and the end of the stream. *)
Definition part (n : nat) (b : list byte) : outcome io_error (list byte) * list byte :=
  if (n <=? length b)%nat then (Ok (firstn n b), skipn n b) else (Err UnexpectedEof, []).
Definition and_then {A B} (x : outcome io_error A * list byte) (k : A -> list byte -> outcome io_error B * list byte)
    : outcome io_error B * list byte :=
  match x with
  | (Ok a, b) => k a b
  | (Err e, b) => (Err e, b)
  | (Panic, b) => (Panic, b)
  end.
Definition number (b : list byte) : outcome io_error Z * list byte :=
  and_then (part 4 b) (fun x b => (Ok (be_val x), b)).
(** The acknowledgement: four zero bytes. *)
Definition acked (b : list byte) : outcome io_error unit * list byte :=
  and_then (number b) (fun z b => (if z =? 0 then Ok tt else Err InvalidData, b)).
Fixpoint acks (n : nat) (b : list byte) : outcome io_error answer * list byte :=
  match n with
  | O => (Ok Done, b)
  | S n' => and_then (acked b) (fun _ b => acks n' b)
  end.
(** Something, and its acknowledgement. *)
Definition with_ack {A} (x : outcome io_error A * list byte) (g : A -> answer) : outcome io_error answer * list byte :=
  and_then x (fun a b => and_then (acked b) (fun _ b => (Ok (g a), b))).
(** The port that a call hears, and what the stream on it says. *)
Definition hears (o : operation) : bool :=
  match o with Transact _ _ | Hcrtm _ | Handshake _ | AlternativeResult _ => true | _ => false end.
Definition says (o : operation) (b : list byte) : outcome io_error answer * list byte :=
  match o with
  | Transact command response =>
      if 2 ^ 32 <=? Z.of_nat (length command) then (Err InvalidInput, b) else
      and_then (number b) (fun n b =>
      if Z.of_nat (length response) <? n then (Err InvalidInput, b) else with_ack (part (Z.to_nat n) b) Payload)
  | Hcrtm _ => acks 3 b
  | Reinit => acks 4 b
  | AlternativeResult _ | Signal _ | FailureMode | FirmwareHash _ | FirmwareSvn _ => acks 1 b
  | Handshake _ => with_ack (part 8 b) (fun x => Versions (be_val (firstn 4 x)) (be_val (skipn 4 x)))
  | ResponseSizes =>
      and_then (number b) (fun n b =>
      if n =? 16 then with_ack (part 16 b) (fun x =>
        Sizes (le_val (firstn 4 x)) (be_val (firstn 4 (skipn 4 x))) (le_val (firstn 4 (skipn 8 x))) (be_val (skipn 12 x)))
      else (Err InvalidData, b))
  | ActSignaled _ => with_ack (number b) Number
  | Locality _ | EndSession | StopSimulator => (Ok Done, b)
  end.
(** A command that can be sent gets the response, in a buffer of zeros, decoded. *)
Definition says_call (x : call) (b : list byte) : result * list byte :=
  match x with
  | Call o => let '(r, rest) := says o b in (Called r, rest)
  | RunCommand c cmd handles a =>
      match build_command c cmd handles a with
      | Ok bytes =>
          match says (Transact bytes (repeat x00 RESP_BUFFER_SIZE)) b with
          | (Ok (Payload p), rest) =>
              (Ran (omap_err FromTss (parse_response c a (p ++ repeat x00 (RESP_BUFFER_SIZE - length p)))), rest)
          | (Err e, rest) => (Ran (Err e), rest)
          | (_, rest) => (Ran Panic, rest)
          end
      | Err e => (Ran (Err (FromTss e)), b)
      | Panic => (Ran Panic, b)
      end
  end.
Definition heard_on (x : call) : bool := match x with Call o => hears o | RunCommand _ _ _ _ => true end.
(** And to a series of calls. *)
Fixpoint says_all (calls : list call) (w : list byte * list byte) : (list byte * list byte) * list result :=
  match calls with
  | [] => (w, [])
  | x :: calls' =>
      let '(r, rest) := says_call x (port (heard_on x) w) in
      let '(w', rs) := says_all calls' (set_port (heard_on x) rest w) in (w', r :: rs)
  end.
(** The calls that got an end of the stream, and those that did not. *)
Definition starved (r : result) : bool :=
  match r with Called (Err UnexpectedEof) | Ran (Err UnexpectedEof) => true | _ => false end.
(** The calls that wait for something to arrive. *)
Definition listens (x : call) : Prop :=
  match x with
  | Call (Transact command _) => Z.of_nat (length command) < 2 ^ 32
  | Call (Locality _) | Call EndSession | Call StopSimulator => False
  | Call _ => True
  | RunCommand c cmd handles a => exists bytes, build_command c cmd handles a = Ok bytes /\ Z.of_nat (length bytes) < 2 ^ 32
  end.
