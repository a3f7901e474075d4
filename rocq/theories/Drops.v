(** Model of what the compiler adds to crates/tpm2-client/src/connection/tcp.rs:
    values that go out of scope are dropped, and dropping a [TcpStream] closes
    it.  Tcp.v leaves this out; here the functions that open streams, and the
    end of life of their owners, are given with it. *)
From Coq Require Import ZArith NArith List Lia Bool.
From Coq Require Import Init.Byte.
From Verif Require Import Prelude Tcp TcpSpec.
Import ListNotations.
Open Scope Z_scope.

Section Drops.
Context {W H C : Type} (sys : world W H C).
(** [Drop for TcpStream]: the handle is closed; nothing is reported. *)
Context (close : W -> H -> W).

(** [TcpConnection::connect], 50-63.  If the second [?] (60) leaves the
    function, the stream of the first field (59) is dropped. *)
Definition connect_closing (ip : list byte) (tpm_port plat_port : option Z) : io W (tcp H) :=
  let tpm_port := match tpm_port with Some p => p | None => 2321 end in
  let plat_port := match plat_port with Some p => p | None => 2322 end in
  (fun w => tcp_connect sys w ip tpm_port) >>= fun t w =>
  match tcp_connect sys w ip plat_port with
  | (w', Ok p) => (w', Ok {| tpm_tcp := t; plat_tcp := p; locality := 0 |})
  | (w', Err e) => (close w' t, Err e)
  | (w', Panic) => (close w' t, Panic)
  end.
(** [connect_with_retries], 71-90: a connection is only ever moved out. *)
Definition connect_with_retries_closing (ip : list byte) (tpm_port plat_port : option Z) : io W (tcp H) :=
  retry_loop sys 4 1 (connect_closing ip tpm_port plat_port).
(** Dropping a [TcpConnection], 33-42: fields in the order of declaration. *)
Definition tcp_drop (c : tcp H) (w : W) : W := close (close w (tpm_tcp c)) (plat_tcp c).
(** [TcpSimulator::new], 632-670.  Dropping the [Child] does nothing that is
    modelled: neither is the process killed nor has it pipes of ours. *)
Definition simulator_new_closing (bin : list byte) (args : list (list byte)) (cwd ip : list byte)
    : io W (@simulator H C) :=
  (fun w => spawn sys w bin args cwd) >>= fun ch =>
  read_port sys (join cwd command_port) >>= fun tpm_port =>
  read_port sys (join cwd platform_port) >>= fun plat_port =>
  connect_with_retries_closing ip (Some tpm_port) (Some plat_port) >>= fun c =>
  io_ret {| child := ch; conn := c |}.
(** Dropping a [TcpSimulator]: its [drop], 719-721, then its fields, 625-628. *)
Definition simulator_dropped (s : @simulator H C) (w : W) : W := tcp_drop (conn s) (simulator_drop sys s w).
End Drops.

(** A program that connects, performs operations whether or not they succeed,
    and lets go of the connection. *)
Fixpoint use_all {W H C} (sys : world W H C) (c : tcp H) (os : list operation) (w : W) : tcp H * W :=
  match os with
  | [] => (c, w)
  | o :: os' => let '(c', w', _) := perform sys c o w in use_all sys c' os' w'
  end.
Definition with_connection {W H C} (sys : world W H C) (close : W -> H -> W) ip tpm_port plat_port
    (os : list operation) (w : W) : W :=
  match connect_with_retries_closing sys close ip tpm_port plat_port w with
  | (w, Ok c) => let '(c, w) := use_all sys c os w in tcp_drop close c w
  | (w, _) => w
  end.
(** The same with a simulator that it starts ([connection_mut], 713-715). *)
Definition with_simulator {W H C} (sys : world W H C) (close : W -> H -> W) bin args cwd ip
    (os : list operation) (w : W) : W :=
  match simulator_new_closing sys close bin args cwd ip w with
  | (w, Ok s) => let '(c, w) := use_all sys (conn s) os w in
                 simulator_dropped sys close {| child := child s; conn := c |} w
  | (w, _) => w
  end.
