(** Several clients of one simulator (C101). *)
(* Restates the theorems of ClientsFacts.v; proofs are there. *)
From Coq Require Import String ZArith NArith List Lia Bool.
From Coq Require Import Init.Byte.
From Verif Require Import Prelude Types Marshal WireSpec Catalogue Errors Tpm2b Client ClientSpec ClientProofs ClientFacts
  Server ServerSpec ServerProofs ServerFacts EndToEnd EndToEndFacts Tcp TcpSpec TcpProofs Remote RemoteFacts Clients.
From Verif Require Import ClientsFacts.
Import ListNotations.
Open Scope Z_scope.

(** ** C101 *)
(** Nobody acting in between, a call here is the call of the library, whatever
    the world does. *)
Theorem C101_program W H C (sys : world W H C) (t : tcp H) w c cmd handles a :
  run_prog sys (tpm_tcp t) (command_prog (locality t) c cmd handles a) w
  = run_command_with_handles FromTss (tcp_connection sys t) w c cmd handles a.
Proof. exact (c101_program W H C sys t w c cmd handles a). Qed.
Print Assumptions C101_program.

(** Whatever clients and TPM do, in whatever order and pieces: every move either
    does nothing the others could tell or is one whole step of the client that
    moved or was served.  After each of the moves the TPM is where it would be
    had these steps been made one by one at the TPM itself, every result a
    client has got is the one its step gave there, and the only step that can
    be ahead of or behind the client is the call that it is in.  Clients whose
    connection is lost got such results before - the last of them perhaps from an
    answer that had arrived -, at most one further call of theirs is carried out,
    and from then on they get errors. *)
Theorem C101_serial S (f : tpm_device S) s starts ms :
  always_answers f -> Forall start_ok starts ->
  exists orders, Forall2 (fun m o => o = [] \/ o = [mover m]) ms orders /\
    forall k, tpm (play f (firstn k ms) (begun s starts)) = fst (serially f (concat (firstn k orders)) (s, planned starts))
      /\ Forall2 matching (clients (play f (firstn k ms) (begun s starts)))
           (snd (serially f (concat (firstn k orders)) (s, planned starts))).
Proof. exact (c101_serial S f s starts ms). Qed.
Print Assumptions C101_serial.

(** When all are through and nobody lost the connection, their results and the TPM's state are those of one
    such order of all their steps. *)
Theorem C101_finished S (f : tpm_device S) s starts ms :
  always_answers f -> Forall start_ok starts ->
  Forall (fun x => lost x = None /\ todo x = [] /\ doing x = None) (clients (play f ms (begun s starts))) ->
  exists order z, serially f order (s, planned starts) = (tpm (play f ms (begun s starts)), z)
    /\ Forall (fun x => left x = []) z
    /\ map results z = map got (clients (play f ms (begun s starts))).
Proof. exact (c101_finished S f s starts ms). Qed.
Print Assumptions C101_finished.

(** And all get through: a client with [n] steps is through after [4108 n]
    rounds at the latest, if it keeps its connection and moves and is served at
    least once in every round, at whatever moments, and whatever the others do. *)
Theorem C101_through S (f : tpm_device S) s starts i l steps rounds :
  always_answers f -> Forall start_ok starts -> nth_error starts i = Some (l, steps) ->
  Forall (fun ms => List.In (Serves i) ms /\ (exists p, List.In (Moves i p) ms) /\ forall how keep, ~ List.In (Breaks i how keep) ms) rounds ->
  4108 * Z.of_nat (length steps) <= Z.of_nat (length rounds) ->
  exists x, nth_error (clients (play f (concat rounds) (begun s starts))) i = Some x
    /\ todo x = [] /\ doing x = None /\ sent x = [] /\ coming x = [].
Proof. exact (c101_through S f s starts i l steps rounds). Qed.
Print Assumptions C101_through.

(** The server of the repository is such a TPM, with any generator that does
    not fail. *)
Theorem C101_server D X (dr : Drbg D) (es : EntropySource X) :
  wf_drbg dr -> never_fails dr -> always_answers (served_device dr es).
Proof. exact (c101_server D X dr es). Qed.
Print Assumptions C101_server.

(** Two clients whose calls overlap: the first sends its request first, the
    second is after_serving first; their answers come in pieces of one byte, in turn. *)
Example C101_overlap :
  let random := Run GetRandom (VStruct [VInt 2]) VUnit area0 in
  let starts := [(0, [random]); (0, [random; SetLocality 3; random])] in
  let ms := [Moves 0 1; Moves 0 1; Moves 1 1; Moves 1 1; Moves 0 1; Serves 1; Moves 0 1; Moves 1 1; Serves 0]
            ++ concat (repeat [Moves 0 1; Moves 1 1; Serves 1; Serves 0] 60) in
  let shown := map (omap (fun r : val * val => match fst r with VStruct [VTpm2b n b] => (n, firstn 2 b) | _ => (0, []) end)) in
  let y := play proper ms (begun 5 starts) in
  let z := serially proper [1; 0; 1; 1]%nat (5, planned starts) in
  always_answers proper /\ Forall start_ok starts
  /\ tpm y = 7 /\ Forall (fun x => lost x = None /\ todo x = [] /\ doing x = None) (clients y)
  /\ map (fun x => shown (got x)) (clients y) = [[Ok (2, [xaa; x06])]; [Ok (2, [xaa; x05]); Err (FromTss 0x907)]]
  /\ fst z = tpm y /\ map results (snd z) = map got (clients y)
  /\ tpm (play proper (firstn 8 ms) (begun 5 starts)) = 6.
Proof. exact c101_overlap. Qed.

(** The first client loses its connection after it has sent its request: the
    TPM carries it out all the same, the client gets errors, for its next call,
    too, and the other client takes no notice. *)
Example C101_broken :
  let random := Run GetRandom (VStruct [VInt 2]) VUnit area0 in
  let starts := [(0, [random; random]); (0, [random])] in
  let ms how := [Moves 0 9; Moves 1 9; Moves 0 9; Breaks 0 how 0; Moves 1 9; Moves 0 9; Serves 0; Serves 1]
                ++ concat (repeat [Moves 0 9; Moves 1 9; Serves 0] 9) in
  let shown := map (omap (fun r : val * val => match fst r with VStruct [VTpm2b n b] => (n, firstn 2 b) | _ => (0, []) end)) in
  let seen how := map (fun x => (todo x, match doing x with None => true | _ => false end, shown (got x)))
                    (clients (play proper (ms how) (begun 5 starts))) in
  seen (Reset (System 104)) = [([], true, [Err (System 104); Err (System 104)]); ([], true, [Ok (2, [xaa; x06])])]
  /\ seen Closed = [([], true, [Err UnexpectedEof; Err UnexpectedEof]); ([], true, [Ok (2, [xaa; x06])])]
  /\ tpm (play proper (ms Closed) (begun 5 starts)) = 7.
Proof. exact c101_broken. Qed.

(** The other side closes the connection when the answer (a length, a response, an
    end mark) is on its way: the client gets its result if all of it arrives, an
    error if one byte is missing, and errors afterwards either way. *)
Example C101_cut :
  let random := Run GetRandom (VStruct [VInt 2]) VUnit area0 in
  let starts := [(0, [random; random])] in
  let ms keep := [Moves 0 9; Moves 0 9; Serves 0; Moves 0 3; Breaks 0 Closed keep]
                 ++ concat (repeat [Moves 0 9; Serves 0] 19) in
  let shown := map (omap (fun r : val * val => match fst r with VStruct [VTpm2b n b] => (n, firstn 2 b) | _ => (0, []) end)) in
  let seen keep := map (fun x => shown (got x)) (clients (play proper (ms keep) (begun 5 starts))) in
  let size := match clients (play proper (firstn 4 (ms 0%nat)) (begun 5 starts)) with [x] => length (coming x) | _ => 0%nat end in
  (0 < size)%nat
  /\ seen size = [[Ok (2, [xaa; x05]); Err UnexpectedEof]]
  /\ seen (size - 1)%nat = [[Err UnexpectedEof; Err UnexpectedEof]]
  /\ tpm (play proper (ms size) (begun 5 starts)) = 6.
Proof. exact c101_cut. Qed.
