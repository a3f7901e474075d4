(** Several users of all of a simulator (C102). *)
(* Restates the theorems of CrowdFacts.v; proofs are there. *)
From Coq Require Import String ZArith NArith List Lia Bool.
From Coq Require Import Init.Byte.
From Verif Require Import Prelude Types Marshal WireSpec Catalogue Errors Tpm2b Client ClientSpec ClientProofs ClientFacts
  Tcp TcpSpec TcpProofs RemoteFacts Controls ControlsFacts Crowd CrowdProofs.
From Verif Require Clients ClientsFacts.
From Verif Require Import CrowdFacts.
Import ListNotations.
Open Scope Z_scope.

(** ** C102 *)
(** The calls that can be stopped before each system call are those of the
    connection and of the client: run without a stop they give, in every
    world, what those give. *)
Theorem C102_program W H C (sys : world W H C) (c : tcp H) :
  (forall o w, let '(w', r) := run_talk sys c (operation_t (locality c) o) w in
     perform sys c o w = (match o with Locality l => set_locality c l | _ => c end, w', r))
  /\ (forall x cmd handles a w,
        run_talk sys c (command_t (locality c) x cmd handles a) w
        = run_command_with_handles FromTss (tcp_connection sys c) w x cmd handles a).
Proof. exact (c102_program W H C sys c). Qed.
Print Assumptions C102_program.

(** What a call asks of the machine, request by request, is what it means there
    (Controls.v): made without a break it has that effect and that result. *)
Theorem C102_plan S (f : S -> request -> S * list byte) l s :
  (forall o, run_plan f (operation_plan l o) s = at_hand (answering f) l o s)
  /\ (forall c cmd handles a,
        run_plan f (command_plan l c cmd handles a) s
        = run_command_with_handles FromTss (machine_connection (answering f) l) s c cmd handles a).
Proof. exact (c102_plan S f l s). Qed.
Print Assumptions C102_plan.

(** Whatever users and machine do, in whatever order and pieces: every move
    either does nothing the others could tell, or is one turn at the machine of
    the user that moved or was attended to, in which it begins or ends a call or
    makes one request.  After each of the moves the machine is where it would
    be after these turns, and each user is at the same point of its session,
    with the same results. *)
Theorem C102_requests S (f : S -> request -> S * list byte) s starts ms :
  polite f -> Forall start_ok starts ->
  exists orders, Forall2 (fun m o => o = [] \/ o = [actor m]) ms orders /\
    forall k, let y := acted (answering f) (firstn k ms) (arrived s starts) in
      let z := turns f (concat (firstn k orders)) (s, seats starts) in
      shared y = fst z /\ Forall2 level_with (users y) (snd z).
Proof. exact (c102_requests S f s starts ms). Qed.
Print Assumptions C102_requests.

(** All get through: a user with [n] calls is through after [16426 n + 1] rounds
    at the latest, if it moves and each of its ports is attended to at least
    once in every round, at whatever moments, and whatever the others do. *)
Theorem C102_through S (f : S -> request -> S * list byte) s starts i l cs rounds :
  polite f -> Forall start_ok starts -> nth_error starts i = Some (l, cs) ->
  Forall (fun ms => List.In (Attends i true) ms /\ List.In (Attends i false) ms /\ exists p, List.In (Acts i p) ms) rounds ->
  16426 * Z.of_nat (length cs) < Z.of_nat (length rounds) ->
  exists x, nth_error (users (acted (answering f) (concat rounds) (arrived s starts))) i = Some x
    /\ calls x = [] /\ in_call x = None /\ length (have x) = length cs /\ out x = ([], []) /\ inc x = ([], []).
Proof. exact (c102_through S f s starts i l cs rounds). Qed.
Print Assumptions C102_through.

(** Calls that ask only once take effect as a whole, so if nobody makes others,
    users that are through got what they had got had they made their calls one
    by one, in one order for all. *)
Theorem C102_calls S (f : S -> request -> S * list byte) s starts ms :
  polite f -> Forall start_ok starts -> Forall (fun x => Forall one_request (snd x)) starts ->
  let y := acted (answering f) ms (arrived s starts) in
  Forall (fun x => calls x = [] /\ in_call x = None) (users y) ->
  exists order zs, whole_turns f order (s, seats starts) = (shared y, zs)
    /\ Forall (fun z => wants z = []) zs /\ map knows zs = map have (users y).
Proof. exact (c102_calls S f s starts ms). Qed.
Print Assumptions C102_calls.

Theorem C102_torn :
  let starts := [(0, [Call Reinit]); (3, [Call (Transact [x80] (repeat x00 RESP_BUFFER_SIZE))])] in
  polite recorder /\ Forall start_ok starts /\
  exists ms, let y := acted (answering recorder) ms (arrived [] starts) in
    map have (users y) = [[Called (Ok Done)]; [Called (Ok (Payload [x80; x01; x00; x00; x00; x0a; x00; x00; x01; x01]))]]
    /\ shared y = [AskSignal NvOff; AskSignal PowerOff; AskCommand 3 [x80]; AskSignal PowerOn; AskSignal NvOn]
    /\ forall order, fst (whole_turns recorder order ([], seats starts)) <> shared y.
Proof. exact c102_torn. Qed.
Print Assumptions C102_torn.

(** Three users, all kinds of calls, everything overlapping, answers in pieces of
    different sizes. *)
Example C102_overlap :
  let random := RunCommand GetRandom (VStruct [VInt 2]) VUnit area0 in
  let starts := [(0, [Call Reinit; Call (Locality 4); random]); (0, [Call (Hcrtm [xaa; xbb]); Call ResponseSizes]);
                 (1, [Call (Handshake 7); Call (ActSignaled 9); Call (FirmwareSvn 5)])] in
  let round := [Acts 0 3; Acts 1 1; Attends 2 true; Acts 2 5; Attends 1 true; Attends 0 false; Attends 1 false; Attends 2 false; Attends 0 true] in
  let y := acted (answering recorder) (concat (repeat round 60)) (arrived [] starts) in
  polite recorder /\ Forall start_ok starts
  /\ Forall (fun x => calls x = [] /\ in_call x = None) (users y)
  /\ map have (users y) = [[Called (Ok Done); Called (Ok Done); Ran (Err (FromTss 0x101))];
                           [Called (Ok Done); Called (Ok (Sizes 0 0 0 0))];
                           [Called (Ok (Versions 0 0)); Called (Ok (Number 0)); Called (Ok Done)]]
  /\ length (shared y) = 12%nat.
Proof. exact c102_overlap. Qed.
