(** Properties of the TCP transport and the simulator process
    (C38-C42, C59-C63). *)
(* Restates the theorems of TcpFacts.v; proofs are there. *)
From Coq Require Import String ZArith NArith List Lia Bool.
From Coq Require Import Init.Byte.
From Verif Require Import Prelude Client ClientSpec Tcp TcpSpec TcpProofs SimulatorProofs.
From Verif Require Import TcpFacts.
Import ListNotations.
Open Scope Z_scope.

(** ** C38 *)
(** Whatever the peer does: the bytes said are a prefix of the frame, in order,
    on the TPM port; and unless all of it was said, nothing is read and the
    result is no success. *)
Theorem C38_frame : forall (W H C : Type) (sys : world W H C) (c : tcp H) (w : W) (l : list (event H C)) command response,
  wf_world sys ->
  exists w' response' seen r,
    tcp_transact (watched sys) c (w, l) command response = ((w', l ++ seen), response', r)
    /\ (exists more, said seen ++ more = send (tpm_tcp c) (command_frame c command))
    /\ (said seen = send (tpm_tcp c) (command_frame c command)
        \/ seen = said seen /\ is_ok r = false /\ response' = response).
Proof. exact c38_frame. Qed.
Print Assumptions C38_frame.

Example C38_frame_case :
  let '((_, l), _, r) := tcp_transact (watched (pipe byte_by_byte)) (ends 3)
                           ((response_frame random_rsp, []), []) get_random_cmd (repeat x00 20) in
  (firstn 21 l, r)
  = (map (Out true) ([x00; x00; x00; x08] ++ [x03] ++ [x00; x00; x00; x0c] ++ get_random_cmd), Ok 14%nat).
Proof. exact c38_frame_case. Qed.

(** The stream takes fewer bytes: an error, at once. *)
Theorem C38_short : forall (W H C : Type) (sys : world W H C) (c : tcp H) (w w1 : W) command response n,
  Z.of_nat (length command) < 2 ^ 32 ->
  write sys w (tpm_tcp c) (command_frame c command) = (w1, Ok n) -> n <> length (command_frame c command) ->
  tcp_transact sys c w command response = (w1, response, Err WriteZero).
Proof. exact c38_short. Qed.
Print Assumptions C38_short.

Example C38_short_case :
  (* a stream that takes ten bytes at a time *)
  let lazy : world (list byte) unit unit := {|
    tcp_connect := fun w _ _ => (w, Ok tt);
    write := fun w _ buf => (w ++ firstn 10 buf, Ok (Nat.min 10 (length buf)));
    read := fun w _ _ => (w, Ok []); shutdown := fun w _ => (w, Ok tt); sleep_one_second := fun w => w;
    read_to_string := fun w _ => (w, Ok []); spawn := fun w _ _ _ => (w, Ok tt); kill := fun w _ => (w, Ok tt) |} in
  tcp_transact lazy {| tpm_tcp := tt; plat_tcp := tt; locality := 0 |} [] get_random_cmd [x55]
  = ([x00; x00; x00; x08; x00; x00; x00; x00; x0c; x80], [x55], Err WriteZero).
Proof. exact c38_short_case. Qed.

(** The stream refuses: its own error is returned. *)
Theorem C38_refused : forall (W H C : Type) (sys : world W H C) (c : tcp H) (w w1 : W) command response e,
  Z.of_nat (length command) < 2 ^ 32 ->
  write sys w (tpm_tcp c) (command_frame c command) = (w1, Err e) ->
  tcp_transact sys c w command response = (w1, response, Err e).
Proof. exact c38_refused. Qed.
Print Assumptions C38_refused.

(** A command whose length does not fit the frame is refused before anything is
    written. *)
Theorem C38_too_long : forall (W H C : Type) (sys : world W H C) (c : tcp H) (w : W) command response,
  2 ^ 32 <= Z.of_nat (length command) ->
  tcp_transact sys c w command response = (w, response, Err InvalidInput).
Proof. exact c38_too_long. Qed.
Print Assumptions C38_too_long.


(** ** C39 *)
(** A success consumed one response frame, and returned its payload in the
    front of the buffer; the rest of the buffer is as it was. *)
Theorem C39_success : forall (W H C : Type) (sys : world W H C) (c : tcp H) (w : W) (l : list (event H C)) command response
    w' l' response' n,
  wf_world sys ->
  tcp_transact (watched sys) c (w, l) command response = ((w', l'), response', Ok n) ->
  exists payload,
    response' = payload ++ skipn (length payload) response
    /\ n = length payload /\ (n <= length response)%nat
    /\ l' = l ++ send (tpm_tcp c) (command_frame c command) ++ receive (tpm_tcp c) (response_frame payload).
Proof. exact c39_success. Qed.
Print Assumptions C39_success.

Example C39_success_case :
  let '((_, l), rsp, r) := tcp_transact (watched (pipe byte_by_byte)) (ends 0)
                           ((response_frame random_rsp ++ [x77], []), []) get_random_cmd (repeat x55 16) in
  (skipn 21 l, rsp, r)
  = (map (In true) ([x00; x00; x00; x0e] ++ random_rsp ++ [x00; x00; x00; x00]), random_rsp ++ [x55; x55], Ok 14%nat).
Proof. exact c39_success_case. Qed.

(** Over any history of successful calls of any kind, all that is said and
    heard is exactly the conversations of the calls, one after the other. *)
Theorem C39_history : forall (W H C : Type) (sys : world W H C) os (c : tcp H) (w : W) (l : list (event H C)) c' w' l' rs,
  wf_world sys ->
  perform_all (watched sys) c os (w, l) = (c', (w', l'), Some rs) ->
  l' = l ++ conversations c os rs /\ Forall2 answers os rs.
Proof. exact c39_history. Qed.
Print Assumptions C39_history.

(** And if the peer has the answers to a history in store, cut in whatever
    pieces, the caller gets exactly these answers, and what follows them stays
    in the stream. *)
Theorem C39_answers : forall pieces os rs l w,
  Forall2 answers os rs -> Forall writable os ->
  perform_all (pipe pieces) (ends l) os (in_store (@conversations bool unit (ends l) os rs) w)
  = (ends (fold_left locality_after os l), w, Some rs).
Proof. exact c39_answers. Qed.
Print Assumptions C39_answers.

Example C39_answers_case :
  let os := [Signal PowerOn; Locality 2; Transact get_random_cmd (repeat x00 20); ActSignaled 1; ResponseSizes;
             Transact get_random_cmd (repeat x00 14)] in
  let rs := [Done; Done; Payload random_rsp; Number 7; Sizes 4096 1 4096 2; Payload random_rsp] in
  Forall2 answers os rs /\ Forall writable os
  /\ perform_all (pipe byte_by_byte) (ends 0) os (in_store (@conversations bool unit (ends 0) os rs) ([xee], []))
     = (ends 2, ([xee], []), Some rs).
Proof. exact c39_answers_case. Qed.

(** The transport is a connection in the sense of the client's properties. *)
Theorem C39_connection : forall (W H C : Type) (sys : world W H C) (c : tcp H), wf_connection (tcp_connection sys c).
Proof. exact c39_connection. Qed.
Print Assumptions C39_connection.


(** ** C40 *)
(** Whoever answers a command with a payload that is too long for the buffer
    and looks like a response frame decides what the next command returns: the
    next call reads the payload, not its own answer in [w]. *)
Theorem C40_smuggled : forall pieces l command1 response1 command2 response2 q w,
  Z.of_nat (length command1) < 2 ^ 32 -> Z.of_nat (length command2) < 2 ^ 32 ->
  Z.of_nat (length (response_frame q)) < 2 ^ 32 ->
  (length response1 < length (response_frame q))%nat -> (length q <= length response2)%nat ->
  exists w1 w2,
    perform (pipe pieces) (ends l) (Transact command1 response1) (response_frame (response_frame q) ++ fst w, snd w)
    = (ends l, w1, Err InvalidInput)
    /\ perform (pipe pieces) (ends l) (Transact command2 response2) w1 = (ends l, w2, Ok (Payload q)).
Proof. exact c40_smuggled. Qed.
Print Assumptions C40_smuggled.

(** So the property is false: the second call's own answer is [random_rsp]. *)
Theorem C40_refuted :
  exists payload1 : list byte,
    let w := (response_frame payload1 ++ response_frame random_rsp, []) in
    exists w1 w2 bogus,
      perform (pipe byte_by_byte) (ends 0) (Transact get_random_cmd (repeat x00 14)) w = (ends 0, w1, Err InvalidInput)
      /\ perform (pipe byte_by_byte) (ends 0) (Transact get_random_cmd (repeat x00 14)) w1
         = (ends 0, w2, Ok (Payload bogus))
      /\ bogus <> random_rsp.
Proof. exact c40_refuted. Qed.
Print Assumptions C40_refuted.

(** What remains true: a command that is refused because it is too long leaves
    the stream alone, so that what follows is as if it had not been tried. *)
Theorem C40_partial : forall (W H C : Type) (sys : world W H C) (c : tcp H) (w : W) command response o,
  2 ^ 32 <= Z.of_nat (length command) ->
  perform sys c o (snd (fst (perform sys c (Transact command response) w))) = perform sys c o w.
Proof. exact c40_partial. Qed.
Print Assumptions C40_partial.

(** Exactly what is left in the stream, for every answer: a response that fits
    is consumed with its acknowledgement, whether or not that is right, so the
    next call is not affected.  Only a payload that is too long stays there. *)
Theorem C40_left_partial : forall pieces l command response payload ack w,
  Z.of_nat (length command) < 2 ^ 32 -> Z.of_nat (length payload) < 2 ^ 32 -> 0 <= ack < 2 ^ 32 ->
  perform (pipe pieces) (ends l) (Transact command response)
    (u32be (Z.of_nat (length payload)) ++ payload ++ u32be ack ++ fst w, snd w)
  = if (length payload <=? length response)%nat
    then (ends l, w, if ack =? 0 then Ok (Payload payload) else Err InvalidData)
    else (ends l, (payload ++ u32be ack ++ fst w, snd w), Err InvalidInput).
Proof. exact c40_left_partial. Qed.
Print Assumptions C40_left_partial.

Example C40_left_case :
  perform (pipe byte_by_byte) (ends 0) (Transact get_random_cmd (repeat x00 2))
    ([x00; x00; x00; x02; x0a; x0b; x00; x00; x00; x01; x77], []) = (ends 0, ([x77], []), Err InvalidData)
  /\ perform (pipe byte_by_byte) (ends 0) (Transact get_random_cmd [x00])
    ([x00; x00; x00; x02; x0a; x0b; x00; x00; x00; x00; x77], [])
    = (ends 0, ([x0a; x0b; x00; x00; x00; x00; x77], []), Err InvalidInput).
Proof. exact c40_left_case. Qed.


(** ** C41 *)
(** Every call, against every peer: a success means that the documented
    conversation took place, acknowledgements included; whatever happens,
    nothing else is said than the beginning of what the call says; and the
    connection changes in its locality only. *)
Theorem C41_calls : forall (W H C : Type) (sys : world W H C) (c : tcp H) o (w : W) (l : list (event H C)),
  wf_world sys ->
  exists w' seen r,
    perform (watched sys) c o (w, l)
    = ({| tpm_tcp := tpm_tcp c; plat_tcp := plat_tcp c; locality := locality_after (locality c) o |}, (w', l ++ seen), r)
    /\ (forall a, answers o a -> exists more, said seen ++ more = said (conversation c o a))
    /\ (forall a, r = Ok a -> answers o a /\ seen = conversation c o a).
Proof. exact c41_calls. Qed.
Print Assumptions C41_calls.

Example C41_calls_case :
  let '(_, (_, l), r) := perform (watched (pipe byte_by_byte)) (ends 0) Reinit
        (([], [x00; x00; x00; x00; x00; x00; x00; x00; x00; x00; x00; x00; x00; x00; x00; x00]), []) in
  (l, r) = (flat_map (fun b => map (Out false) [x00; x00; x00; b] ++ map (In false) [x00; x00; x00; x00])
                     [x0c; x02; x01; x0b], Ok Done).
Proof. exact c41_calls_case. Qed.

(** With a peer that gives them, all answers arrive. *)
Theorem C41_answered : forall pieces l o a w,
  answers o a -> writable o ->
  perform (pipe pieces) (ends l) o (in_store (@conversation bool unit (ends l) o a) w)
  = (ends (locality_after l o), w, Ok a).
Proof. exact c41_answered. Qed.
Print Assumptions C41_answered.

(** These are the acknowledgements in the documented conversation. *)
Theorem C41_acknowledgements : forall l o a h before,
  answers o a -> List.In (h, before) (acknowledgements o a) ->
  exists pre post, @conversation bool unit (ends l) o a = pre ++ ack h ++ post /\ heard h pre = before
    /\ (acknowledgements o a = [(h, before)] -> post = []).
Proof. exact c41_acknowledgements. Qed.
Print Assumptions C41_acknowledgements.

(** A wrong one is an error, whichever it is, and is consumed. *)
Theorem C41_wrong_acknowledgement : forall pieces l o a h before b1 b2 b3 b4 (w : list byte * list byte),
  answers o a -> writable o -> List.In (h, before) (acknowledgements o a) ->
  [b1; b2; b3; b4] <> [x00; x00; x00; x00] ->
  let coming := before ++ [b1; b2; b3; b4] in
  perform (pipe pieces) (ends l) o (if h then (coming ++ fst w, snd w) else (fst w, coming ++ snd w))
  = (ends l, w, Err InvalidData).
Proof. exact c41_wrong_acknowledgement. Qed.
Print Assumptions C41_wrong_acknowledgement.

Example C41_wrong_acknowledgement_case :
  perform (pipe byte_by_byte) (ends 0) (Signal NvOn) ([], [x00; x00; x00; x01; x02]) = (ends 0, ([], [x02]), Err InvalidData).
Proof. exact c41_wrong_acknowledgement_case. Qed.

(** One thing that is not right: the length announced for hash data of 2^32
    bytes or more is not their number, and the call succeeds all the same. *)
Theorem C41_hash_length_wraps : forall pieces l data w,
  2 ^ 32 <= Z.of_nat (length data) ->
  perform (pipe pieces) (ends l) (Hcrtm data) (in_store (@conversation bool unit (ends l) (Hcrtm data) Done) w)
  = (ends l, w, Ok Done)
  /\ @conversation bool unit (ends l) (Hcrtm data) Done
     = signalled true 5 ++ (send true (u32be 6 ++ u32be (Z.of_nat (length data)) ++ data) ++ ack true) ++ signalled true 7
  /\ be_val (u32be (Z.of_nat (length data))) < Z.of_nat (length data).
Proof. exact c41_hash_length_wraps. Qed.
Print Assumptions C41_hash_length_wraps.


(** ** C42 *)
(** [connect_with_retries] is its [k]-th attempt for the first [k] that does not
    fail, or the fourth. *)
Theorem C42_attempts : forall (W H C : Type) (sys : world W H C) ip tpm_port plat_port (w : W),
  let try k := attempt sys (connect sys ip tpm_port plat_port) k w in
  exists k, (k <= 3)%nat
    /\ connect_with_retries sys ip tpm_port plat_port w = try k
    /\ (forall j, (j < k)%nat -> failed (snd (try j)))
    /\ (failed (snd (try k)) -> k = 3%nat).
Proof. exact c42_attempts. Qed.
Print Assumptions C42_attempts.

Example C42_attempts_case :
  connect_with_retries late [x3a] (Some 7) None 3%nat = (O, Ok {| tpm_tcp := 7; plat_tcp := 2322; locality := 0 |})
  /\ connect_with_retries late [x3a] (Some 7) None 4%nat = (O, Err (System 111)).
Proof. exact c42_attempts_case. Qed.

(** What is seen of it: each attempt dials the TPM port and, if that is
    answered, the platform port; a second passes between two attempts. *)
Theorem C42_seen : forall (W H C : Type) (sys : world W H C) ip tpm_port plat_port (w : W) (l : list (event H C)),
  exists w' seen r,
    connect_with_retries (watched sys) ip tpm_port plat_port (w, l) = ((w', l ++ seen), r)
    /\ attempts (dialled ip (or_default 2321 tpm_port) (or_default 2322 plat_port)) seen r.
Proof. exact c42_seen. Qed.
Print Assumptions C42_seen.

Example C42_seen_case :
  connect_with_retries (watched late) [x3a] (Some 7) None (1%nat, [])
  = ((O, [Dial [x3a] 7 None; Slept; Dial [x3a] 7 (Some 7); Dial [x3a] 2322 (Some 2322)]),
     Ok {| tpm_tcp := 7; plat_tcp := 2322; locality := 0 |}).
Proof. exact c42_seen_case. Qed.


(** ** C59 *)
(** A port file is accepted exactly if it is a number up to 65535 in decimal,
    with white space around it and perhaps a plus sign. *)
Theorem C59_text : forall (W H C : Type) (sys : world W H C) path (w w1 : W) text,
  read_to_string sys w path = (w1, Ok text) ->
  (forall port, port_text text port -> read_port sys path w = (w1, Ok port))
  /\ ((forall port, ~ port_text text port) -> read_port sys path w = (w1, Err InvalidData)).
Proof. exact c59_text. Qed.
Print Assumptions C59_text.

Example C59_text_case :
  (* "\t 02321\n" with a no-break space; "+65535"; "65536"; "+"; "23 21" *)
  parse_u16 (trim [x09; xc2; xa0; x30; x32; x33; x32; x31; x0a]) = Some 2321
  /\ port_text [x09; xc2; xa0; x30; x32; x33; x32; x31; x0a] 2321
  /\ parse_u16 (trim [x2b; x36; x35; x35; x33; x35]) = Some 65535
  /\ parse_u16 (trim [x36; x35; x35; x33; x36]) = None
  /\ parse_u16 (trim [x2b]) = None
  /\ parse_u16 (trim [x32; x33; x20; x32; x31]) = None.
Proof. exact c59_text_case. Qed.

(** A text denotes one port at most. *)
Theorem C59_unique : forall text p q, port_text text p -> port_text text q -> p = q.
Proof. exact c59_unique. Qed.
Print Assumptions C59_unique.

(** The file is read again, after a second, while it cannot be read, four times
    in all; a file that can be read is read once. *)
Theorem C59_seen : forall (W H C : Type) (sys : world W H C) path (w : W) (l : list (event H C)),
  exists w' seen r, read_port (watched sys) path (w, l) = ((w', l ++ seen), r) /\ port_read path seen r.
Proof. exact c59_seen. Qed.
Print Assumptions C59_seen.

Example C59_seen_case :
  read_port (watched late) [x61] (0%nat, [])
  = ((O, [ReadFile [x61] None; Slept; ReadFile [x61] None; Slept; ReadFile [x61] None; Slept; ReadFile [x61] None]),
     Err (System 2)).
Proof. exact c59_seen_case. Qed.


(** ** C60 *)
(** Whatever [TcpSimulator::new] returns, it has killed nothing. *)
Theorem C60_never_killed : forall (W H C : Type) (sys : world W H C) bin args cwd ip (w : W) (l : list (event H C)),
  exists w' seen r, simulator_new (watched sys) bin args cwd ip (w, l) = ((w', l ++ seen), r) /\ Forall not_killed seen.
Proof. exact c60_never_killed. Qed.
Print Assumptions C60_never_killed.

(** So a failure after the start leaves the process running. *)
Theorem C60_refuted :
  exists (sys : world nat Z unit) w' seen e,
    simulator_new (watched sys) [x62] [] [x63] [x69] (O, []) = ((w', seen), Err e)
    /\ List.In (Spawned [x62] [] [x63] tt) seen /\ ~ List.In (Killed tt) seen.
Proof. exact c60_refuted. Qed.
Print Assumptions C60_refuted.

(** What remains true: if the process cannot be started, nothing else is done. *)
Theorem C60_partial : forall (W H C : Type) (sys : world W H C) bin args cwd ip (w w1 : W) e,
  spawn sys w bin args cwd = (w1, Err e) -> simulator_new sys bin args cwd ip w = (w1, Err e).
Proof. exact c60_partial. Qed.
Print Assumptions C60_partial.

(** If it can, it is started once, with the given program, arguments and
    directory, and it goes on running whatever happens then. *)
Theorem C60_left_running : forall (W H C : Type) (sys : world W H C) bin args cwd ip (w w1 : W) c (l : list (event H C)),
  spawn sys w bin args cwd = (w1, Ok c) ->
  exists w' seen r, simulator_new (watched sys) bin args cwd ip (w, l) = ((w', l ++ seen), r)
    /\ filter of_processes seen = [Spawned bin args cwd c].
Proof. exact c60_left_running. Qed.
Print Assumptions C60_left_running.

Example C60_left_running_case :
  filter of_processes (snd (fst (simulator_new (watched late) [x62] [[x78]] [x63] [x69] (O, [])))) = [Spawned [x62] [[x78]] [x63] tt]
  /\ is_ok (snd (simulator_new late [x62] [[x78]] [x63] [x69] O)) = false.
Proof. exact c60_left_running_case. Qed.


(** ** C61 *)
(** Dropping a simulator: either both ports were told to stop and shut down, or
    the process is killed. *)
Theorem C61_drop : forall (W H C : Type) (sys : world W H C) (s : @simulator H C) (w : W) (l : list (event H C)),
  quiet_world sys ->
  let goodbye := conversation (conn s) StopSimulator Done in
  exists w' seen,
    simulator_drop (watched sys) s (w, l) = (w', l ++ seen)
    /\ (seen = goodbye
        \/ exists part more, seen = part ++ [Killed (child s)] /\ said part ++ more = said goodbye).
Proof. exact c61_drop. Qed.
Print Assumptions C61_drop.

Example C61_drop_case :
  simulator_drop (watched (pipe byte_by_byte)) {| child := tt; conn := ends 0 |} (([], []), [])
  = (([], []), map (Out true) [x00; x00; x00; x15] ++ [Shut true] ++ map (Out false) [x00; x00; x00; x15] ++ [Shut false]).
Proof. exact c61_drop_case. Qed.

(** [stop] kills the process once and reports whether that succeeded;
    [stop_nicely] reports success only if both ports were told to stop. *)
Theorem C61_stop : forall (W H C : Type) (sys : world W H C) (s : @simulator H C) (w : W) (l : list (event H C)),
  exists w' r,
    simulator_stop (watched sys) s (w, l) = ((w', l ++ [Killed (child s)]), r)
    /\ kill sys w (child s) = (w', snd (kill sys w (child s)))
    /\ (r = Ok tt <-> snd (kill sys w (child s)) = Ok tt)
    /\ ((exists e, r = Err e) <-> exists e, snd (kill sys w (child s)) = Err e).
Proof. exact c61_stop. Qed.
Print Assumptions C61_stop.

Theorem C61_stop_nicely : forall (W H C : Type) (sys : world W H C) (s : @simulator H C) (w : W) (l : list (event H C)) w' l',
  quiet_world sys ->
  stop_nicely (watched sys) s (w, l) = ((w', l'), Ok tt) ->
  l' = l ++ conversation (conn s) StopSimulator Done.
Proof. exact c61_stop_nicely. Qed.
Print Assumptions C61_stop_nicely.

Example C61_stop_case :
  stop_nicely (watched (pipe byte_by_byte)) {| child := tt; conn := ends 0 |} (([], []), [])
  = ((([], []), conversation (ends 0) StopSimulator Done), Ok tt).
Proof. exact c61_stop_case. Qed.


(** ** C62 *)
(** No call panics, whatever the peer, the files and the processes do. *)
Theorem C62_calls : forall (W H C : Type) (sys : world W H C) (c : tcp H) o (w : W),
  quiet_world sys -> is_panic (snd (perform sys c o w)) = false.
Proof. exact c62_calls. Qed.
Print Assumptions C62_calls.

Theorem C62_connecting : forall (W H C : Type) (sys : world W H C) ip tpm_port plat_port (w : W),
  quiet_world sys -> is_panic (snd (connect_with_retries sys ip tpm_port plat_port w)) = false.
Proof. exact c62_connecting. Qed.
Print Assumptions C62_connecting.

Theorem C62_starting : forall (W H C : Type) (sys : world W H C) bin args cwd ip (w : W),
  quiet_world sys -> is_panic (snd (simulator_new sys bin args cwd ip w)) = false.
Proof. exact c62_starting. Qed.
Print Assumptions C62_starting.

Theorem C62_stopping : forall (W H C : Type) (sys : world W H C) (s : @simulator H C) (w : W),
  quiet_world sys ->
  is_panic (snd (simulator_stop sys s w)) = false /\ is_panic (snd (stop_nicely sys s w)) = false.
Proof. exact c62_stopping. Qed.
Print Assumptions C62_stopping.

Example C62_case : quiet_world (pipe byte_by_byte).
Proof. exact c62_case. Qed.


(** ** C63 *)
(** A simulator that was started is the given program, and is talked to on the
    ports that it left in its two files. *)
Theorem C63_started : forall (W H C : Type) (sys : world W H C) bin args cwd ip (w : W) (l : list (event H C)) w' l' s,
  simulator_new (watched sys) bin args cwd ip (w, l) = ((w', l'), Ok s) ->
  exists read1 p1 read2 p2 dials,
    l' = l ++ [Spawned bin args cwd (child s)] ++ read1 ++ read2 ++ dials
    /\ port_read (file_in cwd (list_byte_of_string "command.port")) read1 (Ok p1)
    /\ port_read (file_in cwd (list_byte_of_string "platform.port")) read2 (Ok p2)
    /\ attempts (dialled ip p1 p2) dials (Ok (conn s)).
Proof. exact c63_started. Qed.
Print Assumptions C63_started.

Example C63_started_case :
  simulator_new (watched tidy) [x62] [] [x2f; x74] [x69] (5%nat, [])
  = ((6%nat, [Spawned [x62] [] [x2f; x74] 5%nat;
              ReadFile (list_byte_of_string "/t/command.port") (Some (list_byte_of_string "2321 "));
              ReadFile (list_byte_of_string "/t/platform.port") (Some (list_byte_of_string "2322"));
              Dial [x69] 2321 (Some 2321); Dial [x69] 2322 (Some 2322)]),
     Ok {| child := 5%nat; conn := {| tpm_tcp := 2321; plat_tcp := 2322; locality := 0 |} |})
  /\ file_in [x2f; x74; x2f] [x61] = [x2f; x74; x2f; x61] /\ file_in [] [x61] = [x61].
Proof. exact c63_started_case. Qed.
