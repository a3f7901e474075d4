(** Properties of the server (C43-C48, C51, C57, C58). *)
(* Restates the theorems of ServerFacts.v; proofs are there. *)
From Coq Require Import ZArith NArith List Lia Bool.
From Coq Require Import Init.Byte.
From Verif Require Import Prelude Errors Server ServerSpec ServerProofs.
From Verif Require Import ServerFacts.
Import ListNotations.
Open Scope Z_scope.

(** ** C43 *)
(** [k] is a command given with a separate response buffer, or in place. *)
Theorem C43_total D X (dr : Drbg D) (es : EntropySource X) c k :
  wf_drbg dr -> never_fails dr ->
  exists c' resp n, serve dr es c k = (c', resp, Ok n)
    /\ length resp = length (buffer_of k) /\ (n <= length (buffer_of k))%nat
    /\ skipn (Nat.max n 10) resp = skipn (Nat.max n 10) (buffer_of k).
Proof. exact (c43_total D X dr es c k). Qed.
Print Assumptions C43_total.

(** The test generator meets the hypotheses. *)
Example C43_example :
  wf_drbg FakeDrbg /\ never_fails FakeDrbg /\ ignores_contents FakeDrbg /\ wf_source FakeEntropy
  /\ new FakeDrbg FakeEntropy = Ok fake
  /\ execute_command_separate FakeDrbg FakeEntropy fake get12 (repeat xff 24)
     = ({| drbg := 12; entropy := tt |},
        [x80; x01; x00; x00; x00; x16; x00; x00; x00; x00;
         x01; x02; x03; x04; x05; x06; x07; x08; x09; x0a; x0b; x0c; xff; xff], Ok 22%nat).
Proof. exact c43_example. Qed.


(** ** C44 *)
(** Header errors: only the error code is written, and neither generator nor
    entropy source is used (the context, which holds both, is the same). *)
Theorem C44_size D X (dr : Drbg D) (es : EntropySource X) c k :
  wf_drbg dr ->
  Z.of_nat (length (request_of k)) < 10 \/ size_field (request_of k) <> Z.of_nat (length (request_of k)) ->
  serve dr es c k
  = (c, error_response (buffer_of k) 0x142, Ok (error_size (buffer_of k))).
Proof. exact (c44_size D X dr es c k). Qed.
Print Assumptions C44_size.

Theorem C44_code D X (dr : Drbg D) (es : EntropySource X) c k :
  wf_drbg dr ->
  10 <= Z.of_nat (length (request_of k)) -> size_field (request_of k) = Z.of_nat (length (request_of k)) ->
  code_field (request_of k) <> 0x17B ->
  serve dr es c k
  = (c, error_response (buffer_of k) 0x143, Ok (error_size (buffer_of k))).
Proof. exact (c44_code D X dr es c k). Qed.
Print Assumptions C44_code.

(** GetRandom without the two bytes of its parameter. *)
Theorem C44_count D X (dr : Drbg D) (es : EntropySource X) c k :
  wf_drbg dr ->
  10 <= Z.of_nat (length (request_of k)) < 12 -> size_field (request_of k) = Z.of_nat (length (request_of k)) ->
  code_field (request_of k) = 0x17B ->
  serve dr es c k
  = (c, error_response (buffer_of k) 0x142, Ok (error_size (buffer_of k))).
Proof. exact (c44_count D X dr es c k). Qed.
Print Assumptions C44_count.

Example C44_example :
  execute_command_separate FakeDrbg FakeEntropy fake
    [x80; x01; x00; x00; x00; x0b; x00; x00; x01; x7b; x00; x0c] (repeat xff 11)
  = (fake, [xff; xff; xff; xff; xff; xff; x00; x00; x01; x42; xff], Ok 10%nat)
  /\ execute_command_separate FakeDrbg FakeEntropy fake
    [x80; x01; x00; x00; x00; x0c; x00; x00; x01; x44; x00; x00] (repeat xff 11)
  = (fake, [xff; xff; xff; xff; xff; xff; x00; x00; x01; x43; xff], Ok 10%nat)
  /\ execute_command_separate FakeDrbg FakeEntropy fake
    [x80; x01; x00; x00; x00; x0b; x00; x00; x01; x7b; x00] (repeat xff 11)
  = (fake, [xff; xff; xff; xff; xff; xff; x00; x00; x01; x42; xff], Ok 10%nat).
Proof. exact c44_example. Qed.


(** ** C45 *)
Theorem C45_success D X (dr : Drbg D) (es : EntropySource X) c k n c' out :
  wf_drbg dr -> asks_for (request_of k) n -> 10 + n <= Z.of_nat (length (buffer_of k)) ->
  draws dr es c (firstn (Z.to_nat n) (skipn 10 (buffer_of k))) c' out ->
  Z.of_nat (length out) = n
  /\ serve dr es c k
     = (c', be_bytes 2 0x8001 ++ be_bytes 4 (10 + n) ++ be_bytes 4 0 ++ out ++ skipn (Z.to_nat (10 + n)) (buffer_of k),
        Ok (Z.to_nat (10 + n))).
Proof. exact (c45_success D X dr es c k n c' out). Qed.
Print Assumptions C45_success.

Theorem C45_no_room D X (dr : Drbg D) (es : EntropySource X) c k n :
  wf_drbg dr -> asks_for (request_of k) n -> Z.of_nat (length (buffer_of k)) < 10 + n ->
  serve dr es c k
  = (c, error_response (buffer_of k) 0x904, Ok (error_size (buffer_of k))).
Proof. exact (c45_no_room D X dr es c k n). Qed.
Print Assumptions C45_no_room.

Example C45_example :
  asks_for get12 12
  /\ draws NeedyDrbg FakeEntropy {| drbg := 5; entropy := tt |} (repeat xff 12)
           {| drbg := 6; entropy := tt |} (repeat x06 12)
  /\ execute_command_separate NeedyDrbg FakeEntropy {| drbg := 5; entropy := tt |} get12 (repeat xff 23)
     = ({| drbg := 6; entropy := tt |},
        [x80; x01; x00; x00; x00; x16; x00; x00; x00; x00] ++ repeat x06 12 ++ [xff], Ok 22%nat)
  /\ execute_command_separate NeedyDrbg FakeEntropy {| drbg := 5; entropy := tt |} get12 (repeat xff 21)
     = ({| drbg := 5; entropy := tt |}, repeat xff 6 ++ [x00; x00; x09; x04] ++ repeat xff 11, Ok 10%nat).
Proof. exact c45_example. Qed.


(** ** C46 *)
(** Same context, same outcome, same size and the same response from the
    response code on; a success response is the same in all its bytes. *)
Theorem C46_agree_partial D X (dr : Drbg D) (es : EntropySource X) c buffer request_size resp :
  wf_drbg dr -> ignores_contents dr -> length resp = length buffer ->
  let '(c1, r1, o1) := execute_command_in_place dr es c buffer request_size in
  let '(c2, r2, o2) := execute_command_separate dr es c (firstn request_size buffer) resp in
  c1 = c2 /\ o1 = o2
  /\ forall n, o1 = Ok n ->
       skipn 6 (firstn n r1) = skipn 6 (firstn n r2)
       /\ (firstn 4 (skipn 6 r1) = be_bytes 4 0 -> (10 <= n)%nat -> firstn n r1 = firstn n r2).
Proof. exact (c46_agree_partial D X dr es c buffer request_size resp). Qed.
Print Assumptions C46_agree_partial.

(** The first six bytes of an error response are what the buffer held, in place
    those of the request: here the tag and the size of the request, and
    separately zeros. *)
Theorem C46_refuted :
  exists request resp resp1 resp2, length resp = length request
  /\ execute_command_in_place FakeDrbg FakeEntropy fake request (length request) = (fake, resp1, Ok 10%nat)
  /\ execute_command_separate FakeDrbg FakeEntropy fake request resp = (fake, resp2, Ok 10%nat)
  /\ firstn 10 resp1 = [x80; x01; x00; x00; x00; x0a; x00; x00; x01; x43]
  /\ firstn 10 resp2 = [x00; x00; x00; x00; x00; x00; x00; x00; x01; x43].
Proof. exact c46_refuted. Qed.
Print Assumptions C46_refuted.

(** In place, the response to a request longer than the part that is read
    overwrites it. *)
Example C46_example :
  execute_command_in_place FakeDrbg FakeEntropy fake (get12 ++ repeat xff 10) 12
  = ({| drbg := 12; entropy := tt |},
     [x80; x01; x00; x00; x00; x16; x00; x00; x00; x00;
      x01; x02; x03; x04; x05; x06; x07; x08; x09; x0a; x0b; x0c], Ok 22%nat)
  /\ execute_command_in_place FakeDrbg FakeEntropy fake (get12 ++ repeat xff 10) 11
     = (fake, [x80; x01; x00; x00; x00; x0c; x00; x00; x01; x42; x00; x0c] ++ repeat xff 10, Ok 10%nat).
Proof. exact c46_example. Qed.


(** ** C47 *)
(** Whenever a response is not a success response, it is exactly this. *)
Theorem C47_errors D X (dr : Drbg D) (es : EntropySource X) c k c' resp' n :
  wf_drbg dr ->
  serve dr es c k = (c', resp', Ok n) ->
  is_success (firstn n resp') = false ->
  c' = c
  /\ exists rc, In rc [0x142; 0x143; 0x904]
  /\ (if (length (buffer_of k) <? 10)%nat then resp' = (buffer_of k) /\ n = 0%nat
      else n = 10%nat /\ firstn 6 resp' = firstn 6 (buffer_of k)
           /\ firstn 4 (skipn 6 resp') = be_bytes 4 rc /\ skipn 10 resp' = skipn 10 (buffer_of k)).
Proof. exact (c47_errors D X dr es c k c' resp' n). Qed.
Print Assumptions C47_errors.

Example C47_example :
  is_success (firstn 10 (snd (fst (execute_command_separate FakeDrbg FakeEntropy fake [] (repeat xff 12))))) = false
  /\ execute_command_separate FakeDrbg FakeEntropy fake get12 (repeat xff 9) = (fake, repeat xff 9, Ok 0%nat).
Proof. exact c47_example. Qed.


(** ** C48 *)
(** An error never sets tag and size: what was in the buffer stays. *)
Theorem C48_tag_and_size_not_set_partial D X (dr : Drbg D) (es : EntropySource X) c k c' resp' n :
  wf_drbg dr ->
  serve dr es c k = (c', resp', Ok n) ->
  is_success (firstn n resp') = false ->
  firstn 6 resp' = firstn 6 (buffer_of k).
Proof. exact (c48_tag_and_size_not_set_partial D X dr es c k c' resp' n). Qed.
Print Assumptions C48_tag_and_size_not_set_partial.

Example C48_example :
  serve FakeDrbg FakeEntropy fake (Separate [] (repeat xff 12)) = (fake, repeat xff 6 ++ [x00; x00; x01; x42; xff; xff], Ok 10%nat)
  /\ is_success (firstn 10 (repeat xff 6 ++ [x00; x00; x01; x42; xff; xff])) = false.
Proof. exact c48_example. Qed.

Theorem C48_refuted :
  exists request resp resp' c',
  execute_command_separate FakeDrbg FakeEntropy fake request resp = (c', resp', Ok 10%nat)
  /\ be_val (firstn 4 (skipn 6 resp')) = 0x143
  /\ firstn 6 resp' <> be_bytes 2 0x8001 ++ be_bytes 4 10.
Proof. exact c48_refuted. Qed.
Print Assumptions C48_refuted.


(** ** C51 *)
(** Everything the generator and the entropy source were asked during a
    history is explained by its responses, in order. *)
Theorem C51_history D X (dr : Drbg D) (es : EntropySource X) ks : forall d x log elog c' rs,
  wf_drbg dr ->
  serve_all (watched_drbg dr) (watched_source es) {| drbg := (d, log); entropy := (x, elog) |} ks
    = (c', rs, true) ->
  exists d' x' evs ses, c' = {| drbg := (d', log ++ evs); entropy := (x', elog ++ ses) |}
    /\ explains_all rs evs ses.
Proof. exact (c51_history D X dr es ks). Qed.
Print Assumptions C51_history.

Theorem C51_payloads D X (dr : Drbg D) (es : EntropySource X) ks d x c' rs :
  wf_drbg dr ->
  serve_all (watched_drbg dr) (watched_source es) {| drbg := (d, []); entropy := (x, []) |} ks
    = (c', rs, true) ->
  map (skipn 10) (filter is_success rs) = fills (snd (drbg c'))
  /\ snd (entropy c') = seeds (snd (drbg c')).
Proof. exact (c51_payloads D X dr es ks d x c' rs). Qed.
Print Assumptions C51_payloads.

(** A history that a panic cuts short: the responses before it explain
    everything up to it, and the command that panicked was in the middle of a
    draw.  Refused commands never panic. *)
Theorem C51_interrupted D X (dr : Drbg D) (es : EntropySource X) ks : forall d x log elog c' rs,
  wf_drbg dr ->
  serve_all (watched_drbg dr) (watched_source es) {| drbg := (d, log); entropy := (x, elog) |} ks
    = (c', rs, false) ->
  exists d' x' evs ses last last_seed,
    c' = {| drbg := (d', log ++ evs ++ last); entropy := (x', elog ++ ses ++ last_seed) |}
    /\ explains_all rs evs ses /\ failed_draw last last_seed.
Proof. exact (c51_interrupted D X dr es ks). Qed.
Print Assumptions C51_interrupted.

(** Start-up: the source is drawn from twice, for the entropy input and for the
    nonce, and the generator is instantiated with them. *)
Theorem C51_startup D X (dr : Drbg D) (es : EntropySource X) :
  new (watched_drbg dr) (watched_source es)
  = let '(x1, e) := fill_entropy es (source es) (entropy_default dr) in
    let '(x2, n) := fill_entropy es x1 (nonce_default dr) in
    match instantiate dr e n [] with
    | Ok d => Ok {| drbg := (d, [EvInstantiate e n []]); entropy := (x2, [e; n]) |}
    | Err err => Err err
    | Panic => Panic
    end.
Proof. exact (c51_startup D X dr es). Qed.
Print Assumptions C51_startup.

(** Three commands: two draws with reseeding and a refused one between. *)
Example C51_example :
  let get k := [x80; x01; x00; x00; x00; x0c; x00; x00; x01; x7b; x00; k] in
  serve_all (watched_drbg NeedyDrbg) (watched_source FakeEntropy)
    {| drbg := (5, []); entropy := (tt, []) |}
    [Separate (get x01) (repeat xff 11); Separate (get x02) (repeat xff 11);
     InPlace (get x02) 12]
  = ({| drbg := (7, [EvAskReseed true; EvReseed [x00; x01] []; EvFill [] [x06];
                     EvAskReseed true; EvReseed [x00; x01] []; EvFill [] [x07; x07]]);
        entropy := (tt, [[x00; x01]; [x00; x01]]) |},
     [[x80; x01; x00; x00; x00; x0b; x00; x00; x00; x00; x06];
      [xff; xff; xff; xff; xff; xff; x00; x00; x09; x04];
      [x80; x01; x00; x00; x00; x0c; x00; x00; x00; x00; x07; x07]], true).
Proof. exact c51_example. Qed.


(** ** C57 *)
(** A generator failure always ends in a panic, never in a response. *)
Theorem C57_failure_panics_partial D X (dr : Drbg D) (es : EntropySource X) c k n :
  wf_drbg dr -> asks_for (request_of k) n -> 10 + n <= Z.of_nat (length (buffer_of k)) ->
  (~ exists c' out, draws dr es c (firstn (Z.to_nat n) (skipn 10 (buffer_of k))) c' out) ->
  snd (serve dr es c k) = Panic.
Proof. exact (c57_failure_panics_partial D X dr es c k n). Qed.
Print Assumptions C57_failure_panics_partial.

Theorem C57_refuted :
  wf_drbg BrokenDrbg
  /\ snd (execute_command_separate BrokenDrbg FakeEntropy fake get12 (repeat x00 32)) = Panic.
Proof. exact c57_refuted. Qed.
Print Assumptions C57_refuted.

Example C57_example :
  serve_all (watched_drbg BrokenDrbg) (watched_source FakeEntropy)
    {| drbg := (0, []); entropy := (tt, []) |}
    [Separate [x80; x01] (repeat xff 10); Separate get12 (repeat xff 22); Separate get12 (repeat xff 22)]
  = ({| drbg := (0, [EvAskReseed false; EvFill [] (repeat xff 12)]); entropy := (tt, []) |},
     [[xff; xff; xff; xff; xff; xff; x00; x00; x01; x42]], false).
Proof. exact c57_example. Qed.

(** And only then: a command never panics unless it is a GetRandom that has to
    be served and the generator cannot. *)
Theorem C57_exactly_when_partial D X (dr : Drbg D) (es : EntropySource X) c k :
  wf_drbg dr ->
  (snd (serve dr es c k) = Panic
   <-> exists n, asks_for (request_of k) n /\ 10 + n <= Z.of_nat (length (buffer_of k))
       /\ ~ exists c' out, draws dr es c (firstn (Z.to_nat n) (skipn 10 (buffer_of k))) c' out)
  /\ snd (serve dr es c k) <> Err tt.
Proof. exact (c57_exactly_when_partial D X dr es c k). Qed.
Print Assumptions C57_exactly_when_partial.


(** ** C58 *)
(** What is not looked at: the tag, and everything behind the count. *)
Theorem C58_ignored_partial D X (dr : Drbg D) (es : EntropySource X) c request request' resp :
  wf_drbg dr ->
  12 <= Z.of_nat (length request) -> size_field request = Z.of_nat (length request) ->
  12 <= Z.of_nat (length request') -> size_field request' = Z.of_nat (length request') ->
  firstn 6 (skipn 6 request) = firstn 6 (skipn 6 request') ->
  execute_command_separate dr es c request resp = execute_command_separate dr es c request' resp.
Proof. exact (c58_ignored_partial D X dr es c request request' resp). Qed.
Print Assumptions C58_ignored_partial.

(** The same of any two calls, separate or in place, with buffers of the same
    length: generator, source, size and response from the code on are the same,
    and a success response is the same in all its bytes. *)
Theorem C58_ignored_calls_partial D X (dr : Drbg D) (es : EntropySource X) c k k' :
  wf_drbg dr -> ignores_contents dr -> length (buffer_of k') = length (buffer_of k) ->
  12 <= Z.of_nat (length (request_of k)) -> size_field (request_of k) = Z.of_nat (length (request_of k)) ->
  12 <= Z.of_nat (length (request_of k')) -> size_field (request_of k') = Z.of_nat (length (request_of k')) ->
  firstn 6 (skipn 6 (request_of k)) = firstn 6 (skipn 6 (request_of k')) ->
  let '(c1, r1, o1) := serve dr es c k in
  let '(c2, r2, o2) := serve dr es c k' in
  c1 = c2 /\ o1 = o2
  /\ forall n, o1 = Ok n ->
       skipn 6 (firstn n r1) = skipn 6 (firstn n r2)
       /\ (is_success (firstn n r1) = true -> firstn n r1 = firstn n r2).
Proof. exact (c58_ignored_calls_partial D X dr es c k k'). Qed.
Print Assumptions C58_ignored_calls_partial.

(** Two such requests. *)
Example C58_example :
  let stray := [xde; xad; x00; x00; x00; x0e; x00; x00; x01; x7b; x00; x0c; xbe; xef] in
  size_field stray = Z.of_nat (length stray) /\ size_field get12 = Z.of_nat (length get12)
  /\ firstn 6 (skipn 6 stray) = firstn 6 (skipn 6 get12)
  /\ execute_command_separate FakeDrbg FakeEntropy fake stray (repeat xff 24)
     = execute_command_separate FakeDrbg FakeEntropy fake get12 (repeat xff 24)
  /\ request_of (InPlace (stray ++ repeat xff 10) 14) = stray
  /\ is_success (firstn 22 (snd (fst (serve FakeDrbg FakeEntropy fake (InPlace (stray ++ repeat xff 10) 14))))) = true
  /\ firstn 22 (snd (fst (serve FakeDrbg FakeEntropy fake (InPlace (stray ++ repeat xff 10) 14))))
     = firstn 22 (snd (fst (serve FakeDrbg FakeEntropy fake (Separate get12 (repeat xff 24))))).
Proof. exact c58_example. Qed.

(** A request with sessions tag, and one with four stray bytes, are served. *)
Theorem C58_refuted :
  exists with_sessions with_stray,
  firstn 2 with_sessions = be_bytes 2 0x8002
  /\ with_stray = [x80; x01; x00; x00; x00; x10; x00; x00; x01; x7b; x00; x01; xde; xad; xbe; xef]
  /\ is_success (firstn 22 (snd (fst (execute_command_separate FakeDrbg FakeEntropy fake with_sessions (repeat x00 32))))) = true
  /\ is_success (firstn 11 (snd (fst (execute_command_separate FakeDrbg FakeEntropy fake with_stray (repeat x00 32))))) = true.
Proof. exact c58_refuted. Qed.
Print Assumptions C58_refuted.
