(** Sessions that keep state are used once, in order, around one exchange (C89). *)
(* Restates the theorems of SessionsFacts.v; proofs are there. *)
From Coq Require Import String ZArith NArith List Lia Bool.
From Coq Require Import Init.Byte.
From Verif Require Import Prelude Types Marshal WireSpec MarshalProofs MarshalFacts Catalogue Samples Errors Tpm2b Client ClientSpec ClientProofs
  ClientFacts Sessions.
From Verif Require Import SessionsFacts.
Import ListNotations.
Open Scope Z_scope.

(** ** C89 *)
(** A call that succeeds: the sessions are asked once each, in order, and their
    authorizations sent; then the response comes in, its authorizations are
    handed to the sessions, once each, in order; every one is accepted, and
    nothing happens to the sessions but this.  And conversely. *)
Theorem C89_accepted_iff W E (from_tss : Z -> E) (tpm : connection W E) w c cmd handles a w' resp rh :
  live_call c cmd handles a -> wf_connection tpm ->
  let '(w1, vs) := give_all (live_sessions a) w in
  let frame := command_frame c cmd handles (standing vs) in
  (live_run from_tss tpm w c cmd handles a = (w', Ok (resp, rh))
   <-> fits frame
       /\ exists w2 n tag psize auths ignored,
          let body := response_body c tag psize resp rh auths in
          transact tpm w1 frame empty_buffer
            = (w2, response_frame tag (10 + Z.of_nat (length body)) 0 (body ++ ignored), Ok n)
          /\ 0 <= tag < 2 ^ 16 /\ 0 <= psize < 2 ^ 32
          /\ wf (resp_ty c) resp = true /\ canonical (resp_ty c) resp
          /\ wf (resp_handles_ty c) rh = true /\ canonical (resp_handles_ty c) rh
          /\ length auths = length (live_sessions a) /\ Forall proper auths
          /\ take_all (combine (live_sessions a) auths) w2 = (w', Ok tt)).
Proof. exact (c89_accepted_iff W E from_tss tpm w c cmd handles a w' resp rh). Qed.
Print Assumptions C89_accepted_iff.

(** However a call ends: the sessions are asked first, each at most once and in
    order; nothing is sent unless all were asked; one command is sent; only
    then are authorizations from the response handed out, each session's once
    and in order, and none after a refusal.  A call succeeds only if every
    session has accepted. *)
Theorem C89_order W E (from_tss : Z -> E) (tpm : connection W E) w c cmd handles a :
  live_call c cmd handles a ->
  let n := length (live_sessions a) in
  let '((w', events), r) := live_run from_tss (noted_tpm tpm) (w, []) c cmd handles (noted_area a) in
  exists given sent taken, events = given ++ sent ++ taken
  /\ (forall k e, nth_error given k = Some e -> exists auth, e = Gave k auth)
  /\ (forall k e, nth_error taken k = Some e ->
        exists auth o, e = Took k auth o
          /\ ((k + 1 < length taken)%nat -> o = Ok tt) /\ (is_ok r = true -> o = Ok tt))
  /\ (length given <= n /\ length taken <= n)%nat
  /\ ((sent = [] /\ taken = [] /\ is_ok r = false)
      \/ (length given = n
          /\ sent = [Sent (command_frame c cmd handles (standing (snd (give_all (live_sessions a) w))))]
          /\ (is_ok r = true -> length taken = n))).
Proof. exact (c89_order W E from_tss tpm w c cmd handles a). Qed.
Print Assumptions C89_order.

(** However a call ends: what is handed to the sessions are the authorizations
    of the response that came in, from the first on, with nothing skipped or
    handed out of place; and a session's refusal is the result of the call. *)
Theorem C89_handed W E (from_tss : Z -> E) (tpm : connection W E) w c cmd handles a :
  live_call c cmd handles a -> wf_connection tpm ->
  let '(w1, vs) := give_all (live_sessions a) w in
  let frame := command_frame c cmd handles (standing vs) in
  let '((w', events), r) := live_run from_tss (noted_tpm tpm) (w, []) c cmd handles (noted_area a) in
  (handed events <> [] ->
   exists w2 n tag psize resp rh rest ignored,
     let body := response_body c tag psize resp rh (handed events) ++ rest in
     transact tpm w1 frame empty_buffer
       = (w2, response_frame tag (10 + Z.of_nat (length body)) 0 (body ++ ignored), Ok n)
     /\ 0 <= tag < 2 ^ 16 /\ 0 <= psize < 2 ^ 32
     /\ wf (resp_ty c) resp = true /\ canonical (resp_ty c) resp
     /\ wf (resp_handles_ty c) rh = true /\ canonical (resp_handles_ty c) rh
     /\ Forall proper (handed events))
  /\ (forall k auth e, In (Took k auth (Err e)) events -> r = Err (from_tss e))
  /\ (forall k auth, In (Took k auth Panic) events -> r = Panic).
Proof. exact (c89_handed W E from_tss tpm w c cmd handles a). Qed.
Print Assumptions C89_handed.

(** Noting changes neither what happens nor the result. *)
Theorem C89_noting W E (from_tss : Z -> E) (tpm : connection W E) w log c cmd handles (a : live_area W) :
  let '((w', _), r) := live_run from_tss (noted_tpm tpm) (w, log) c cmd handles (noted_area a) in
  live_run from_tss tpm w c cmd handles a = (w', r).
Proof. exact (c89_noting W E from_tss tpm w log c cmd handles a). Qed.
Print Assumptions C89_noting.

(** Without state this is the client of the other properties. *)
Theorem C89_plain W E (from_tss : Z -> E) (tpm : connection W E) w c cmd handles (a : area) :
  let plain (s : session) : live W := {| give := fun w => (w, auth_command s); take := fun w auth => (w, validate s auth) |} in
  let '(s1, s2, s3) := a in
  live_run from_tss tpm w c cmd handles (option_map plain s1, option_map plain s2, option_map plain s3)
  = run_command_with_handles from_tss tpm w c cmd handles a.
Proof. exact (c89_plain W E from_tss tpm w c cmd handles a). Qed.
Print Assumptions C89_plain.

Example C89_example :
  live_call GetRandom (VStruct [VInt 2]) VUnit two_rolling
  /\ live_run id (says (random_rsp x09 x0a)) 7 GetRandom (VStruct [VInt 2]) VUnit two_rolling
     = (11, Ok (VStruct [v2b 64 [xca; xfe]], VUnit))
  /\ live_run id (says (random_rsp x0a x09)) 7 GetRandom (VStruct [VInt 2]) VUnit two_rolling = (10, Err 0x2009)
  /\ map (fun e => match e with Gave i _ => (0, i) | Sent l => (1, length l) | Took i _ _ => (2, i) end)
         (snd (fst (live_run id (noted_tpm (says (random_rsp x09 x0a))) (7, []) GetRandom (VStruct [VInt 2]) VUnit
                      (noted_area two_rolling))))
     = [(0, 0%nat); (0, 1%nat); (1, 36%nat); (2, 0%nat); (2, 1%nat)].
Proof. exact c89_example. Qed.

(** The first session refuses: it has been handed the first authorization, the
    second nothing. *)
Example C89_handed_example :
  let '((_, events), r) := live_run id (noted_tpm (says (random_rsp x0a x09))) (7, []) GetRandom (VStruct [VInt 2]) VUnit
                             (noted_area two_rolling) in
  handed events = [VStruct [v2b 64 [x0a]; VStruct [VInt 0]; v2b 64 []]] /\ r = Err 0x2009.
Proof. exact c89_handed_example. Qed.
