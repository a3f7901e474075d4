(** Authorization areas of the program's own (C99). *)
(* Restates the theorems of OwnFacts.v; proofs are there. *)
From Coq Require Import String ZArith NArith List Lia Bool.
From Coq Require Import Init.Byte.
From Verif Require Import Prelude Types Marshal WireSpec MarshalProofs WriteSpec MarshalWrite MarshalFacts Catalogue Samples Errors Tpm2b Client ClientSpec
  ClientProofs ClientFacts Sessions SessionsFacts Own.
From Verif Require Import OwnFacts.
Import ListNotations.
Open Scope Z_scope.

(** ** C99 *)
(** Whatever an area answers: if the command fits, then this is handed to the
    connection, once the area was asked twice whether it is empty and, if it was
    not the second time, its sessions for their authorizations; else nothing is
    handed over. *)
Theorem C99_sent W E (from_tss : Z -> E) (tpm : connection W E) w c cmd handles (a : own W) :
  own_call c cmd handles a ->
  let frame := own_frame c cmd handles (ask a w) in
  (fits frame ->
   own_run from_tss tpm w c cmd handles a
   = let '(w', rsp, r) := transact tpm (asked_world (ask a w)) frame empty_buffer in
     match r with
     | Ok _ => let '(w'', r) := own_parse_response c a rsp w' in (w'', omap_err from_tss r)
     | Err e => (w', Err e)
     | Panic => (w', Panic)
     end)
  /\ (~ fits frame -> forall tpm', exists w',
      own_run from_tss tpm' w c cmd handles a = (w', Err (from_tss 0x904))
      \/ own_run from_tss tpm' w c cmd handles a = (w', Panic)).
Proof. exact (c99_sent W E from_tss tpm w c cmd handles a). Qed.
Print Assumptions C99_sent.

(** What is sent is a regular command exactly if the area answered the same both
    times and had a session if it said it was not empty. *)
Theorem C99_regular_iff W c cmd handles (a : own W) w :
  own_call c cmd handles a ->
  (regular c cmd handles (own_frame c cmd handles (ask a w))
   <-> empty1 (ask a w) = empty2 (ask a w) /\ given (ask a w) <> Some []).
Proof. exact (c99_regular_iff W c cmd handles a w). Qed.
Print Assumptions C99_regular_iff.

(** The areas of the crate, and any other that leaves [is_empty] alone and always
    has the same sessions, are those of C89. *)
Theorem C99_ordinary W E (from_tss : Z -> E) (tpm : connection W E) w c cmd handles (a : live_area W) :
  own_run from_tss tpm w c cmd handles (ordinary a) = live_run from_tss tpm w c cmd handles a.
Proof. exact (c99_ordinary W E from_tss tpm w c cmd handles a). Qed.
Print Assumptions C99_ordinary.

(** A call succeeds exactly if the command fits and a response without error
    comes back with one authorization for each of the sessions the area has at
    that time, and these accept them.  Which sessions the command was sent for
    does not matter. *)
Theorem C99_accepted_iff W E (from_tss : Z -> E) (tpm : connection W E) w c cmd handles (a : own W) w' resp rh :
  own_call c cmd handles a -> wf_connection tpm ->
  let frame := own_frame c cmd handles (ask a w) in
  (own_run from_tss tpm w c cmd handles a = (w', Ok (resp, rh))
   <-> fits frame
       /\ exists w2 n tag psize auths ignored,
          let body := response_body c tag psize resp rh auths in
          let '(w3, now) := parts a w2 in
          transact tpm (asked_world (ask a w)) frame empty_buffer
            = (w2, response_frame tag (10 + Z.of_nat (length body)) 0 (body ++ ignored), Ok n)
          /\ 0 <= tag < 2 ^ 16 /\ 0 <= psize < 2 ^ 32
          /\ wf (resp_ty c) resp = true /\ canonical (resp_ty c) resp
          /\ wf (resp_handles_ty c) rh = true /\ canonical (resp_handles_ty c) rh
          /\ length auths = length (live_sessions now) /\ Forall proper auths
          /\ take_all (combine (live_sessions now) auths) w3 = (w', Ok tt)).
Proof. exact (c99_accepted_iff W E from_tss tpm w c cmd handles a w' resp rh). Qed.
Print Assumptions C99_accepted_iff.

(** The area is asked at most four times: twice whether it is empty; then, unless
    it said yes the second time, for its sessions; and after the exchange with the
    TPM for its sessions again.  In a call that succeeds, it is asked all this. *)
Theorem C99_questions W E (from_tss : Z -> E) (tpm : connection W E) w c cmd handles (a : own W) :
  let qs := questions (empty1 (ask a w)) (empty2 (ask a w)) in
  let r := own_run from_tss tpm w c cmd handles a in
  exists k, own_run from_tss (exchanged tpm) (w, []) c cmd handles (asked a) = ((fst r, firstn k qs), snd r)
  /\ (is_ok (snd r) = true -> firstn k qs = qs).
Proof. exact (c99_questions W E from_tss tpm w c cmd handles a). Qed.
Print Assumptions C99_questions.

Example C99_wavering :
  sent_by wavering = ([x80; x02; x00; x00; x00; x0c; x00; x00; x01; x7b; x00; x02], Err 0x904)
  /\ sent_by hollow = ([x80; x02; x00; x00; x00; x10; x00; x00; x01; x7b; x00; x00; x00; x00; x00; x02],
                       Ok (VStruct [v2b 64 [xca; xfe]], VUnit))
  /\ sent_by denying = ([x80; x01; x00; x00; x00; x0c; x00; x00; x01; x7b; x00; x02], Err 0x904).
Proof. exact c99_wavering. Qed.

Example C99_calls :
  own_call GetRandom (VStruct [VInt 2]) VUnit wavering /\ own_call GetRandom (VStruct [VInt 2]) VUnit hollow
  /\ own_call GetRandom (VStruct [VInt 2]) VUnit denying
  /\ ~ regular GetRandom (VStruct [VInt 2]) VUnit (own_frame GetRandom (VStruct [VInt 2]) VUnit (ask wavering 0))
  /\ ~ regular GetRandom (VStruct [VInt 2]) VUnit (own_frame GetRandom (VStruct [VInt 2]) VUnit (ask hollow 0))
  /\ regular GetRandom (VStruct [VInt 2]) VUnit (own_frame GetRandom (VStruct [VInt 2]) VUnit (ask denying 0))
  /\ regular GetRandom (VStruct [VInt 2]) VUnit
       (own_frame GetRandom (VStruct [VInt 2]) VUnit (ask (ordinary two_rolling) 7)).
Proof. exact c99_calls. Qed.
