(** Calls over ports that break (C111). *)
(* Restates the theorems of FrailFacts.v; proofs are there. *)
From Coq Require Import String ZArith NArith List Lia Bool.
From Coq Require Import Init.Byte.
From Verif Require Import Prelude Types Marshal WireSpec Catalogue Errors Tpm2b Client ClientSpec ClientProofs ClientFacts
  Tcp TcpSpec TcpProofs RemoteFacts Controls ControlsFacts Crowd CrowdProofs CrowdFacts GoneSpec Frail FrailProofs.
From Verif Require Clients ClientsFacts GoneFacts CutFacts.
From Verif Require Import FrailFacts.
Import ListNotations.
Open Scope Z_scope.

(** ** C111 *)
(** The machine has done what it took, and nothing else: it is where these
    requests alone, in this order, leave it, and gave their answers. *)
Theorem C111_machine S (f : S -> request -> S * list byte) s starts ms :
  let es := all_taken f ms (opened s starts) in
  served f s (map (fun e => fst (snd e)) es) = (host (done_deeds (answering f) ms (opened s starts)), map snd es).
Proof. exact (c111_machine S f s starts ms). Qed.
Print Assumptions C111_machine.

(** At every moment, whatever breaks and whatever the others do: a user's calls
    that are over were, one after the other and each at its locality, asked in
    full, with their result, or - only if the call's port is broken - up to
    some request, with an error; and of the call that the user is in the
    beginning was asked.  On each port the machine took just these requests,
    each once and in this order. *)
Theorem C111_sessions S (f : S -> request -> S * list byte) s starts i l cs ms :
  polite f -> Forall start_ok starts -> nth_error starts i = Some (l, cs) ->
  exists x parts part, nth_error (guests (done_deeds (answering f) ms (opened s starts))) i = Some x
    /\ made (fun h => is_torn h x) l (firstn (length (have (person x))) cs) parts (have (person x))
    /\ match in_call (person x) with
       | None => part = []
       | Some _ => exists c rest, nth_error cs (length (have (person x))) = Some c
           /\ walked (call_plan (level_of l (firstn (length (have (person x))) cs)) c) part rest
       end
    /\ forall h, at_port h (of_user i (all_taken f ms (opened s starts))) = at_port h (concat parts ++ part).
Proof. exact (c111_sessions S f s starts i l cs ms). Qed.
Print Assumptions C111_sessions.

(** After a port of a user broke, whatever happens, at most one more request of
    this user is taken there. *)
Theorem C111_late S (f : S -> request -> S * list byte) s starts i l cs ms h a b late :
  polite f -> Forall start_ok starts -> nth_error starts i = Some (l, cs) ->
  exists last, at_port h (of_user i (all_taken f (ms ++ Tears i h a b :: late) (opened s starts)))
      = at_port h (of_user i (all_taken f ms (opened s starts))) ++ last
    /\ (length last <= 1)%nat.
Proof. exact (c111_late S f s starts i l cs ms h a b late). Qed.
Print Assumptions C111_late.

(** Every call that the user begins on that port afterwards and that asks
    anything ends with an error. *)
Theorem C111_refused S (f : S -> request -> S * list byte) s starts i l cs ms h a b late x x' j c r :
  polite f -> Forall start_ok starts -> nth_error starts i = Some (l, cs) ->
  nth_error (guests (done_deeds (answering f) ms (opened s starts))) i = Some x ->
  nth_error (guests (done_deeds (answering f) (ms ++ Tears i h a b :: late) (opened s starts))) i = Some x' ->
  (length (have (person x)) + match in_call (person x) with Some _ => 1 | None => 0 end <= j)%nat ->
  nth_error cs j = Some c -> nth_error (have (person x')) j = Some r ->
  call_port c = h -> (exists q k, call_plan (level_of l (firstn j cs)) c = Request q k) ->
  failed r.
Proof. exact (c111_refused S f s starts i l cs ms h a b late x x' j c r). Qed.
Print Assumptions C111_refused.

(** All get through: a user with [n] calls is through after [16426 n + 1] rounds
    at the latest, if it moves and each of its ports is attended to at least
    once in every round, at whatever moments, and whatever breaks and the others
    do. *)
Theorem C111_through S (f : S -> request -> S * list byte) s starts i l cs rounds :
  polite f -> Forall start_ok starts -> nth_error starts i = Some (l, cs) ->
  Forall (fun ms => List.In (Takes i true) ms /\ List.In (Takes i false) ms /\ exists p o, List.In (Goes i p o) ms) rounds ->
  16426 * Z.of_nat (length cs) < Z.of_nat (length rounds) ->
  exists x, nth_error (guests (done_deeds (answering f) (concat rounds) (opened s starts))) i = Some x
    /\ calls (person x) = [] /\ in_call (person x) = None /\ length (have (person x)) = length cs.
Proof. exact (c111_through S f s starts i l cs rounds). Qed.
Print Assumptions C111_through.

(** The platform port of a user breaks in [reinit], just after the second
    request was sent and with nothing lost of it: the machine still takes it,
    and no more on this port.  The call fails, so does the next one there, and
    the command after them gets through.  *)
Example C111_example :
  let starts := [(3, [Call Reinit; Call (Signal PowerOn); Call (Transact [x80] (repeat x00 RESP_BUFFER_SIZE))])] in
  let before := concat (repeat [Goes 0 9 (Claims 0); Takes 0 false] 4) ++ [Goes 0 9 (Claims 0)] in
  let late := concat (repeat [Goes 0 9 (Claims 4); Takes 0 true; Takes 0 false] 20) in
  let y := done_deeds (answering recorder) (before ++ Tears 0 false 4 4 :: late) (opened [] starts) in
  polite recorder /\ Forall start_ok starts
  /\ map (fun x => (match have (person x) with
                    | [Called (Err _); Called (Err _); Called (Ok (Payload r))] => Some r
                    | _ => None
                    end, torn x)) (guests y)
     = [(Some [x80; x01; x00; x00; x00; x0a; x00; x00; x01; x01], (false, true))]
  /\ host y = [AskSignal NvOff; AskSignal PowerOff; AskCommand 3 [x80]].
Proof. exact c111_example. Qed.
