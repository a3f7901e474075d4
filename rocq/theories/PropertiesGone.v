(** What a user of a simulator leaves behind (C108). *)
(* Restates the theorems of GoneFacts.v; proofs are there. *)
From Coq Require Import String ZArith NArith List Lia Bool.
From Coq Require Import Init.Byte.
From Verif Require Import Prelude Types Marshal WireSpec Catalogue Errors Tpm2b Client ClientSpec ClientProofs ClientFacts
  Tcp TcpSpec TcpProofs RemoteFacts Controls ControlsFacts Crowd CrowdProofs CrowdFacts GoneSpec.
From Verif Require Clients ClientsFacts.
From Verif Require Import GoneFacts.
Import ListNotations.
Open Scope Z_scope.

(** ** C108 *)
(** The machine has done what it heard, and nothing else: it is where these
    requests alone, in this order, leave it, and gave their answers. *)
Theorem C108_machine S (f : S -> request -> S * list byte) s starts ms :
  let es := heard f ms (arrived s starts) in
  served f s (map (fun e => fst (snd e)) es) = (shared (acted (answering f) ms (arrived s starts)), map snd es).
Proof. exact (c108_machine S f s starts ms). Qed.
Print Assumptions C108_machine.

(** At every moment, what the machine took from a user is the beginning of the
    user's session: the calls the user has the results of, in order, each in
    full, once and at its locality, with these results; then, if it is in a
    call, the beginning of that call.  Nothing is skipped, made twice or out of
    order, whatever the others do. *)
Theorem C108_beginning S (f : S -> request -> S * list byte) s starts i l cs ms :
  polite f -> Forall start_ok starts -> nth_error starts i = Some (l, cs) ->
  exists x done part, nth_error (users (acted (answering f) ms (arrived s starts))) i = Some x
    /\ of_user i (heard f ms (arrived s starts)) = done ++ part
    /\ session l (firstn (length (have x)) cs) done (have x)
    /\ match in_call x with
       | None => part = []
       | Some _ => exists c rest, nth_error cs (length (have x)) = Some c
           /\ walked (call_plan (level_of l (firstn (length (have x)) cs)) c) part rest
       end.
Proof. exact (c108_beginning S f s starts i l cs ms). Qed.
Print Assumptions C108_beginning.

(** A user that is gone: from some moment on it makes no move.  Whatever the
    machine and the others do then, at most one more request of this user's is
    taken, and the user's session ends there. *)
Theorem C108_gone S (f : S -> request -> S * list byte) s starts i l cs ms late :
  polite f -> Forall start_ok starts -> nth_error starts i = Some (l, cs) -> without i late ->
  exists last, of_user i (heard f (ms ++ late) (arrived s starts)) = of_user i (heard f ms (arrived s starts)) ++ last
    /\ (length last <= 1)%nat
    /\ exists x x', nth_error (users (acted (answering f) ms (arrived s starts))) i = Some x
         /\ nth_error (users (acted (answering f) (ms ++ late) (arrived s starts))) i = Some x'
         /\ have x' = have x /\ calls x' = calls x /\ in_call x' = in_call x
         /\ (out x = ([], []) -> last = []).
Proof. exact (c108_gone S f s starts i l cs ms late). Qed.
Print Assumptions C108_gone.

(** So a user that is gone in the middle of [reinit] leaves the machine without
    power: no move of anybody else makes the machine hear the rest. *)
Theorem C108_stranded :
  let starts := [(0, [Call Reinit]); (3, [Call (Transact [x80] (repeat x00 RESP_BUFFER_SIZE))])] in
  polite recorder /\ Forall start_ok starts /\
  exists ms, forall late, without 0 late ->
    map fst (of_user 0 (heard recorder (ms ++ late) (arrived [] starts))) = [AskSignal NvOff; AskSignal PowerOff].
Proof. exact c108_stranded. Qed.
Print Assumptions C108_stranded.

(** Two users; the first is gone when the machine has not yet taken what it sent
    last; the second sends a command afterwards. *)
Example C108_example :
  let starts := [(0, [Call (Locality 4); Call (Hcrtm [xaa; xbb])]); (3, [Call (Transact [x80] (repeat x00 RESP_BUFFER_SIZE))])] in
  let ms := concat (repeat [Acts 0 9; Attends 0 true] 5) ++ [Acts 0 9] in
  let late := Attends 0 true :: concat (repeat [Acts 1 9; Attends 1 true; Attends 0 true] 8) in
  polite recorder /\ Forall start_ok starts /\ without 0 late
  /\ map fst (of_user 0 (heard recorder ms (arrived [] starts))) = [AskHashStart]
  /\ shared (acted (answering recorder) (ms ++ late) (arrived [] starts)) = [AskHashStart; AskHashData [xaa; xbb]; AskCommand 3 [x80]].
Proof. exact c108_example. Qed.
