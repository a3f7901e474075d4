(** What the error of a call tells about it when writes are taken in parts (C116). *)
(* Restates the theorems of HintingFacts.v; proofs are there. *)
From Coq Require Import String ZArith NArith List Lia Bool.
From Coq Require Import Init.Byte.
From Verif Require Import Prelude Types Marshal WireSpec Catalogue Errors Tpm2b Client ClientSpec ClientProofs ClientFacts
  Tcp TcpSpec TcpProofs Remote RemoteFacts Controls ControlsFacts Crowd CrowdProofs CrowdFacts Cut Trickle TrickleFacts Telling Hinting.
From Verif Require CutFacts.
From Verif Require Import HintingFacts.
Import ListNotations.
Open Scope Z_scope.

(** ** C116 *)
(** A session over a network that takes of every write as many bytes as it
    likes, and may report an error of the operating system even then.  Of every
    call the first so many bytes passed, and its outcome tells about them:
    success, a response that does not fit, or an error of the library means that
    all passed; that a write got nowhere, that not all did; the end of the
    stream, or an invalid answer, that those of the first request did.  The
    machine has done what stands in these bytes. *)
Theorem C116_stream R S (adv : mercy R S) (f : machine S) r0 l s calls :
  honest adv -> 0 <= l < 256 -> Forall proper_call calls ->
  exists w rs parts,
    calls_over (trickling adv f) (port_ends l) {| humour := r0; passed := []; beyond := quiet s |} calls = (w, rs)
    /\ hinted l calls parts rs
    /\ passed w = concat parts
    /\ unit_ (beyond w) = does f s (standing ([], []) (concat parts)).
Proof. exact (c116_stream R S adv f r0 l s calls). Qed.
Print Assumptions C116_stream.

(** A program that stops at the first call that did not ask for everything: the
    machine has done all requests of the calls before and the first requests of
    the last one, nothing else, and its outcome tells about them as in
    [c116_session]. *)
Theorem C116_stop R S (adv : mercy R S) (f : machine S) r0 l s calls x :
  honest adv -> 0 <= l < 256 -> Forall proper_call (calls ++ [x]) ->
  exists w rs r,
    calls_over (trickling adv f) (port_ends l) {| humour := r0; passed := []; beyond := quiet s |} (calls ++ [x]) = (w, rs ++ [r])
    /\ length rs = length calls
    /\ (forallb completed rs = true ->
        exists done missing, requests_of (fold_left locality_past calls l) x = done ++ missing
          /\ tells_result done missing r
          /\ unit_ (beyond w) = does f s (all_requests l calls ++ done)).
Proof. exact (c116_stop R S adv f r0 l s calls x). Qed.
Print Assumptions C116_stop.

(** So the result of a call that makes one request, after such calls, says
    whether it was done - unless the operating system reported an error, or the
    call panicked. *)
Theorem C116_parts R S (adv : mercy R S) (f : machine S) r0 l s calls x q :
  honest adv -> 0 <= l < 256 -> Forall proper_call (calls ++ [x]) ->
  requests_of (fold_left locality_past calls l) x = [q] ->
  exists w rs r,
    calls_over (trickling adv f) (port_ends l) {| humour := r0; passed := []; beyond := quiet s |} (calls ++ [x]) = (w, rs ++ [r])
    /\ length rs = length calls
    /\ (forallb completed rs = true -> uninformative r = false ->
        unit_ (beyond w) = does f s (all_requests l calls ++ (if says_undone r then [] else [q]))).
Proof. exact (c116_parts R S adv f r0 l s calls x q). Qed.
Print Assumptions C116_parts.

Example C116_parts_example :
  let x := Call (Transact [x80; x01] (repeat x00 16)) in
  let calls := [Call (Locality 2); Call EndSession] in
  honest sparing /\ Forall proper_call (calls ++ [x])
  /\ requests_of (fold_left locality_past calls 0) x = [AskCommand 2 [x80; x01]]
  /\ (let '(w, rs) := calls_over (trickling sparing CutFacts.keeping) (port_ends 0) {| humour := tt; passed := []; beyond := quiet [] |} (calls ++ [x]) in
      forallb completed (firstn 2 rs) = true /\ skipn 2 rs = [Called (Err WriteZero)]
      /\ unit_ (beyond w) = [AskEnd true; AskEnd false])
  /\ (let '(w, rs) := calls_over (trickling sparing CutFacts.keeping) (port_ends 0) {| humour := tt; passed := []; beyond := quiet [] |} [Call FailureMode] in
      rs = [Called (Err UnexpectedEof)] /\ unit_ (beyond w) = [AskFailureMode]).
Proof. exact c116_parts_example. Qed.

Example C116_stop_example :
  let calls := [Call FailureMode; Call Reinit] in
  honest sparing_acks /\ Forall proper_call (calls ++ [Call (Hcrtm [x61])])
  /\ (let '(w, rs) := calls_over (trickling sparing_acks CutFacts.keeping) (port_ends 0) {| humour := tt; passed := []; beyond := quiet [] |}
        (calls ++ [Call (Hcrtm [x61])]) in
      forallb completed (firstn 2 rs) = true /\ skipn 2 rs = [Called (Err WriteZero)]
      /\ unit_ (beyond w) = all_requests 0 calls ++ [AskHashStart]).
Proof. exact c116_stop_example. Qed.
