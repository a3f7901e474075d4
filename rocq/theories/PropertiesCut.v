(** A simulator whose client dies, or is cut off, in any call (C109). *)
(* Restates the theorems of CutFacts.v; proofs are there. *)
From Coq Require Import String ZArith NArith List Lia Bool.
From Coq Require Import Init.Byte.
From Verif Require Import Prelude Types Marshal WireSpec Catalogue Errors Tpm2b Client ClientSpec ClientProofs ClientFacts
  Tcp TcpSpec TcpProofs Remote RemoteFacts Controls ControlsFacts Crowd CrowdProofs CrowdFacts Cut.
From Verif Require Import CutFacts.
Import ListNotations.
Open Scope Z_scope.

(** ** C109 *)
(** Any calls, on ports that take any numbers of bytes, with whatever the client
    is told: the machine has done, of every call, the first requests - all of
    them if the call succeeded -, each once, in order and at its locality, and
    nothing else.  On each port these were within the bytes it took; what else it
    took stays there, is not a request, and is there only if the port takes no
    more. *)
Theorem C109_beginnings R S (adv : whims R S) (f : machine S) r0 n l s calls :
  0 <= l < 256 -> Forall proper_call calls ->
  exists w rs parts,
    calls_over (cut_off adv f) (port_ends l) {| adversary := r0; room := n; far_end := quiet s |} calls = (w, rs)
    /\ begun l calls parts rs
    /\ unit_ (far_end w) = does f s (concat parts)
    /\ forall h,
         (length (sent_on h (concat parts)) + length (port h (got (far_end w))) + room_at h (room w) <= room_at h n)%nat
         /\ front h (port h (got (far_end w))) = None
         /\ (port h (got (far_end w)) <> [] -> room_at h (room w) = 0%nat).
Proof. exact (c109_beginnings R S adv f r0 n l s calls). Qed.
Print Assumptions C109_beginnings.

Theorem C109_half_done :
  let begins c := calls_over (cut_off one_wrong keeping) (port_ends 0)
    {| adversary := 0%nat; room := (100, 100)%nat; far_end := quiet [] |} [Call c; Call (Transact [x80] [])] in
  unit_ (far_end (fst (begins Reinit))) = [AskSignal NvOff; AskSignal PowerOff; AskCommand 0 [x80]]
  /\ snd (begins Reinit) = [Called (Err InvalidData); Called (Ok (Payload []))]
  /\ unit_ (far_end (fst (begins (Hcrtm [xaa])))) = [AskHashStart; AskHashData [xaa]; AskCommand 0 [x80]]
  /\ snd (begins (Hcrtm [xaa])) = [Called (Err InvalidData); Called (Ok (Payload []))].
Proof. exact c109_half_done. Qed.
Print Assumptions C109_half_done.

(** With a machine that answers every request properly, and what it says
    delivered in whatever pieces, nothing but the bytes that the ports take
    decides: of each call the requests that fit are done and no others, and a
    call succeeds as at the machine itself if all of its requests fit, and fails
    if not. *)
Theorem C109_exactly S pieces e (f : S -> request -> S * list byte) n l s calls :
  (forall s q, answer_ok q (snd (f s q))) -> 0 <= l < 256 -> Forall call_ok calls ->
  let '(parts, n') := all_through l n calls in
  exists w rs,
    calls_over (cut_off (honest pieces e) (answering f)) (port_ends l)
      {| adversary := (0, 0)%nat; room := n; far_end := quiet s |} calls = (w, rs)
    /\ unit_ (far_end w) = does (answering f) s (concat parts)
    /\ room w = n'
    /\ told_so (answering f) l s calls parts rs.
Proof. exact (c109_exactly S pieces e f n l s calls). Qed.
Print Assumptions C109_exactly.

(** In particular everything gets through, up to the first request that the
    bytes do not suffice for; and nothing on a port after that. *)
Theorem C109_suffices n qs :
  Forall (fun q => closing q = false) qs -> (forall h, (length (sent_on h qs) <= room_at h n)%nat) ->
  fst (through n qs) = qs /\ forall h, (room_at h (snd (through n qs)) + length (sent_on h qs) = room_at h n)%nat.
Proof. exact (c109_suffices n qs). Qed.
Print Assumptions C109_suffices.

Theorem C109_cut_there n qs q rest :
  Forall (fun q => closing q = false) qs -> (forall h, (length (sent_on h qs) <= room_at h n)%nat) ->
  (room_at (on_port q) n < length (sent_on (on_port q) (qs ++ [q])))%nat ->
  fst (through n (qs ++ q :: rest)) = qs
  /\ room_at (on_port q) (snd (through n (qs ++ q :: rest))) = 0%nat
  /\ (forall q' rest', on_port q' = on_port q ->
        fst (through (snd (through n (qs ++ q :: rest))) (q' :: rest')) = []).
Proof. exact (c109_cut_there n qs q rest). Qed.
Print Assumptions C109_cut_there.

(** The TPM port takes 21 bytes, the other one 10, all answers are right: the
    hash sequence is cut in its data, and of [reinit] one request is done; the
    second left two bytes behind. *)
Example C109_example :
  let calls := [Call (Signal CancelOn); Call (Locality 3); Call (Transact [x80; x01] []); Call (Hcrtm [xaa]); Call Reinit; Call FailureMode] in
  let right : whims unit (list request) := {|
    delivers := fun r _ _ n => (r, Ok (repeat x00 n)); refuses := fun _ => Some UnexpectedEof; hangs_up := fun r _ => (r, Ok tt) |} in
  let over := calls_over (cut_off right keeping) (port_ends 0)
    {| adversary := tt; room := (21, 10)%nat; far_end := quiet [] |} calls in
  Forall proper_call calls
  /\ unit_ (far_end (fst over)) = [AskSignal CancelOn; AskCommand 3 [x80; x01]; AskHashStart; AskSignal NvOff]
  /\ got (far_end (fst over)) = ([x00; x00; x00; x06; x00; x00], [x00; x00])
  /\ room (fst over) = (0, 0)%nat
  /\ snd over = [Called (Ok Done); Called (Ok Done); Called (Ok (Payload [])); Called (Err UnexpectedEof);
                 Called (Err UnexpectedEof); Called (Err UnexpectedEof)].
Proof. exact c109_example. Qed.

Example C109_exactly_case :
  let calls := [Call (Signal CancelOn); Call (Locality 3); Call (Transact [x80; x01] (repeat x00 4096)); Call (Hcrtm [xaa]); Call Reinit;
                Call (Handshake 1); Call FailureMode] in
  let over n e := calls_over (cut_off (honest (fun _ _ => 3%nat) e) (answering counting)) (port_ends 0)
    {| adversary := (0, 0)%nat; room := n; far_end := quiet 0%nat |} calls in
  (forall s q, answer_ok q (snd (counting s q))) /\ Forall call_ok calls
  /\ all_through 0 (32, 10)%nat calls
     = ([[AskSignal CancelOn]; []; [AskCommand 3 [x80; x01]]; [AskHashStart; AskHashData [xaa]; AskHashEnd]; [AskSignal NvOff]; []; []], (0, 0)%nat)
  /\ unit_ (far_end (fst (over (32, 10)%nat (Some (System 32))))) = 6%nat
  /\ snd (over (32, 10)%nat (Some (System 32)))
     = [Called (Ok Done); Called (Ok Done); Called (Ok (Payload [x80; x01])); Called (Ok Done); Called (Err (System 32));
        Called (Err (System 32)); Called (Err (System 32))]
  /\ snd (over (40, 24)%nat None)
     = [Called (Ok Done); Called (Ok Done); Called (Ok (Payload [x80; x01])); Called (Ok Done); Called (Ok Done);
        Called (Ok (Versions 0x01010101 0x01010101)); Called (Ok Done)].
Proof. exact c109_exactly_case. Qed.
