(** Calls over a network that takes what is written in parts (C114). *)
(* Restates the theorems of MeagreFacts.v; proofs are there. *)
From Coq Require Import String ZArith NArith List Lia Bool.
From Coq Require Import Init.Byte.
From Verif Require Import Prelude Types Marshal WireSpec Catalogue Errors Tpm2b Client ClientSpec ClientProofs ClientFacts
  Tcp TcpSpec TcpProofs Remote RemoteFacts Controls ControlsFacts Crowd CrowdProofs Cut Trickle TrickleFacts Meagre.
From Verif Require Import MeagreFacts.
Import ListNotations.
Open Scope Z_scope.

(** ** C114 *)
(** A session of calls that send codes only - signals, reinit, failure mode,
    sizes, the end of the session -, or of any calls if the network takes whole
    whatever is longer than a code: every result is the machine's own, and the
    machine ends in the same state, as over a network that takes everything. *)
Theorem C114_session R S (takes : appetite R S) pieces (f : machine S) l r s calls :
  well_spoken f -> modest f -> 0 <= l < 256 -> Forall call_ok calls ->
  Forall (fun x => codes_only x = true) calls \/ takes_frames takes ->
  exists r',
    calls_over (meagre takes pieces f) (port_ends l) (r, quiet s) calls
    = ((r', quiet (fst (unwired f l s calls))), snd (unwired f l s calls)).
Proof. exact (c114_session R S takes pieces f l r s calls). Qed.
Print Assumptions C114_session.

(** Every other call that asks for one thing fails if its bytes are not all
    taken at once, the machine has done nothing, and the bytes taken wait for
    what is sent next (C113 says what becomes of them). *)
Theorem C114_short R S (takes : appetite R S) pieces (f : machine S) l o q r s r' k :
  0 <= l < 256 -> operation_ok o -> codes_only (Call o) = false -> requests_of l (Call o) = [q] ->
  takes r (quiet s) (on_port q) (spelled q) = (r', k) -> (Nat.max 1 k < length (spelled q))%nat ->
  perform (meagre takes pieces f) (port_ends l) o (r, quiet s)
  = (port_ends l,
     (r', {| unit_ := s; got := set_port (on_port q) (firstn (Nat.max 1 k) (spelled q)) ([], []); due := ([], []) |}),
     Err WriteZero).
Proof. exact (c114_short R S takes pieces f l o q r s r' k). Qed.
Print Assumptions C114_short.

Example C114_example :
  let one : appetite unit (list request) := fun r _ _ _ => (r, 1%nat) in
  let calls := [Call Reinit; Call ResponseSizes; Call (Signal Reset); Call EndSession] in
  well_spoken polite /\ modest polite /\ Forall call_ok calls /\ forallb codes_only calls = true
  /\ (let '(w, rs) := calls_over (meagre one (fun _ n => n) polite) (port_ends 0) (tt, quiet []) calls in
      rs = [Called (Ok Done); Called (Ok (Sizes 0 0 0 0)); Called (Ok Done); Called (Ok Done)]
      /\ unit_ (snd w) = [AskSignal NvOff; AskSignal PowerOff; AskSignal PowerOn; AskSignal NvOn; AskSizes;
                          AskSignal Reset; AskEnd true; AskEnd false])
  /\ perform (meagre one (fun _ n => n) polite) (port_ends 0) (Handshake 1) (tt, quiet [])
     = (port_ends 0, (tt, {| unit_ := []; got := ([x00], []); due := ([], []) |}), Err WriteZero).
Proof. exact c114_example. Qed.

(** And one that cuts codes into two parts: every call works over it. *)
Example C114_frames_example :
  let halves : appetite unit (list request) := fun r _ _ buf => (r, if (length buf =? 4)%nat then 2%nat else length buf) in
  takes_frames halves
  /\ snd (calls_over (meagre halves (fun _ n => n) polite) (port_ends 0) (tt, quiet [])
            [Call (Hcrtm [x61; x62]); Call (Handshake 1); Call (Signal NvOn)])
     = [Called (Ok Done); Called (Ok (Versions 0 0)); Called (Ok Done)].
Proof. exact c114_frames_example. Qed.
