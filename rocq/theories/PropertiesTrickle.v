(** Calls over a network that takes parts of what is written (C113). *)
(* Restates the theorems of TrickleFacts.v; proofs are there. *)
From Coq Require Import String ZArith NArith List Lia Bool.
From Coq Require Import Init.Byte.
From Verif Require Import Prelude Types Marshal WireSpec Catalogue Errors Tpm2b Client ClientSpec ClientProofs ClientFacts
  Tcp TcpSpec TcpProofs Remote RemoteFacts Controls ControlsFacts Crowd CrowdProofs CrowdFacts Cut Trickle.
From Verif Require Import TrickleFacts.
Import ListNotations.
Open Scope Z_scope.

(** ** C113 *)
(** Any calls, over a network that takes of every write what it likes: of each
    call the first so many bytes passed, all of them if it succeeded, and the
    machine has done what stands in these bytes. *)
Theorem C113_stream R S (adv : mercy R S) (f : machine S) r0 l s calls :
  0 <= l < 256 -> Forall proper_call calls ->
  exists w rs parts,
    calls_over (trickling adv f) (port_ends l) {| humour := r0; passed := []; beyond := quiet s |} calls = (w, rs)
    /\ poured l calls parts rs
    /\ passed w = concat parts
    /\ unit_ (beyond w) = does f s (standing ([], []) (concat parts)).
Proof. exact (c113_stream R S adv f r0 l s calls). Qed.
Print Assumptions C113_stream.

Theorem C113_standing h l :
  Forall (fun q => speakable (on_port q) q) (standing ([], []) l)
  /\ exists rest, bytes_at h l = sent_on h (standing ([], []) l) ++ rest
       /\ forall q more, speakable h q -> rest <> spelled q ++ more.
Proof. exact (c113_standing h l). Qed.
Print Assumptions C113_standing.

Theorem C113_whole qs : forall more, Forall (fun q => speakable (on_port q) q) qs ->
  standing ([], []) (in_bytes qs ++ more) = qs ++ standing ([], []) more.
Proof. exact (c113_whole qs). Qed.
Print Assumptions C113_whole.

(** So as long as calls succeed the machine does exactly what they ask, and
    until the first failure it has done that. *)
Theorem C113_successful R S (adv : mercy R S) (f : machine S) r0 l s before after :
  0 <= l < 256 -> Forall proper_call (before ++ after) ->
  let '(w, rs) := calls_over (trickling adv f) (port_ends l) {| humour := r0; passed := []; beyond := quiet s |} (before ++ after) in
  Forall succeeded (firstn (length before) rs) ->
  exists more, unit_ (beyond w) = does f s (all_requests l before ++ more) /\ (after = [] -> more = []).
Proof. exact (c113_successful R S adv f r0 l s before after). Qed.
Print Assumptions C113_successful.

Theorem C113_deaf qs q n loc calls parts rs :
  Forall (fun q => speakable (on_port q) q) (qs ++ [q]) -> (1 <= n <= 3)%nat ->
  0 <= loc < 256 -> Forall proper_call calls -> poured loc calls parts rs ->
  exists more, standing ([], []) (in_bytes qs ++ firstn n (in_bytes [q]) ++ concat parts) = qs ++ more
    /\ Forall (fun q' => on_port q' <> on_port q) more.
Proof. exact (c113_deaf qs q n loc calls parts rs). Qed.
Print Assumptions C113_deaf.

(** A measurement of which the network does not take the last four bytes, and
    then another one, perhaps the same again: the code that starts the second
    sequence is measured as the end of the first one's data, and the second
    one's data are measured in the same sequence. *)
Theorem C113_measured loc data again :
  (4 <= length data)%nat -> Z.of_nat (length data) < 2 ^ 32 -> Z.of_nat (length again) < 2 ^ 32 ->
  standing ([], [])
    (firstn (12 + (length data - 4)) (in_bytes (requests_of loc (Call (Hcrtm data))))
     ++ in_bytes (requests_of loc (Call (Hcrtm again))))
  = [AskHashStart; AskHashData (firstn (length data - 4) data ++ [x00; x00; x00; x05]); AskHashData again; AskHashEnd].
Proof. exact (c113_measured loc data again). Qed.
Print Assumptions C113_measured.

Example C113_example :
  let '(w, rs) := calls_over (trickling so_much obliging) (port_ends 0)
    {| humour := ([4; 10]%nat, (0, 0)%nat); passed := []; beyond := quiet [] |}
    [Call (Hcrtm [x61; x62; x63; x64; x65; x66]); Call (Signal NvOn); Call (Hcrtm [x61; x62; x63; x64; x65; x66])] in
  rs = [Called (Err WriteZero); Called (Ok Done); Called (Ok Done)]
  /\ unit_ (beyond w) = [AskHashStart; AskSignal NvOn; AskHashData [x61; x62; x00; x00; x00; x05];
                          AskHashData [x61; x62; x63; x64; x65; x66]; AskHashEnd].
Proof. exact c113_example. Qed.

(** And one that takes three bytes of the first call. *)
Example C113_deaf_example :
  let '(w, rs) := calls_over (trickling so_much obliging) (port_ends 0)
    {| humour := ([3; 0]%nat, (0, 0)%nat); passed := []; beyond := quiet [] |}
    [Call (Handshake 1); Call (Signal NvOn); Call (Signal NvOn); Call (Handshake 1)] in
  rs = [Called (Err WriteZero); Called (Err WriteZero); Called (Ok Done); Called (Err UnexpectedEof)]
  /\ unit_ (beyond w) = [AskSignal NvOn].
Proof. exact c113_deaf_example. Qed.
