(** Users of a simulator some of whom leave (C112). *)
(* Restates the theorems of LeavingFacts.v; proofs are there. *)
From Coq Require Import String ZArith NArith List Lia Bool.
From Coq Require Import Init.Byte.
From Verif Require Import Prelude Types Marshal WireSpec Catalogue Errors Client ClientSpec
  Tcp TcpSpec TcpProofs RemoteFacts Controls ControlsFacts Crowd CrowdProofs CrowdFacts Strangers StrangersFacts LeavingSpec.
From Verif Require Clients ClientsFacts.
From Verif Require Import LeavingFacts.
Import ListNotations.
Open Scope Z_scope.

(** ** C112 *)
(** Whatever users do, in whatever order and pieces, and whoever ends its session
    in the meantime: every move amounts at the machine to nothing, to one turn of
    the user that moved or was attended to, or to the end of that user's session
    on one port.  After each of the moves the machine is where these leave it, and
    each user is at the same point of its session, with the same results; the ends
    come after all the calls of the user, one at most on each port. *)
Theorem C112_leaving S (f : S -> request -> S * list byte) s (visits : list visit) ms :
  polite f -> Forall (fun v => start_ok (fst v)) visits ->
  exists orders, Forall2 amounts ms orders /\
    forall k, let y := acted (answering f) (firstn k ms) (arrived s (map with_farewell visits)) in
      let o := concat (firstn k orders) in
      let z := entered f o (s, seats (map fst visits)) in
      shared y = fst z
      /\ forall i start b, nth_error visits i = Some (start, b) ->
           exists x t, nth_error (users y) i = Some x /\ nth_error (snd z) i = Some t
             /\ whereabouts b x t (fun h => asked i h o).
Proof. exact (c112_leaving S f s visits ms). Qed.
Print Assumptions C112_leaving.

(** And all get through, the end of their sessions included: it has then been
    taken on both ports. *)
Theorem C112_through S (f : S -> request -> S * list byte) s (visits : list visit) i l cs b rounds :
  polite f -> Forall (fun v => start_ok (fst v)) visits -> nth_error visits i = Some (l, cs, b) ->
  Forall (fun ms => List.In (Attends i true) ms /\ List.In (Attends i false) ms /\ exists p, List.In (Acts i p) ms) rounds ->
  16426 * Z.of_nat (length (cs ++ farewell b)) < Z.of_nat (length rounds) ->
  exists x, nth_error (users (acted (answering f) (concat rounds) (arrived s (map with_farewell visits)))) i = Some x
    /\ calls x = [] /\ in_call x = None /\ length (have x) = length (cs ++ farewell b)
    /\ (b = true -> exists rs, have x = rs ++ [Called (Ok Done)])
    /\ out x = ([], []) /\ inc x = ([], []).
Proof. exact (c112_through S f s visits i l cs b rounds). Qed.
Print Assumptions C112_through.

(** One user gives a command and ends its session, which has returned before the
    machine hears of it; it hears of it on the platform port first, and on the
    TPM port only after another user's command, which is not affected. *)
Example C112_example :
  let visits := [(3, [Call (Transact [x80] (repeat x00 RESP_BUFFER_SIZE))], true);
                 (4, [Call (Transact [x81] (repeat x00 RESP_BUFFER_SIZE))], false)] in
  let both i := [Acts i 9; Attends i true] in
  let first := concat (repeat (both 0%nat) 7) in
  let leave := repeat (Acts 0 9) 9 in
  let rest := Attends 0 false :: concat (repeat (both 1%nat) 9) ++ [Attends 0 true] in
  let at_ ms := acted (answering recorder) ms (arrived [] (map with_farewell visits)) in
  polite recorder /\ Forall (fun v => start_ok (fst v)) visits
  /\ shared (at_ (first ++ leave)) = [AskCommand 3 [x80]]
  /\ map (fun x => length (have x)) (users (at_ (first ++ leave))) = [2%nat; 0%nat]
  /\ shared (at_ (first ++ leave ++ rest)) = [AskCommand 3 [x80]; AskEnd false; AskCommand 4 [x81]; AskEnd true]
  /\ map have (users (at_ (first ++ leave ++ rest)))
     = [[Called (Ok (Payload [x80; x01; x00; x00; x00; x0a; x00; x00; x01; x01])); Called (Ok Done)];
        [Called (Ok (Payload [x80; x01; x00; x00; x00; x0a; x00; x00; x01; x01]))]].
Proof. exact c112_example. Qed.
