(** Users of a simulator who are gone, or whose time it is to look back: what the
    machine took from one of them. *)
From Coq Require Import ZArith NArith List Lia Bool.
From Coq Require Import Init.Byte.
From Verif Require Import Prelude Types Client Tcp TcpSpec Controls Crowd.
Import ListNotations.
Open Scope Z_scope.

(** Requests with their answers, in order. *)
Definition trace : Type := list (request * list byte).
(** What the machine hears at a move, from whom, and what it answers; and at all
    of them. *)
Definition hears {S} (f : S -> request -> S * list byte) (y : crowd S) (m : act) : list (nat * (request * list byte)) :=
  match m with
  | Acts _ _ => []
  | Attends i h =>
      match nth_error (users y) i with
      | None => []
      | Some x => match front h (port h (out x)) with
                  | None => []
                  | Some (q, _) => [(i, (q, snd (f (shared y) q)))]
                  end
      end
  end.
Fixpoint heard {S} (f : S -> request -> S * list byte) (ms : list act) (y : crowd S) : list (nat * (request * list byte)) :=
  match ms with
  | [] => []
  | m :: ms' => hears f y m ++ heard f ms' (acts (answering f) y m)
  end.
Definition of_user (i : nat) (es : list (nat * (request * list byte))) : trace :=
  map snd (filter (fun e => (fst e =? i)%nat) es).
(** Requests at the machine, one after the other. *)
Fixpoint served {S} (f : S -> request -> S * list byte) (s : S) (qs : list request) : S * trace :=
  match qs with
  | [] => (s, [])
  | q :: qs' => let '(s', r) := f s q in let '(s'', tr) := served f s' qs' in (s'', (q, r) :: tr)
  end.

(** From one plan to what is left of it after some requests and answers. *)
Inductive walked {A} : plan A -> trace -> plan A -> Prop :=
| walked_none p : walked p [] p
| walked_one q k r tr p : walked (k r) tr p -> walked (Request q k) ((q, r) :: tr) p.
(** Calls one after the other from a locality on, each in full, with their
    results. *)
Inductive session : Z -> list call -> trace -> list result -> Prop :=
| session_none l : session l [] [] []
| session_one l c cs tr r trs rs :
    walked (call_plan l c) tr (Return r) -> session (level_after l c) cs trs rs ->
    session l (c :: cs) (tr ++ trs) (r :: rs).
(** The locality after calls. *)
Definition level_of (l : Z) (cs : list call) : Z := fold_left level_after cs l.
(** Moves of others, and of the machine. *)
Definition without (i : nat) (ms : list act) : Prop := Forall (fun m => forall piece, m <> Acts i piece) ms.
