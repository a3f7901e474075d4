(** Authorization areas and password sessions as values (C31, C36). *)
(* Restates the theorems of AreasFacts.v; proofs are there. *)
From Coq Require Import String ZArith NArith List Lia Bool.
From Coq Require Import Init.Byte.
From Verif Require Import Prelude Types Marshal WireSpec MarshalProofs MarshalFacts Layout Catalogue
  Samples Errors Attrs Tpm2b Tpm2bFacts Equality EqualityFacts Client ClientSpec ClientProofs ClientFacts Areas.
From Verif Require Import AreasFacts.
Import ListNotations.
Open Scope Z_scope.

(** ** C31 *)
(** The sessions of an area are those of the tuple, in order, and every trait
    that a tuple implements shows the same ones. *)
Theorem C31_tuples : forall (T U V N : Type) (t : T) (u : U) (v : V),
  @s0_area N tt = (None, None, None)
  /\ @s1_area T N t = (Some t, None, None) /\ @s1_area1 T N t = (t, None, None)
  /\ @s2_area T U N (t, u) = (Some t, Some u, None)
  /\ @s2_area1 T U N (t, u) = (t, Some u, None)
  /\ @s2_area2 T U N (t, u) = (t, u, None)
  /\ s3_area (t, u, v) = (Some t, Some u, Some v)
  /\ s3_area1 (t, u, v) = (t, Some u, Some v)
  /\ s3_area2 (t, u, v) = (t, u, Some v).
Proof. exact c31_tuples. Qed.
Print Assumptions C31_tuples.

(** Only [()] is empty, and the client sees exactly the sessions of the tuple.
    ([none] turns a value of [NoSession] into any session: there is none.) *)
Theorem C31_seen : forall t u v : session,
  let none := option_map (fun e : Empty_set => match e return session with end) in
  (let '(x, y, z) := s0_area tt in is_empty (x, y, z) = true /\ sessions_of (none x, none y, none z) = [])
  /\ (let '(x, y, z) := s1_area t in is_empty (x, y, z) = false /\ sessions_of (x, none y, none z) = [t])
  /\ (let '(x, y, z) := s2_area (t, u) in is_empty (x, y, z) = false /\ sessions_of (x, y, none z) = [t; u])
  /\ is_empty (s3_area (t, u, v)) = false /\ sessions_of (s3_area (t, u, v)) = [t; u; v].
Proof. exact c31_seen. Qed.
Print Assumptions C31_seen.


(** ** C36 *)
(** Password sessions are equal exactly if their passwords are. *)
Theorem C36_equal : forall p q s1 s2, password_new p = Ok s1 -> password_new q = Ok s2 ->
  (password_eq s1 s2 = true <-> p = q).
Proof. exact c36_equal. Qed.
Print Assumptions C36_equal.

(** The default session has the empty password. *)
Theorem C36_default : password_new [] = Ok password_default /\ get_secret password_default = Ok [].
Proof. exact c36_default. Qed.
Print Assumptions C36_default.

Example C36_equal_example : exists s1 s2, password_new [x70; x77] = Ok s1 /\ password_new [x70; x77; x00] = Ok s2
  /\ password_eq s1 s1 = true /\ password_eq s1 s2 = false.
Proof. exact c36_equal_example. Qed.
