(** Authorization areas and password sessions as values (C31, C36). *)
From Coq Require Import String ZArith NArith List Lia Bool.
From Coq Require Import Init.Byte.
From Verif Require Import Prelude Types Marshal WireSpec MarshalProofs MarshalFacts Layout Catalogue
  Samples Errors Attrs Tpm2b Tpm2bFacts Equality EqualityFacts Client ClientSpec ClientProofs ClientFacts Areas.
Import ListNotations.
Open Scope Z_scope.

(** ** C31 *)
(** The sessions of an area are those of the tuple, in order, and every trait
    that a tuple implements shows the same ones. *)
Theorem c31_tuples : forall (T U V N : Type) (t : T) (u : U) (v : V),
  @s0_area N tt = (None, None, None)
  /\ @s1_area T N t = (Some t, None, None) /\ @s1_area1 T N t = (t, None, None)
  /\ @s2_area T U N (t, u) = (Some t, Some u, None)
  /\ @s2_area1 T U N (t, u) = (t, Some u, None)
  /\ @s2_area2 T U N (t, u) = (t, u, None)
  /\ s3_area (t, u, v) = (Some t, Some u, Some v)
  /\ s3_area1 (t, u, v) = (t, Some u, Some v)
  /\ s3_area2 (t, u, v) = (t, u, Some v).
Proof. intros. repeat split. Qed.
(** Only [()] is empty, and the client sees exactly the sessions of the tuple.
    ([none] turns a value of [NoSession] into any session: there is none.) *)
Theorem c31_seen : forall t u v : session,
  let none := option_map (fun e : Empty_set => match e return session with end) in
  (let '(x, y, z) := s0_area tt in is_empty (x, y, z) = true /\ sessions_of (none x, none y, none z) = [])
  /\ (let '(x, y, z) := s1_area t in is_empty (x, y, z) = false /\ sessions_of (x, none y, none z) = [t])
  /\ (let '(x, y, z) := s2_area (t, u) in is_empty (x, y, z) = false /\ sessions_of (x, y, none z) = [t; u])
  /\ is_empty (s3_area (t, u, v)) = false /\ sessions_of (s3_area (t, u, v)) = [t; u; v].
Proof. intros. cbn. auto 10. Qed.

(** ** C36 *)
(** Password sessions are equal exactly if their passwords are. *)
Theorem c36_equal : forall p q s1 s2, password_new p = Ok s1 -> password_new q = Ok s2 ->
  (password_eq s1 s2 = true <-> p = q).
Proof.
  intros p q s1 s2 N1 N2. unfold password_eq. rewrite derived_eq_spec. split; [|congruence]. intros <-.
  pose proof (c36_new p) as P. pose proof (c36_new q) as Q.
  destruct (length p <=? 64)%nat; [|congruence]. destruct (length q <=? 64)%nat; [|congruence].
  destruct P as (a & Ea & _ & Ga), Q as (b & Eb & _ & Gb). congruence.
Qed.
(** The default session has the empty password. *)
Theorem c36_default : password_new [] = Ok password_default /\ get_secret password_default = Ok [].
Proof. split; vm_compute; reflexivity. Qed.
Example c36_equal_example : exists s1 s2, password_new [x70; x77] = Ok s1 /\ password_new [x70; x77; x00] = Ok s2
  /\ password_eq s1 s1 = true /\ password_eq s1 s2 = false.
Proof. do 2 eexists. repeat split; vm_compute; reflexivity. Qed.
