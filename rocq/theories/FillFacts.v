(** Buffers that are filled in several steps (C110). *)
From Coq Require Import ZArith NArith List Lia Bool.
From Coq Require Import Init.Byte.
From Verif Require Import Prelude Server ServerFacts Helpers HelpersSpec HelpersFacts.
Import ListNotations.
Open Scope Z_scope.

(** ** The specification *)
(** Two buffers filled one after the other; the second is left alone if the
    first could not be filled.  The additional input is for the first call, as
    it is within one. *)
Definition in_two_steps {D} (rng : Drbg D) (d : D) (ai a b : list byte) : D * list byte * outcome unit unit :=
  let '(d', a', r) := fill_bytes_via_next rng d ai a in
  match r with
  | Ok _ => let '(d'', b', r') := fill_bytes_via_next rng d' [] b in (d'', a' ++ b', r')
  | Err e => (d', a' ++ b, Err e)
  | Panic => (d', a' ++ b, Panic)
  end.
(** Any number of buffers, one after the other. *)
Fixpoint in_steps {D} (rng : Drbg D) (d : D) (buffers : list (list byte)) : D * list byte * outcome unit unit :=
  match buffers with
  | [] => (d, [], Ok tt)
  | a :: rest =>
      let '(d', a', r) := fill_bytes_via_next rng d [] a in
      match r with
      | Ok _ => let '(d'', b', r') := in_steps rng d' rest in (d'', a' ++ b', r')
      | Err e => (d', a' ++ concat rest, Err e)
      | Panic => (d', a' ++ concat rest, Panic)
      end
  end.
(** A generator whose words are always the same, so that each byte tells its
    place in the word. *)
Definition Ruler : Drbg unit := {|
  entropy_default := []; nonce_default := [];
  instantiate := fun _ _ _ => Ok tt; reseed := fun d _ _ => (d, Ok tt);
  next_u32 := fun d _ => (d, Ok 0x04030201);
  next_u64 := fun d _ => (d, Ok 0x0807060504030201);
  fill_bytes := fun d _ dest => (d, dest, Ok tt);
  requires_reseeding := fun d => (d, false)
|}.

(** ** Auxiliary facts *)
Lemma ruled ai dest : exists out, fill_bytes_via_next Ruler tt ai dest = (tt, out, Ok tt) /\ length out = length dest
  /\ forall i, (i < length dest)%nat -> nth_error out i = Some (zb (Z.of_nat (i mod 8) + 1)).
Proof.
  revert ai. remember (length dest) as n eqn:En. revert dest En.
  induction n as [n IH] using (well_founded_induction lt_wf). intros dest -> ai.
  destruct (list_short_or_8 dest) as [L|(x0 & x1 & x2 & x3 & x4 & x5 & x6 & x7 & t & ->)].
  - do 8 (destruct dest as [|? dest]; [cbn; eexists; split; [reflexivity|]; split; [reflexivity|];
      intros i Hi; do 8 (destruct i as [|i]; [cbn in Hi |- *; try lia; reflexivity|]); cbn in Hi; lia|]).
    cbn in L. lia.
  - cbn [length] in *. destruct (IH (length t) ltac:(lia) t eq_refl []) as (out & E & Lo & N).
    cbn [fill_bytes_via_next next_u64 Ruler]. rewrite E. eexists. split; [reflexivity|]. split; [cbn; now rewrite Lo|].
    intros i Hi. do 8 (destruct i as [|i]; [reflexivity|]).
    change (nth_error out i = Some (zb (Z.of_nat ((8 + i) mod 8) + 1))).
    rewrite (Nat.add_comm 8 i). change (i + 8)%nat with (i + 1 * 8)%nat. rewrite Nat.mod_add by discriminate. apply N. lia.
Qed.
Lemma in_two_whole D (rng : Drbg D) b : forall n a, length a = (8 * n)%nat -> forall d ai, (a <> [] \/ ai = []) ->
  in_two_steps rng d ai a b = fill_bytes_via_next rng d ai (a ++ b).
Proof.
  induction n as [|n IH]; intros a L d ai H.
  - destruct a; [|discriminate]. destruct H as [H| ->]; [contradiction|]. unfold in_two_steps. cbn.
    destruct (fill_bytes_via_next rng d [] b) as [[d' b'] r]. reflexivity.
  - destruct (list_short_or_8 a) as [L'|(x0 & x1 & x2 & x3 & x4 & x5 & x6 & x7 & t & ->)]; [lia|].
    cbn [length] in L. assert (Lt : length t = (8 * n)%nat) by lia. specialize (IH t Lt).
    unfold in_two_steps. cbn [app fill_bytes_via_next].
    destruct (next_u64 rng d ai) as [d' [w|e|]]; try reflexivity.
    specialize (IH d' [] (or_intror eq_refl)). rewrite <- IH. unfold in_two_steps.
    destruct (fill_bytes_via_next rng d' [] t) as [[d2 out] [u|e|]].
    + destruct (fill_bytes_via_next rng d2 [] b) as [[d3 b'] r']. now rewrite app_assoc.
    + now rewrite app_assoc.
    + now rewrite app_assoc.
Qed.

(** ** C110 *)
(** After whole 64-bit words nothing depends on where one call ends and the
    next begins: not the bytes, not the generator, not what is left when it
    fails. *)
Theorem c110_whole_words D (rng : Drbg D) d ai (a b : list byte) :
  (length a mod 8 = 0)%nat -> (a <> [] \/ ai = []) ->
  in_two_steps rng d ai a b = fill_bytes_via_next rng d ai (a ++ b).
Proof.
  intros M H. apply (in_two_whole D rng b (length a / 8) a); [|exact H].
  pose proof (Nat.div_mod (length a) 8 ltac:(discriminate)). lia.
Qed.
Theorem c110_many_steps D (rng : Drbg D) (firsts : list (list byte)) (last : list byte) : forall d,
  Forall (fun a => length a mod 8 = 0)%nat firsts ->
  in_steps rng d (firsts ++ [last]) = fill_bytes_via_next rng d [] (concat firsts ++ last).
Proof.
  induction firsts as [|a firsts IH]; intros d F.
  - cbn. destruct (fill_bytes_via_next rng d [] last) as [[d' b'] [[]|e|]]; cbn; now rewrite app_nil_r.
  - inversion F; subst. cbn [app in_steps concat]. rewrite <- app_assoc, <- (c110_whole_words D rng d [] a) by auto.
    unfold in_two_steps. destruct (fill_bytes_via_next rng d [] a) as [[d' b'] [u|e|]].
    + now rewrite IH.
    + rewrite concat_app. cbn. now rewrite app_nil_r.
    + rewrite concat_app. cbn. now rewrite app_nil_r.
Qed.
(** Anywhere else it does, for every two buffers, also with a generator that
    always gives the same words: the rest of a word is thrown away. *)
Theorem c110_only_whole_words (a b : list byte) :
  b <> [] ->
  ((forall D (rng : Drbg D) d, in_two_steps rng d [] a b = fill_bytes_via_next rng d [] (a ++ b)) <-> (length a mod 8 = 0)%nat).
Proof.
  intros N. split; [|intros M D rng d; apply c110_whole_words; auto].
  intros H. specialize (H unit Ruler tt). unfold in_two_steps in H.
  destruct (ruled [] a) as (oa & Ea & La & _). destruct (ruled [] b) as (ob & Eb & Lb & Nb).
  destruct (ruled [] (a ++ b)) as (o & E & L & No). rewrite Ea, Eb, E in H. injection H as H.
  assert (Hb : (0 < length b)%nat) by (destruct b; [contradiction|cbn; lia]).
  specialize (No (length a)). specialize (Nb 0%nat Hb).
  rewrite <- H, <- La in No. rewrite nth_error_app2, Nat.sub_diag, Nb in No by lia. rewrite La, app_length in No. specialize (No ltac:(lia)).
  pose proof (Nat.mod_upper_bound (length a) 8 ltac:(discriminate)) as U.
  destruct (length a mod 8)%nat as [|[|[|[|[|[|[|[|m]]]]]]]] eqn:E8; [reflexivity|..]; try lia; vm_compute in No; discriminate.
Qed.

(** *** The hypotheses can be met *)
Example c110_example :
  in_two_steps FakeDrbg 0 [] (repeat xff 8) (repeat xff 5) = fill_bytes_via_next FakeDrbg 0 [] (repeat xff 13)
  /\ snd (fst (in_two_steps FakeDrbg 0 [] (repeat xff 8) (repeat xff 5)))
     = [x01; x02; x03; x04; x05; x06; x07; x08; x09; x0a; x0b; x0c; x0d]
  /\ snd (fst (in_two_steps FakeDrbg 0 [] (repeat xff 3) (repeat xff 4))) = [x01; x02; x03; x05; x06; x07; x08]
  /\ snd (fst (fill_bytes_via_next FakeDrbg 0 [] (repeat xff 7))) = [x01; x02; x03; x04; x05; x06; x07].
Proof. vm_compute. auto. Qed.
