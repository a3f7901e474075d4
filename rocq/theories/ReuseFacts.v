(** A server that answers every request into the same buffer (C86). *)
From Coq Require Import ZArith NArith List Lia Bool.
From Coq Require Import Init.Byte.
From Verif Require Import Prelude Errors Server ServerSpec ServerProofs ServerFacts.
Import ListNotations.
Open Scope Z_scope.

(** A host with one buffer for all responses, or for requests and responses:
    then a request is put at the front of it.  [delivered] is the call made for
    a request when the buffer holds [buffer]. *)
Inductive host := TwoBuffers | OneBuffer.
Definition delivered (h : host) (request buffer : list byte) : call :=
  match h with
  | TwoBuffers => Separate request buffer
  | OneBuffer => InPlace (request ++ skipn (length request) buffer) (length request)
  end.
(** The answers to a sequence of requests, until a panic: the buffer is left as
    it is between two requests. *)
Fixpoint reuse {D X} (dr : Drbg D) (es : EntropySource X) (h : host) (c : context D X)
    (buffer : list byte) (requests : list (list byte)) : context D X * list (list byte) * bool :=
  match requests with
  | [] => (c, [], true)
  | q :: qs =>
      match serve dr es c (delivered h q buffer) with
      | (c', buffer', Ok n) =>
          let '(c'', answers, ok) := reuse dr es h c' buffer' qs in (c'', firstn n buffer' :: answers, ok)
      | (c', _, _) => (c', [], false)
      end
  end.

(** The same but for tag and size of an error response. *)
Definition alike (a b : list byte) : Prop :=
  length a = length b /\ skipn 6 a = skipn 6 b /\ (is_success a = true -> a = b).

(** Requests fit the buffer when there is only one. *)
Definition fits (h : host) (buffer request : list byte) : Prop :=
  h = OneBuffer -> (length request <= length buffer)%nat.
Lemma delivered_request h q buffer : request_of (delivered h q buffer) = q.
Proof. destruct h; [reflexivity|]. cbn [delivered request_of]. apply firstn_app_exact. Qed.
Lemma delivered_buffer h q buffer : fits h buffer q ->
  length (buffer_of (delivered h q buffer)) = length buffer.
Proof.
  destruct h; intros F; [reflexivity|]. specialize (F eq_refl). cbn [delivered buffer_of].
  rewrite app_length, skipn_length. lia.
Qed.

(** One step: what is left in the buffer. *)
Lemma served_front D X (dr : Drbg D) (es : EntropySource X) c q resp c' resp' n :
  served dr es c q resp (c', resp', Ok n) ->
  length resp' = length resp
  /\ (n <= length resp)%nat
  /\ if is_success (firstn n resp')
     then firstn 6 resp' = be_bytes 2 0x8001 ++ be_bytes 4 (Z.of_nat n) /\ (10 <= n)%nat
     else firstn 6 resp' = firstn 6 resp /\ (n = 0 \/ n = 10)%nat.
Proof.
  intros S. unfold served in S. destruct (verdict_of q (length resp)) as [rc|m] eqn:V.
  - injection S as -> -> ->. split; [apply error_response_length|].
    rewrite (refused_no_success _ _ _ V). unfold error_size, error_response.
    destruct (Nat.ltb_spec (length resp) 10); [split; [lia|auto]|]. split; [lia|]. split; [|auto].
    do 10 (destruct resp as [|? resp]; [cbn in *; lia|]). reflexivity.
  - destruct (try_get_random dr es c (firstn m (skipn 10 resp))) as [[c1 out] r].
    destruct S as [Lo S]. destruct r as [u|e|]; [|discriminate..]. injection S as -> -> ->.
    apply verdict_room in V. split; [apply random_response_length; lia|]. split; [lia|].
    destruct (random_is_success resp out) as [P _]. rewrite Lo in P.
    match goal with |- context [is_success ?x] => assert (Q : is_success x = true) by exact P end.
    rewrite Q. split; [|lia]. subst m.
    unfold random_response. rewrite app_assoc.
    rewrite firstn_app_exact' by (rewrite app_length, !be_bytes_length; reflexivity).
    do 2 f_equal. lia.
Qed.

(** ** C86 *)
(** Every answer is the one a buffer nobody used before would have got, but for
    tag and size of an error response: nothing else of what was there before
    comes through. *)
Theorem c86_fresh D X (dr : Drbg D) (es : EntropySource X) h requests : forall c buffer fresh,
  wf_drbg dr -> ignores_contents dr ->
  Forall (fits h buffer) requests ->
  length fresh = length requests -> Forall (fun b => length b = length buffer) fresh ->
  let '(c1, answers1, ok1) := reuse dr es h c buffer requests in
  let '(c2, answers2, ok2) := serve_all dr es c (map (fun p => delivered h (fst p) (snd p)) (combine requests fresh)) in
  c1 = c2 /\ ok1 = ok2 /\ Forall2 alike answers1 answers2.
Proof.
  induction requests as [|q qs IH]; intros c buffer fresh Hd Hi Hf Hn Hl.
  - destruct fresh; [|discriminate]. cbn. auto.
  - destruct fresh as [|b fresh]; [discriminate|]. cbn [combine map reuse serve_all fst snd].
    inversion Hf as [|? ? F Fs]; subst. inversion Hl as [|? ? L Ls]; subst.
    assert (Fb : fits h b q) by (intros E; rewrite L; exact (F E)).
    pose proof (serve_spec D X dr es c (delivered h q buffer) Hd) as S1.
    pose proof (serve_spec D X dr es c (delivered h q b) Hd) as S2.
    rewrite delivered_request in S1, S2.
    pose proof (served_agree D X dr es c q _ _ _ _ Hi
      (eq_trans (delivered_buffer h q b Fb) (eq_trans L (eq_sym (delivered_buffer h q buffer F)))) S1 S2) as A.
    destruct (serve dr es c (delivered h q buffer)) as [[c1 r1] o1] eqn:E1.
    destruct (serve dr es c (delivered h q b)) as [[c2 r2] o2] eqn:E2.
    destruct A as (Ec & Eo & A). subst c2 o2.
    destruct o1 as [n|e|]; [|auto..]. specialize (A n eq_refl). destruct A as [A1 A2].
    apply served_front in S1, S2. destruct S1 as (L1 & N1 & P1). destruct S2 as (L2 & N2 & P2).
    rewrite delivered_buffer in L1, N1 by assumption. rewrite delivered_buffer in L2, N2 by assumption.
    assert (Hf' : Forall (fits h r1) qs).
    { eapply Forall_impl; [|exact Fs]. intros x G E. rewrite L1. exact (G E). }
    assert (Hl' : Forall (fun b => length b = length r1) fresh) by (rewrite L1; exact Ls).
    cbn [length] in Hn. injection Hn as Hn.
    specialize (IH c1 r1 fresh Hd Hi Hf' Hn Hl').
    destruct (reuse dr es h c1 r1 qs) as [[c3 a3] k3].
    destruct (serve_all dr es c1 (map (fun p => delivered h (fst p) (snd p)) (combine qs fresh))) as [[c4 a4] k4].
    destruct IH as (-> & -> & IH). split; [reflexivity|]. split; [reflexivity|]. constructor; [|exact IH].
    split; [rewrite !firstn_length; lia|]. split; [exact A1|]. intros Sc. apply A2.
    + unfold is_success in Sc. apply andb_true_iff in Sc. destruct Sc as [Sl Sz].
      apply Nat.leb_le in Sl. rewrite firstn_length in Sl. apply Z.eqb_eq in Sz.
      rewrite skipn_firstn_comm, firstn_firstn in Sz. rewrite Nat.min_l in Sz by lia.
      rewrite <- Sz. symmetry. replace 4%nat with (length (firstn 4 (skipn 6 r1))) at 1
        by (rewrite firstn_length, skipn_length; lia). apply be_bytes_val.
    + rewrite Sc in P1. apply P1.
Qed.

(** What tag and size of an error response are: those of the last success
    response, or what the buffer held at first; with one buffer for both, of
    the request as far as it goes. *)
Definition put_in_front (h : host) (q front : list byte) : list byte :=
  match h with TwoBuffers => front | OneBuffer => firstn 6 (q ++ skipn (length q) front) end.
Fixpoint front_of (h : host) (front : list byte) (requests answers : list (list byte)) : list byte :=
  match requests, answers with
  | q :: qs, a :: answers' =>
      front_of h (if is_success a then be_bytes 2 0x8001 ++ be_bytes 4 (Z.of_nat (length a))
                  else put_in_front h q front) qs answers'
  | _, _ => front
  end.

Lemma put_in_front_spec h q buffer : 
  firstn 6 (buffer_of (delivered h q buffer)) = put_in_front h q (firstn 6 buffer).
Proof.
  destruct h; [reflexivity|]. cbn [delivered buffer_of put_in_front].
  rewrite !firstn_app. f_equal. rewrite skipn_firstn_comm. symmetry.
  rewrite firstn_firstn, Nat.min_id. reflexivity.
Qed.

Theorem c86_front D X (dr : Drbg D) (es : EntropySource X) h requests : forall c buffer c' answers ok i q a,
  wf_drbg dr -> Forall (fits h buffer) requests ->
  reuse dr es h c buffer requests = (c', answers, ok) ->
  nth_error requests i = Some q -> nth_error answers i = Some a ->
  if is_success a
  then firstn 6 a = be_bytes 2 0x8001 ++ be_bytes 4 (Z.of_nat (length a))
  else a = [] \/ (length a = 10%nat
                  /\ firstn 6 a = put_in_front h q (front_of h (firstn 6 buffer) (firstn i requests) (firstn i answers))).
Proof.
  induction requests as [|q0 qs IH]; intros c buffer c' answers ok i q a Hd Hf E Eq Ea.
  - destruct i; discriminate.
  - cbn [reuse] in E. inversion Hf as [|? ? F Fs]; subst.
    pose proof (serve_spec D X dr es c (delivered h q0 buffer) Hd) as S.
    destruct (serve dr es c (delivered h q0 buffer)) as [[c1 r1] o1] eqn:E1.
    destruct o1 as [n|e|]; [|injection E as _ <- _; destruct i; discriminate..].
    apply served_front in S. destruct S as (L1 & N1 & P1).
    rewrite delivered_buffer in L1, N1 by assumption. rewrite put_in_front_spec in P1.
    destruct (reuse dr es h c1 r1 qs) as [[c3 a3] k3] eqn:R. injection E as <- <- <-.
    assert (Ln : length (firstn n r1) = n) by (rewrite firstn_length; lia).
    destruct i as [|i]; cbn [nth_error] in Eq, Ea.
    + injection Eq as <-. injection Ea as <-. rewrite !firstn_O. cbn [front_of].
      destruct (is_success (firstn n r1)).
      * rewrite firstn_firstn, Nat.min_l by lia. rewrite Ln. apply P1.
      * destruct P1 as [P1 [-> | ->]]; [left; reflexivity|]. right. split; [assumption|].
        rewrite firstn_firstn. exact P1.
    + assert (Hf' : Forall (fits h r1) qs).
      { eapply Forall_impl; [|exact Fs]. intros x G Eh. rewrite L1. exact (G Eh). }
      specialize (IH c1 r1 c3 a3 k3 i q a Hd Hf' R Eq Ea).
      rewrite !firstn_cons. cbn [front_of]. rewrite Ln.
      replace (if is_success (firstn n r1) then be_bytes 2 0x8001 ++ be_bytes 4 (Z.of_nat n)
               else put_in_front h q0 (firstn 6 buffer)) with (firstn 6 r1); [exact IH|].
      destruct (is_success (firstn n r1)); apply P1.
Qed.

(** Random bytes for one caller, then an error for another: the second answer
    has the tag and size of the first. *)
Example c86_example :
  wf_drbg FakeDrbg /\ ignores_contents FakeDrbg
  /\ Forall (fits OneBuffer (repeat xff 24)) [get12; []; [x80; x01]]
  /\ reuse FakeDrbg FakeEntropy TwoBuffers fake (repeat xff 24) [[]; get12; []]
     = ({| drbg := 12; entropy := tt |},
        [repeat xff 6 ++ [x00; x00; x01; x42];
         [x80; x01; x00; x00; x00; x16; x00; x00; x00; x00; x01; x02; x03; x04; x05; x06; x07; x08; x09; x0a; x0b; x0c];
         [x80; x01; x00; x00; x00; x16; x00; x00; x01; x42]], true)
  /\ reuse FakeDrbg FakeEntropy OneBuffer fake (repeat xff 24) [get12; []; [x00; x02; xaa]]
     = ({| drbg := 12; entropy := tt |},
        [[x80; x01; x00; x00; x00; x16; x00; x00; x00; x00; x01; x02; x03; x04; x05; x06; x07; x08; x09; x0a; x0b; x0c];
         [x80; x01; x00; x00; x00; x16; x00; x00; x01; x42];
         [x00; x02; xaa; x00; x00; x16; x00; x00; x01; x42]], true).
Proof.
  split; [apply c43_example|]. split; [apply c43_example|].
  split; [repeat constructor; intros _; cbn; lia|]. vm_compute. auto.
Qed.
