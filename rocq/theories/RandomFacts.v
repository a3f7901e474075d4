(** How many random bytes the server hands out (C83). *)
From Coq Require Import ZArith NArith List Lia Bool.
From Coq Require Import Init.Byte.
From Verif Require Import Prelude Errors Server ServerSpec ServerProofs ServerFacts.
Import ListNotations.
Open Scope Z_scope.

(** ** C83 *)
(** A success response has exactly as many bytes behind its header as were
    asked for.  So a request for at most the 64 bytes of the largest digest is
    answered as TPM 2.0 Part 3, 16.1.1, says, a longer one is not. *)
Theorem c83_number_partial D X (dr : Drbg D) (es : EntropySource X) c k n c' resp m :
  wf_drbg dr -> asks_for (request_of k) n -> serve dr es c k = (c', resp, Ok m) ->
  is_success (firstn m resp) = true ->
  Z.of_nat (length (skipn 10 (firstn m resp))) = n.
Proof.
  intros Hd A E Su. pose proof (serve_spec D X dr es c k Hd) as S.
  set (request := request_of k) in *. set (buf := buffer_of k) in *. rewrite E in S. clearbody request buf.
  unfold served in S. pose proof A as (_ & _ & _ & N).
  pose proof (be_val_range (firstn 2 (skipn 10 request))) as R. fold (count_field request) in R.
  pose proof (asks_for_verdict _ _ (length buf) A) as V.
  destruct (verdict_of request (length buf)) as [rc|n'] eqn:Ev.
  - injection S as -> -> ->. rewrite (refused_no_success _ _ _ Ev) in Su. discriminate.
  - destruct (Z.of_nat (length buf) <? 10 + n); [discriminate|]. injection V as ->.
    destruct (try_get_random dr es c (firstn (Z.to_nat n) (skipn 10 buf))) as [[c1 out] r].
    destruct S as [Lo S]. destruct r; try discriminate. injection S as -> -> ->.
    destruct (random_is_success buf out) as [_ P]. rewrite Lo in P.
    etransitivity; [exact (f_equal (fun l => Z.of_nat (length l)) P)|]. rewrite Lo. lia.
Qed.

(** Nor is there ever a response with a digest's worth of bytes to a longer
    request: more of them come, or the error TPM_RC_MEMORY. *)
Theorem c83_longer_partial D X (dr : Drbg D) (es : EntropySource X) c k n :
  wf_drbg dr -> never_fails dr -> asks_for (request_of k) n -> 64 < n ->
  exists c' resp m, serve dr es c k = (c', resp, Ok m)
  /\ ((is_success (firstn m resp) = true /\ Z.of_nat (length (skipn 10 (firstn m resp))) > 64)
      \/ (c' = c /\ resp = error_response (buffer_of k) 0x904 /\ m = error_size (buffer_of k))).
Proof.
  intros Hd Hn A L. pose proof (serve_spec D X dr es c k Hd) as S. pose proof A as (_ & _ & _ & N).
  pose proof (fun c' resp m => c83_number_partial D X dr es c k n c' resp m Hd A) as T.
  set (request := request_of k) in *. set (buf := buffer_of k) in *. destruct (serve dr es c k) as [[c' resp] o].
  clearbody request buf.
  pose proof (be_val_range (firstn 2 (skipn 10 request))) as R. fold (count_field request) in R.
  unfold served in S. rewrite (asks_for_verdict _ _ _ A) in S.
  destruct (Z.of_nat (length buf) <? 10 + n).
  - injection S as -> -> ->. do 3 eexists. split; [reflexivity|]. right. auto.
  - pose proof (never_fails_try D X dr es c (firstn (Z.to_nat n) (skipn 10 buf)) Hn) as F.
    destruct (try_get_random dr es c (firstn (Z.to_nat n) (skipn 10 buf))) as [[c1 out] r].
    cbn [snd] in F. destruct S as [Lo S]. destruct r as [[]|e|]; try discriminate.
    injection S as -> -> ->. exists c1. do 2 eexists. split; [reflexivity|]. left.
    destruct (random_is_success buf out) as [P Q]. rewrite Lo in P, Q.
    split; [exact P|]. pose proof (f_equal (@length byte) Q) as Q'. cbn in Q' |- *. lia.
Qed.

Definition get100 : list byte := [x80; x01; x00; x00; x00; x0c; x00; x00; x01; x7b; x00; x64].
Definition get64 : list byte := [x80; x01; x00; x00; x00; x0c; x00; x00; x01; x7b; x00; x40].
(** A request for 100 bytes: 100 come if there is room, else an error; with
    64 asked for and no more room than that all is well. *)
Theorem c83_refuted :
  asks_for get100 100
  /\ (exists c' resp, serve FakeDrbg FakeEntropy fake (Separate get100 (repeat x00 200)) = (c', resp, Ok 110%nat)
      /\ is_success (firstn 110 resp) = true)
  /\ serve FakeDrbg FakeEntropy fake (Separate get100 (repeat x00 100))
     = (fake, repeat x00 8 ++ [x09; x04] ++ repeat x00 90, Ok 10%nat).
Proof.
  split; [repeat split; vm_compute; discriminate|]. split; [|vm_compute; reflexivity].
  do 2 eexists. split; [vm_compute; reflexivity|]. vm_compute. reflexivity.
Qed.
Example c83_example :
  asks_for get64 64
  /\ (exists c' resp, serve FakeDrbg FakeEntropy fake (Separate get64 (repeat x00 74)) = (c', resp, Ok 74%nat)
      /\ is_success (firstn 74 resp) = true
      /\ skipn 10 (firstn 74 resp) = count_up 0 64).
Proof.
  split; [repeat split; vm_compute; discriminate|].
  do 2 eexists. split; [vm_compute; reflexivity|]. split; vm_compute; reflexivity.
Qed.
