(** Properties of the server (C43-C48, C51, C57, C58). *)
From Coq Require Import ZArith NArith List Lia Bool.
From Coq Require Import Init.Byte.
From Verif Require Import Prelude Errors Server ServerSpec ServerProofs.
Import ListNotations.
Open Scope Z_scope.

(** A counter as generator, the one the crate's tests use
    (tests/drbg.rs:28-59), and an entropy source (tests/entropy.rs). *)
Fixpoint count_up (c : Z) (n : nat) : list byte :=
  match n with O => [] | S n' => zb (c + 1) :: count_up (c + 1) n' end.
Definition FakeDrbg : Drbg Z := {|
  entropy_default := [x00]; nonce_default := [];
  instantiate := fun e _ _ => Ok (be_val e);
  reseed := fun d e _ => (d + be_val e, Ok tt);
  next_u32 := fun d _ => (d + 4, Ok (le_val (count_up d 4)));
  next_u64 := fun d _ => (d + 8, Ok (le_val (count_up d 8)));
  fill_bytes := fun d _ dest => ((d + Z.of_nat (length dest)) mod 256, count_up d (length dest), Ok tt);
  requires_reseeding := fun d => (d, false)
|}.
Definition FakeEntropy : EntropySource unit := {|
  source := tt; fill_entropy := fun x dest => (x, map (fun i => zb (Z.of_nat i)) (seq 0 (length dest)))
|}.
Definition fake : context Z unit := {| drbg := 0; entropy := tt |}.
Lemma count_up_length n : forall c, length (count_up c n) = n.
Proof. induction n; intros; cbn; auto. Qed.

Definition get12 : list byte := [x80; x01; x00; x00; x00; x0c; x00; x00; x01; x7b; x00; x0c].

Lemma error_response_length resp rc : length (error_response resp rc) = length resp.
Proof.
  unfold error_response. destruct (Nat.ltb_spec (length resp) 10); [reflexivity|].
  rewrite !app_length, firstn_length, be_bytes_length, skipn_length. lia.
Qed.
Lemma random_response_length resp out : (10 + length out <= length resp)%nat ->
  length (random_response resp out) = length resp.
Proof.
  intros. unfold random_response. rewrite !app_length, !be_bytes_length, skipn_length. lia.
Qed.
Lemma verdict_room q room n : verdict_of q room = Random n -> (10 + n <= room)%nat.
Proof.
  unfold verdict_of. destruct (_ || _); [discriminate|]. destruct (negb _); [discriminate|].
  destruct (_ <? 12) eqn:E12; [discriminate|].
  destruct (Z.ltb_spec (Z.of_nat room) (10 + count_field q)); [discriminate|].
  intros E. injection E as <-.
  pose proof (be_val_range (firstn 2 (skipn 10 q))) as R. fold (count_field q) in R. lia.
Qed.
Lemma skipn_error_response resp rc : skipn 10 (error_response resp rc) = skipn 10 resp.
Proof.
  unfold error_response. destruct (Nat.ltb_spec (length resp) 10); [reflexivity|].
  do 10 (destruct resp as [|? resp]; [cbn in *; lia|]). reflexivity.
Qed.
Lemma skipn_random_response resp out k : (10 + length out <= length resp)%nat ->
  (10 + length out <= k)%nat -> skipn k (random_response resp out) = skipn k resp.
Proof.
  intros L K. unfold random_response.
  set (h := be_bytes 2 0x8001 ++ be_bytes 4 (10 + Z.of_nat (length out)) ++ be_bytes 4 0 ++ out).
  replace (be_bytes 2 0x8001 ++ be_bytes 4 (10 + Z.of_nat (length out)) ++ be_bytes 4 0 ++ out
           ++ skipn (10 + length out) resp) with (h ++ skipn (10 + length out) resp)
    by (unfold h; rewrite <- !app_assoc; reflexivity).
  assert (Lh : length h = (10 + length out)%nat).
  { unfold h. rewrite !app_length, !be_bytes_length. lia. }
  replace k with ((10 + length out) + (k - (10 + length out)))%nat by lia.
  rewrite <- skipn_skipn', <- Lh, skipn_app_exact, skipn_skipn'. reflexivity.
Qed.

Lemma never_fails_try D X (dr : Drbg D) (es : EntropySource X) c dest : never_fails dr ->
  snd (try_get_random dr es c dest) = Ok tt.
Proof.
  intros [H1 H2]. unfold try_get_random. destruct (requires_reseeding dr (drbg c)) as [d1 b].
  destruct b.
  - destruct (fill_entropy es (entropy c) (entropy_default dr)) as [x seed].
    specialize (H1 d1 seed). destruct (reseed dr d1 seed []) as [d2 r]. cbn in H1. subst r.
    cbn [drbg]. specialize (H2 d2 dest). destruct (fill_bytes dr d2 [] dest) as [[d3 out] r].
    cbn in H2. subst r. reflexivity.
  - cbn [drbg]. specialize (H2 d1 dest). destruct (fill_bytes dr d1 [] dest) as [[d3 out] r].
    cbn in H2. subst r. reflexivity.
Qed.

Lemma served_total D X (dr : Drbg D) (es : EntropySource X) c q resp res :
  never_fails dr -> served dr es c q resp res ->
  exists c' resp' n, res = (c', resp', Ok n)
    /\ length resp' = length resp /\ (n <= length resp)%nat
    /\ skipn (Nat.max n 10) resp' = skipn (Nat.max n 10) resp.
Proof.
  intros Hn H. unfold served in H. destruct (verdict_of q (length resp)) as [rc|n] eqn:V.
  - rewrite H. do 3 eexists. split; [reflexivity|]. split; [apply error_response_length|].
    unfold error_size. destruct (Nat.ltb_spec (length resp) 10).
    + split; [lia|]. apply skipn_error_response.
    + split; [lia|]. apply skipn_error_response.
  - apply verdict_room in V.
    pose proof (never_fails_try D X dr es c (firstn n (skipn 10 resp)) Hn) as R.
    destruct (try_get_random dr es c (firstn n (skipn 10 resp))) as [[c' out] r]. cbn in R. subst r.
    destruct H as [L ->]. do 3 eexists. split; [reflexivity|].
    split; [apply random_response_length; lia|]. split; [lia|].
    apply skipn_random_response; lia.
Qed.

Lemma serve_spec D X (dr : Drbg D) (es : EntropySource X) c k : wf_drbg dr ->
  served dr es c (request_of k) (buffer_of k) (serve dr es c k).
Proof.
  intros H. destruct k as [q r|b n]; [apply (separate_spec dr es H)|apply (in_place_spec dr es H)].
Qed.

(** ** C43 *)
(** [k] is a command given with a separate response buffer, or in place. *)
Theorem c43_total D X (dr : Drbg D) (es : EntropySource X) c k :
  wf_drbg dr -> never_fails dr ->
  exists c' resp n, serve dr es c k = (c', resp, Ok n)
    /\ length resp = length (buffer_of k) /\ (n <= length (buffer_of k))%nat
    /\ skipn (Nat.max n 10) resp = skipn (Nat.max n 10) (buffer_of k).
Proof. intros H1 H2. eapply served_total; [eassumption|]. apply serve_spec. assumption. Qed.

(** The test generator meets the hypotheses. *)
Example c43_example :
  wf_drbg FakeDrbg /\ never_fails FakeDrbg /\ ignores_contents FakeDrbg /\ wf_source FakeEntropy
  /\ new FakeDrbg FakeEntropy = Ok fake
  /\ execute_command_separate FakeDrbg FakeEntropy fake get12 (repeat xff 24)
     = ({| drbg := 12; entropy := tt |},
        [x80; x01; x00; x00; x00; x16; x00; x00; x00; x00;
         x01; x02; x03; x04; x05; x06; x07; x08; x09; x0a; x0b; x0c; xff; xff], Ok 22%nat).
Proof.
  repeat split.
  - intros d ai dest d' out r H. cbn in H. injection H as _ <- _. apply count_up_length.
  - intros d ai d1 d2 E. cbn. rewrite E. reflexivity.
  - intros x dest x' out H. cbn in H. injection H as _ <-. rewrite map_length. apply seq_length.
Qed.

(** ** C44 *)
(** Header errors: only the error code is written, and neither generator nor
    entropy source is used (the context, which holds both, is the same). *)
Theorem c44_size D X (dr : Drbg D) (es : EntropySource X) c k :
  wf_drbg dr ->
  Z.of_nat (length (request_of k)) < 10 \/ size_field (request_of k) <> Z.of_nat (length (request_of k)) ->
  serve dr es c k
  = (c, error_response (buffer_of k) 0x142, Ok (error_size (buffer_of k))).
Proof.
  intros Hd H. pose proof (serve_spec D X dr es c k Hd) as S.
  set (request := request_of k) in *. set (resp := buffer_of k) in *. clearbody request resp. unfold served, verdict_of in S.
  destruct (Z.ltb_spec (Z.of_nat (length request)) 10); cbn [orb] in S; [exact S|].
  destruct (Z.eqb_spec (size_field request) (Z.of_nat (length request))); cbn [negb] in S; [lia|exact S].
Qed.

Theorem c44_code D X (dr : Drbg D) (es : EntropySource X) c k :
  wf_drbg dr ->
  10 <= Z.of_nat (length (request_of k)) -> size_field (request_of k) = Z.of_nat (length (request_of k)) ->
  code_field (request_of k) <> 0x17B ->
  serve dr es c k
  = (c, error_response (buffer_of k) 0x143, Ok (error_size (buffer_of k))).
Proof.
  intros Hd L H C. pose proof (serve_spec D X dr es c k Hd) as S.
  set (request := request_of k) in *. set (resp := buffer_of k) in *. clearbody request resp. unfold served, verdict_of in S.
  destruct (Z.ltb_spec (Z.of_nat (length request)) 10); [lia|]. cbn [orb] in S.
  rewrite H, Z.eqb_refl in S. cbn [negb] in S.
  destruct (Z.eqb_spec (code_field request) 0x17B); [congruence|]. exact S.
Qed.

(** GetRandom without the two bytes of its parameter. *)
Theorem c44_count D X (dr : Drbg D) (es : EntropySource X) c k :
  wf_drbg dr ->
  10 <= Z.of_nat (length (request_of k)) < 12 -> size_field (request_of k) = Z.of_nat (length (request_of k)) ->
  code_field (request_of k) = 0x17B ->
  serve dr es c k
  = (c, error_response (buffer_of k) 0x142, Ok (error_size (buffer_of k))).
Proof.
  intros Hd L H C. pose proof (serve_spec D X dr es c k Hd) as S.
  set (request := request_of k) in *. set (resp := buffer_of k) in *. clearbody request resp. unfold served, verdict_of in S.
  destruct (Z.ltb_spec (Z.of_nat (length request)) 10); [lia|]. cbn [orb] in S.
  rewrite H, C, Z.eqb_refl in S. cbn [negb Z.eqb Pos.eqb] in S.
  destruct (Z.ltb_spec (Z.of_nat (length request)) 12); [|lia]. exact S.
Qed.

Example c44_example :
  execute_command_separate FakeDrbg FakeEntropy fake
    [x80; x01; x00; x00; x00; x0b; x00; x00; x01; x7b; x00; x0c] (repeat xff 11)
  = (fake, [xff; xff; xff; xff; xff; xff; x00; x00; x01; x42; xff], Ok 10%nat)
  /\ execute_command_separate FakeDrbg FakeEntropy fake
    [x80; x01; x00; x00; x00; x0c; x00; x00; x01; x44; x00; x00] (repeat xff 11)
  = (fake, [xff; xff; xff; xff; xff; xff; x00; x00; x01; x43; xff], Ok 10%nat)
  /\ execute_command_separate FakeDrbg FakeEntropy fake
    [x80; x01; x00; x00; x00; x0b; x00; x00; x01; x7b; x00] (repeat xff 11)
  = (fake, [xff; xff; xff; xff; xff; xff; x00; x00; x01; x42; xff], Ok 10%nat).
Proof. vm_compute. auto. Qed.

(** ** C45 *)
(** A request for [n] bytes as the library accepts it (the tag and anything
    behind the count are ignored, see C58). *)
Definition asks_for (request : list byte) (n : Z) : Prop :=
  12 <= Z.of_nat (length request) /\ size_field request = Z.of_nat (length request)
  /\ code_field request = 0x17B /\ count_field request = n.

Lemma asks_for_verdict request n room : asks_for request n ->
  verdict_of request room = if Z.of_nat room <? 10 + n then Refuse 0x904 else Random (Z.to_nat n).
Proof.
  intros (L & S & C & N). unfold verdict_of. rewrite S, C, N.
  destruct (Z.ltb_spec (Z.of_nat (length request)) 10); [lia|]. rewrite Z.eqb_refl. cbn [negb orb Z.eqb].
  destruct (Z.ltb_spec (Z.of_nat (length request)) 12); [lia|]. reflexivity.
Qed.

(** How [n] bytes are made: ask the generator whether to reseed, do so with
    fresh entropy of its seed size if it says yes, have it fill [dest]. *)
Inductive draws {D X} (dr : Drbg D) (es : EntropySource X)
    : context D X -> list byte -> context D X -> list byte -> Prop :=
| Draws_plain d x dest d1 d2 out :
    requires_reseeding dr d = (d1, false) ->
    fill_bytes dr d1 [] dest = (d2, out, Ok tt) ->
    draws dr es {| drbg := d; entropy := x |} dest {| drbg := d2; entropy := x |} out
| Draws_reseeded d x dest d1 x' seed d2 d3 out :
    requires_reseeding dr d = (d1, true) ->
    fill_entropy es x (entropy_default dr) = (x', seed) ->
    reseed dr d1 seed [] = (d2, Ok tt) ->
    fill_bytes dr d2 [] dest = (d3, out, Ok tt) ->
    draws dr es {| drbg := d; entropy := x |} dest {| drbg := d3; entropy := x' |} out.

Lemma try_draws D X (dr : Drbg D) (es : EntropySource X) c dest c' out :
  try_get_random dr es c dest = (c', out, Ok tt) <-> draws dr es c dest c' out.
Proof.
  unfold try_get_random. split.
  - destruct c as [d x]. cbn [drbg entropy].
    destruct (requires_reseeding dr d) as [d1 b] eqn:Q. destruct b.
    + destruct (fill_entropy es x (entropy_default dr)) as [x' seed] eqn:E.
      destruct (reseed dr d1 seed []) as [d2 r] eqn:R. destruct r as [[]| |]; try discriminate.
      cbn [drbg entropy]. destruct (fill_bytes dr d2 [] dest) as [[d3 out'] r] eqn:F.
      intros H. injection H as <- <- ->. eapply Draws_reseeded; eassumption.
    + cbn [drbg entropy]. destruct (fill_bytes dr d1 [] dest) as [[d3 out'] r] eqn:F.
      intros H. injection H as <- <- ->. eapply Draws_plain; eassumption.
  - intros H. destruct H as [d x dest d1 d2 out Q F|d x dest d1 x' seed d2 d3 out Q E R F]; cbn [drbg entropy].
    + rewrite Q. cbn [drbg entropy]. rewrite F. reflexivity.
    + rewrite Q, E, R. cbn [drbg entropy]. rewrite F. reflexivity.
Qed.

Theorem c45_success D X (dr : Drbg D) (es : EntropySource X) c k n c' out :
  wf_drbg dr -> asks_for (request_of k) n -> 10 + n <= Z.of_nat (length (buffer_of k)) ->
  draws dr es c (firstn (Z.to_nat n) (skipn 10 (buffer_of k))) c' out ->
  Z.of_nat (length out) = n
  /\ serve dr es c k
     = (c', be_bytes 2 0x8001 ++ be_bytes 4 (10 + n) ++ be_bytes 4 0 ++ out ++ skipn (Z.to_nat (10 + n)) (buffer_of k),
        Ok (Z.to_nat (10 + n))).
Proof.
  intros Hd A L Dr. pose proof (serve_spec D X dr es c k Hd) as S.
  set (request := request_of k) in *. set (resp := buffer_of k) in *. clearbody request resp. unfold served in S.
  pose proof A as (_ & _ & _ & N).
  pose proof (be_val_range (firstn 2 (skipn 10 request))) as R. fold (count_field request) in R.
  rewrite (asks_for_verdict _ _ _ A) in S.
  destruct (Z.ltb_spec (Z.of_nat (length resp)) (10 + n)); [lia|].
  apply try_draws in Dr. rewrite Dr in S. destruct S as [Lo E]. split; [lia|]. rewrite E.
  unfold random_response. rewrite Lo. do 2 f_equal; [f_equal|f_equal]; try lia.
  rewrite Z2Nat.id by lia. do 4 f_equal. lia.
Qed.

Theorem c45_no_room D X (dr : Drbg D) (es : EntropySource X) c k n :
  wf_drbg dr -> asks_for (request_of k) n -> Z.of_nat (length (buffer_of k)) < 10 + n ->
  serve dr es c k
  = (c, error_response (buffer_of k) 0x904, Ok (error_size (buffer_of k))).
Proof.
  intros Hd A L. pose proof (serve_spec D X dr es c k Hd) as S.
  set (request := request_of k) in *. set (resp := buffer_of k) in *. clearbody request resp. unfold served in S.
  rewrite (asks_for_verdict _ _ _ A) in S.
  destruct (Z.ltb_spec (Z.of_nat (length resp)) (10 + n)); [exact S|lia].
Qed.

(** A generator that asks to be reseeded every time. *)
Definition NeedyDrbg : Drbg Z := {|
  entropy_default := [x00; x00]; nonce_default := [];
  instantiate := fun e _ _ => Ok (be_val e);
  reseed := fun d e _ => (d + be_val e, Ok tt);
  next_u32 := fun d _ => (d + 4, Ok 0);
  next_u64 := fun d _ => (d + 8, Ok 0);
  fill_bytes := fun d _ dest => (d, repeat (zb d) (length dest), Ok tt);
  requires_reseeding := fun d => (d, true)
|}.
Example c45_example :
  asks_for get12 12
  /\ draws NeedyDrbg FakeEntropy {| drbg := 5; entropy := tt |} (repeat xff 12)
           {| drbg := 6; entropy := tt |} (repeat x06 12)
  /\ execute_command_separate NeedyDrbg FakeEntropy {| drbg := 5; entropy := tt |} get12 (repeat xff 23)
     = ({| drbg := 6; entropy := tt |},
        [x80; x01; x00; x00; x00; x16; x00; x00; x00; x00] ++ repeat x06 12 ++ [xff], Ok 22%nat)
  /\ execute_command_separate NeedyDrbg FakeEntropy {| drbg := 5; entropy := tt |} get12 (repeat xff 21)
     = ({| drbg := 5; entropy := tt |}, repeat xff 6 ++ [x00; x00; x09; x04] ++ repeat xff 11, Ok 10%nat).
Proof.
  split; [|split]; [vm_compute; intuition discriminate| |vm_compute; auto].
  apply try_draws. vm_compute. reflexivity.
Qed.

(** ** C46 *)
(** Two runs on the same request, with buffers of the same length. *)
Lemma served_agree D X (dr : Drbg D) (es : EntropySource X) c q buffer resp res1 res2 :
  ignores_contents dr -> length resp = length buffer ->
  served dr es c q buffer res1 -> served dr es c q resp res2 ->
  let '(c1, r1, o1) := res1 in
  let '(c2, r2, o2) := res2 in
  c1 = c2 /\ o1 = o2
  /\ forall n, o1 = Ok n ->
       skipn 6 (firstn n r1) = skipn 6 (firstn n r2)
       /\ (firstn 4 (skipn 6 r1) = be_bytes 4 0 -> (10 <= n)%nat -> firstn n r1 = firstn n r2).
Proof.
  intros Hi Hl S1 S2.
  unfold served in S1, S2. rewrite Hl in S2.
  destruct (verdict_of q (length buffer)) as [rc|n] eqn:V.
  - rewrite S1, S2. split; [reflexivity|]. unfold error_size, error_response. rewrite Hl.
    split; [reflexivity|]. intros n E. injection E as <-.
    destruct (Nat.ltb_spec (length buffer) 10) as [L|L].
    + split; [reflexivity|]. intros _ K. lia.
    + assert (Rc : rc = 0x142 \/ rc = 0x143 \/ rc = 0x904).
      { revert V. unfold verdict_of. destruct (_ || _); [intros H; injection H as <-; auto|].
        destruct (negb _); [intros H; injection H as <-; auto|].
        destruct (_ <? 12); [intros H; injection H as <-; auto|].
        destruct (Z.of_nat _ <? _); [intros H; injection H as <-; auto|discriminate]. }
      split.
      * rewrite !skipn_firstn_comm.
        rewrite !skipn_app_exact' by (rewrite firstn_length; lia).
        change (10 - 6)%nat with 4%nat.
        rewrite !firstn_app_exact' by (rewrite be_bytes_length; reflexivity). reflexivity.
      * intros H. exfalso. rewrite skipn_app_exact' in H by (rewrite firstn_length; lia).
        rewrite firstn_app_exact' in H by (rewrite be_bytes_length; reflexivity).
        destruct Rc as [-> |[-> | ->]]; discriminate.
  - pose proof (verdict_room _ _ _ V) as Room.
    assert (T : try_get_random dr es c (firstn n (skipn 10 buffer))
                = try_get_random dr es c (firstn n (skipn 10 resp))
             \/ exists c' e1 e2, snd (try_get_random dr es c (firstn n (skipn 10 buffer))) <> Ok tt
                /\ try_get_random dr es c (firstn n (skipn 10 buffer)) = (c', firstn n (skipn 10 buffer), e1)
                /\ try_get_random dr es c (firstn n (skipn 10 resp)) = (c', firstn n (skipn 10 resp), e2)
                /\ snd (try_get_random dr es c (firstn n (skipn 10 resp))) <> Ok tt).
    { unfold try_get_random. destruct (requires_reseeding dr (drbg c)) as [d1 b].
      match goal with |- context [let '(_, _) := ?x in _] => destruct x as [c2 r] end.
      destruct r as [u|e|].
      - left. rewrite (Hi (drbg c2) [] (firstn n (skipn 10 buffer)) (firstn n (skipn 10 resp))); [reflexivity|].
        rewrite !firstn_length, !skipn_length. lia.
      - right. exists c2, (Err e), (Err e). cbn. repeat split; discriminate.
      - right. exists c2, Panic, Panic. cbn. repeat split; discriminate. }
    destruct T as [T|(c' & e1 & e2 & N1 & T1 & T2 & N2)].
    + rewrite T in S1. destruct (try_get_random dr es c (firstn n (skipn 10 resp))) as [[c' out] r].
      destruct S1 as [L1 S1]. destruct S2 as [L2 S2]. rewrite S1, S2. destruct r as [u|e|].
      * split; [reflexivity|]. split; [reflexivity|]. intros m E. injection E as <-.
        assert (F : firstn (10 + n) (random_response buffer out) = firstn (10 + n) (random_response resp out)).
        { unfold random_response. rewrite !app_assoc.
          rewrite !firstn_app_exact' by (rewrite !app_length, !be_bytes_length; lia). reflexivity. }
        split; [apply (f_equal (skipn 6)) in F; exact F|intros _ _; exact F].
      * split; [reflexivity|]. split; [reflexivity|discriminate].
      * split; [reflexivity|]. split; [reflexivity|discriminate].
    + rewrite T1 in S1, N1. rewrite T2 in S2, N2. cbn in N1, N2.
      destruct S1 as [L1 S1]. destruct S2 as [L2 S2].
      destruct e1 as [[]|e1|]; [congruence| |]; destruct e2 as [[]|e2|]; try congruence;
        rewrite S1, S2; split; try reflexivity; (split; [reflexivity|discriminate]).
Qed.

(** Same context, same outcome, same size and the same response from the
    response code on; a success response is the same in all its bytes. *)
Theorem c46_agree_partial D X (dr : Drbg D) (es : EntropySource X) c buffer request_size resp :
  wf_drbg dr -> ignores_contents dr -> length resp = length buffer ->
  let '(c1, r1, o1) := execute_command_in_place dr es c buffer request_size in
  let '(c2, r2, o2) := execute_command_separate dr es c (firstn request_size buffer) resp in
  c1 = c2 /\ o1 = o2
  /\ forall n, o1 = Ok n ->
       skipn 6 (firstn n r1) = skipn 6 (firstn n r2)
       /\ (firstn 4 (skipn 6 r1) = be_bytes 4 0 -> (10 <= n)%nat -> firstn n r1 = firstn n r2).
Proof.
  intros Hd Hi Hl.
  exact (served_agree D X dr es c (firstn request_size buffer) buffer resp _ _ Hi Hl
           (in_place_spec dr es Hd c buffer request_size)
           (separate_spec dr es Hd c (firstn request_size buffer) resp)).
Qed.

(** The first six bytes of an error response are what the buffer held, in place
    those of the request: here the tag and the size of the request, and
    separately zeros. *)
Theorem c46_refuted :
  exists request resp resp1 resp2, length resp = length request
  /\ execute_command_in_place FakeDrbg FakeEntropy fake request (length request) = (fake, resp1, Ok 10%nat)
  /\ execute_command_separate FakeDrbg FakeEntropy fake request resp = (fake, resp2, Ok 10%nat)
  /\ firstn 10 resp1 = [x80; x01; x00; x00; x00; x0a; x00; x00; x01; x43]
  /\ firstn 10 resp2 = [x00; x00; x00; x00; x00; x00; x00; x00; x01; x43].
Proof.
  exists [x80; x01; x00; x00; x00; x0a; x00; x00; x01; x44], (repeat x00 10).
  do 2 eexists. split; [reflexivity|]. split; [vm_compute; reflexivity|]. split; [vm_compute; reflexivity|].
  split; reflexivity.
Qed.
(** In place, the response to a request longer than the part that is read
    overwrites it. *)
Example c46_example :
  execute_command_in_place FakeDrbg FakeEntropy fake (get12 ++ repeat xff 10) 12
  = ({| drbg := 12; entropy := tt |},
     [x80; x01; x00; x00; x00; x16; x00; x00; x00; x00;
      x01; x02; x03; x04; x05; x06; x07; x08; x09; x0a; x0b; x0c], Ok 22%nat)
  /\ execute_command_in_place FakeDrbg FakeEntropy fake (get12 ++ repeat xff 10) 11
     = (fake, [x80; x01; x00; x00; x00; x0c; x00; x00; x01; x42; x00; x0c] ++ repeat xff 10, Ok 10%nat).
Proof. vm_compute. auto. Qed.

(** ** C47 *)
(** Whenever a response is not a success response, it is exactly this. *)
Theorem c47_errors D X (dr : Drbg D) (es : EntropySource X) c k c' resp' n :
  wf_drbg dr ->
  serve dr es c k = (c', resp', Ok n) ->
  is_success (firstn n resp') = false ->
  c' = c
  /\ exists rc, In rc [0x142; 0x143; 0x904]
  /\ (if (length (buffer_of k) <? 10)%nat then resp' = (buffer_of k) /\ n = 0%nat
      else n = 10%nat /\ firstn 6 resp' = firstn 6 (buffer_of k)
           /\ firstn 4 (skipn 6 resp') = be_bytes 4 rc /\ skipn 10 resp' = skipn 10 (buffer_of k)).
Proof.
  intros Hd E F. pose proof (serve_spec D X dr es c k Hd) as S.
  set (request := request_of k) in *. set (resp := buffer_of k) in *. clearbody request resp. unfold served in S.
  rewrite E in S. destruct (verdict_of request (length resp)) as [rc|m] eqn:V.
  - injection S as -> -> ->. split; [reflexivity|]. exists rc. split.
    + revert V. unfold verdict_of. destruct (_ || _); [intros H; injection H as <-; cbn; auto|].
      destruct (negb _); [intros H; injection H as <-; cbn; auto|].
      destruct (_ <? 12); [intros H; injection H as <-; cbn; auto|].
      destruct (Z.of_nat _ <? _); [intros H; injection H as <-; cbn; auto|discriminate].
    + unfold error_size, error_response. destruct (Nat.ltb_spec (length resp) 10); [auto|].
      do 10 (destruct resp as [|? resp]; [cbn in *; lia|]). auto.
  - destruct (try_get_random dr es c (firstn m (skipn 10 resp))) as [[c1 out] r].
    destruct S as [Lo S]. destruct r as [u|e|]; [|discriminate..]. injection S as -> -> ->.
    exfalso. revert F. unfold is_success, random_response.
    rewrite !app_assoc. rewrite firstn_app_exact' by (rewrite !app_length, !be_bytes_length; lia).
    rewrite <- !app_assoc.
    rewrite !app_length, !be_bytes_length.
    destruct (Nat.leb_spec 10 (2 + (4 + (4 + length out)))); [|lia]. cbn [andb].
    rewrite (app_assoc (be_bytes 2 _)), skipn_app_exact' by (rewrite app_length, !be_bytes_length; reflexivity).
    rewrite firstn_app_exact' by (rewrite be_bytes_length; reflexivity). discriminate.
Qed.

Example c47_example :
  is_success (firstn 10 (snd (fst (execute_command_separate FakeDrbg FakeEntropy fake [] (repeat xff 12))))) = false
  /\ execute_command_separate FakeDrbg FakeEntropy fake get12 (repeat xff 9) = (fake, repeat xff 9, Ok 0%nat).
Proof. vm_compute. auto. Qed.

(** ** C48 *)
(** An error never sets tag and size: what was in the buffer stays. *)
Theorem c48_tag_and_size_not_set_partial D X (dr : Drbg D) (es : EntropySource X) c k c' resp' n :
  wf_drbg dr ->
  serve dr es c k = (c', resp', Ok n) ->
  is_success (firstn n resp') = false ->
  firstn 6 resp' = firstn 6 (buffer_of k).
Proof.
  intros Hd E F. destruct (c47_errors D X dr es c k c' resp' n Hd E F) as (_ & rc & _ & H).
  destruct (length (buffer_of k) <? 10)%nat; [destruct H as [-> _]; reflexivity|apply H].
Qed.

Example c48_example :
  serve FakeDrbg FakeEntropy fake (Separate [] (repeat xff 12)) = (fake, repeat xff 6 ++ [x00; x00; x01; x42; xff; xff], Ok 10%nat)
  /\ is_success (firstn 10 (repeat xff 6 ++ [x00; x00; x01; x42; xff; xff])) = false.
Proof. vm_compute. auto. Qed.
Theorem c48_refuted :
  exists request resp resp' c',
  execute_command_separate FakeDrbg FakeEntropy fake request resp = (c', resp', Ok 10%nat)
  /\ be_val (firstn 4 (skipn 6 resp')) = 0x143
  /\ firstn 6 resp' <> be_bytes 2 0x8001 ++ be_bytes 4 10.
Proof.
  exists [x80; x01; x00; x00; x00; x0c; x00; x00; x01; x44; x00; x00], (repeat x00 16),
    (repeat x00 6 ++ [x00; x00; x01; x43] ++ repeat x00 6), fake.
  vm_compute. repeat split. discriminate.
Qed.

(** ** C51 *)
Lemma watched_wf D (dr : Drbg D) : wf_drbg dr -> wf_drbg (watched_drbg dr).
Proof.
  intros H d ai dest d' out r E. cbn in E.
  destruct (fill_bytes dr (fst d) ai dest) as [[d1 out1] r1] eqn:F. injection E as _ <- _.
  eapply H. eassumption.
Qed.

Lemma random_is_success resp out :
  is_success (firstn (10 + length out) (random_response resp out)) = true
  /\ skipn 10 (firstn (10 + length out) (random_response resp out)) = out.
Proof.
  unfold random_response. rewrite !app_assoc.
  rewrite firstn_app_exact' by (rewrite !app_length, !be_bytes_length; lia).
  rewrite <- !app_assoc. split.
  - unfold is_success. rewrite !app_length, !be_bytes_length.
    destruct (Nat.leb_spec 10 (2 + (4 + (4 + length out)))); [|lia].
    rewrite (app_assoc (be_bytes 2 _)), skipn_app_exact' by (rewrite app_length, !be_bytes_length; reflexivity).
    rewrite firstn_app_exact' by (rewrite be_bytes_length; reflexivity). reflexivity.
  - reflexivity.
Qed.

Lemma refused_no_success q resp rc : verdict_of q (length resp) = Refuse rc ->
  is_success (firstn (error_size resp) (error_response resp rc)) = false.
Proof.
  intros V. unfold error_size, error_response. destruct (Nat.ltb_spec (length resp) 10); [reflexivity|].
  assert (Rc : rc = 0x142 \/ rc = 0x143 \/ rc = 0x904).
  { revert V. unfold verdict_of. destruct (_ || _); [intros H1; injection H1 as <-; auto|].
    destruct (negb _); [intros H1; injection H1 as <-; auto|].
    destruct (_ <? 12); [intros H1; injection H1 as <-; auto|].
    destruct (Z.of_nat _ <? _); [intros H1; injection H1 as <-; auto|discriminate]. }
  unfold is_success. do 10 (destruct resp as [|? resp]; [cbn in *; lia|]).
  destruct Rc as [-> |[-> | ->]]; reflexivity.
Qed.

Lemma serve_explained D X (dr : Drbg D) (es : EntropySource X) d x log elog k c' resp n :
  wf_drbg dr ->
  serve (watched_drbg dr) (watched_source es) {| drbg := (d, log); entropy := (x, elog) |} k
    = (c', resp, Ok n) ->
  exists d' x' ev se, c' = {| drbg := (d', log ++ ev); entropy := (x', elog ++ se) |}
    /\ explains (firstn n resp) ev se.
Proof.
  intros Hd E. pose proof (watched_wf D dr Hd) as Hw.
  set (c := {| drbg := (d, log); entropy := (x, elog) |}) in *.
  assert (S : exists q r0, served (watched_drbg dr) (watched_source es) c q r0 (c', resp, Ok n)).
  { destruct k as [q r0|buf sz]; cbn [serve] in E; rewrite <- E.
    - exists q, r0. apply separate_spec. assumption.
    - exists (firstn sz buf), buf. apply in_place_spec. assumption. }
  destruct S as (q & r0 & S). unfold served in S.
  destruct (verdict_of q (length r0)) as [rc|m] eqn:V.
  - injection S as -> -> ->. exists d, x, [], []. rewrite !app_nil_r. split; [reflexivity|].
    constructor. eapply refused_no_success. eassumption.
  - destruct (try_get_random (watched_drbg dr) (watched_source es) c (firstn m (skipn 10 r0)))
      as [[c1 out] r] eqn:T.
    destruct S as [Lo S]. destruct r as [[]|e|]; [|discriminate..].
    assert (n = (10 + m)%nat) by congruence. assert (resp = random_response r0 out) by congruence.
    assert (c' = c1) by congruence. clear S E. subst n resp c1.
    apply try_draws in T. unfold c in T.
    pose proof (random_is_success r0 out) as [P1 P2]. rewrite Lo in P1, P2.
    set (f := firstn (10 + m) (random_response r0 out)) in *. clearbody f.
    clear V. set (dest := firstn m (skipn 10 r0)) in *. clearbody dest.
    inversion T as [d0 x0 dest0 d1 d2 out0 Q F|d0 x0 dest0 d1 x1 seed d2 d3 out0 Q En R F]; subst; clear T.
    + cbn in Q. destruct (requires_reseeding dr d) as [e1 b1]. injection Q as <- ->.
      cbn in F. destruct (fill_bytes dr e1 [] dest) as [[e2 o2] r2]. injection F as <- Eo ->. subst o2.
      eexists e2, x, [EvAskReseed false; EvFill [] (skipn 10 f)], []. rewrite app_nil_r, <- app_assoc.
      split; [reflexivity|]. constructor. assumption.
    + cbn in Q. destruct (requires_reseeding dr d) as [e1 b1]. injection Q as <- ->.
      cbn in En. destruct (fill_entropy es x (entropy_default dr)) as [e5 sd]. injection En as <- ->.
      cbn in R. destruct (reseed dr e1 seed []) as [e2 r2]. injection R as <- ->.
      cbn in F. destruct (fill_bytes dr e2 [] dest) as [[e3 o3] r3]. injection F as <- Eo ->. subst o3.
      eexists e3, e5, [EvAskReseed true; EvReseed seed []; EvFill [] (skipn 10 f)], [seed]. rewrite <- !app_assoc.
      split; [reflexivity|]. constructor. assumption.
Qed.

(** Everything the generator and the entropy source were asked during a
    history is explained by its responses, in order. *)
Theorem c51_history D X (dr : Drbg D) (es : EntropySource X) ks : forall d x log elog c' rs,
  wf_drbg dr ->
  serve_all (watched_drbg dr) (watched_source es) {| drbg := (d, log); entropy := (x, elog) |} ks
    = (c', rs, true) ->
  exists d' x' evs ses, c' = {| drbg := (d', log ++ evs); entropy := (x', elog ++ ses) |}
    /\ explains_all rs evs ses.
Proof.
  induction ks as [|k ks IH]; intros d x log elog c' rs Hd E; cbn [serve_all] in E.
  - injection E as <- <-. exists d, x, [], []. rewrite !app_nil_r. split; [reflexivity|constructor].
  - destruct (serve (watched_drbg dr) (watched_source es) {| drbg := (d, log); entropy := (x, elog) |} k)
      as [[c1 resp] o] eqn:K.
    destruct o as [n|e|]; [|discriminate..].
    destruct (serve_all (watched_drbg dr) (watched_source es) c1 ks) as [[c2 rs'] ok] eqn:R.
    injection E as <- <- ->.
    apply serve_explained in K; [|assumption]. destruct K as (d1 & x1 & ev & se & -> & Ex).
    apply IH in R; [|assumption]. destruct R as (d2 & x2 & evs & ses & -> & Exs).
    exists d2, x2, (ev ++ evs), (se ++ ses). rewrite !app_assoc. split; [reflexivity|].
    constructor; assumption.
Qed.

(** In particular: the payloads handed out are the outputs of [fill_bytes],
    each once and in order, and every entropy draw seeds one reseed. *)
Definition fills (l : list drbg_event) : list (list byte) :=
  flat_map (fun e => match e with EvFill _ out => [out] | _ => [] end) l.
Definition seeds (l : list drbg_event) : list (list byte) :=
  flat_map (fun e => match e with EvReseed s _ => [s] | _ => [] end) l.
Theorem c51_payloads D X (dr : Drbg D) (es : EntropySource X) ks d x c' rs :
  wf_drbg dr ->
  serve_all (watched_drbg dr) (watched_source es) {| drbg := (d, []); entropy := (x, []) |} ks
    = (c', rs, true) ->
  map (skipn 10) (filter is_success rs) = fills (snd (drbg c'))
  /\ snd (entropy c') = seeds (snd (drbg c')).
Proof.
  intros Hd E. apply c51_history in E; [|assumption].
  destruct E as (d' & x' & evs & ses & -> & Ex). cbn [drbg entropy snd app].
  induction Ex as [|r rs ev evs se ses H Ex IH]; [auto|].
  unfold fills, seeds in *. rewrite !flat_map_app. cbn [filter].
  destruct IH as [IH1 IH2]. rewrite <- IH1, IH2.
  destruct H as [resp Hf|resp Hs|resp seed Hs]; [rewrite Hf|rewrite Hs|rewrite Hs]; auto.
Qed.

(** What the generator and the source are asked by a command that ends in a
    panic: the calls of a draw, up to the one that failed. *)
Inductive failed_draw : list drbg_event -> list (list byte) -> Prop :=
| Failed_reseed seed : failed_draw [EvAskReseed true; EvReseed seed []] [seed]
| Failed_fill out : failed_draw [EvAskReseed false; EvFill [] out] []
| Failed_reseeded_fill seed out :
    failed_draw [EvAskReseed true; EvReseed seed []; EvFill [] out] [seed].

Lemma serve_failed D X (dr : Drbg D) (es : EntropySource X) d x log elog k c' resp o :
  wf_drbg dr ->
  serve (watched_drbg dr) (watched_source es) {| drbg := (d, log); entropy := (x, elog) |} k
    = (c', resp, o) -> (forall n, o <> Ok n) ->
  exists d' x' ev se, c' = {| drbg := (d', log ++ ev); entropy := (x', elog ++ se) |} /\ failed_draw ev se.
Proof.
  intros Hd E No. pose proof (watched_wf D dr Hd) as Hw.
  pose proof (serve_spec _ _ _ (watched_source es) {| drbg := (d, log); entropy := (x, elog) |} k Hw) as S.
  rewrite E in S. unfold served in S.
  destruct (verdict_of _ _) as [rc|m]; [congruence|].
  destruct (try_get_random _ _ _ _) as [[c1 out] r] eqn:T.
  destruct S as [_ S]. destruct r as [u|e|]; [congruence| |]; injection S as -> _ _; revert T;
    unfold try_get_random; cbn [drbg entropy requires_reseeding watched_drbg fst snd];
    destruct (requires_reseeding dr d) as [d1 b]; destruct b;
    cbn [drbg entropy fill_entropy watched_source entropy_default watched_drbg fst snd];
    try (destruct (fill_entropy es x (entropy_default dr)) as [x1 seed]; cbn [reseed watched_drbg fst snd];
         destruct (reseed dr d1 seed []) as [d2 [u|e1|]]);
    cbn [drbg entropy fill_bytes watched_drbg fst snd];
    try (match goal with |- context [fill_bytes dr ?a [] ?b] => destruct (fill_bytes dr a [] b) as [[d3 out3] r3] end);
    intros T; injection T; intros; subst; try discriminate; do 2 eexists;
    rewrite <- ?app_assoc; cbn [app];
    first [ eexists [_; _; _], [_]; split; [reflexivity|]; constructor
          | eexists [_; _], [_]; split; [reflexivity|]; constructor
          | eexists [_; _], []; rewrite app_nil_r; split; [reflexivity|]; constructor ].
Qed.

(** A history that a panic cuts short: the responses before it explain
    everything up to it, and the command that panicked was in the middle of a
    draw.  Refused commands never panic. *)
Theorem c51_interrupted D X (dr : Drbg D) (es : EntropySource X) ks : forall d x log elog c' rs,
  wf_drbg dr ->
  serve_all (watched_drbg dr) (watched_source es) {| drbg := (d, log); entropy := (x, elog) |} ks
    = (c', rs, false) ->
  exists d' x' evs ses last last_seed,
    c' = {| drbg := (d', log ++ evs ++ last); entropy := (x', elog ++ ses ++ last_seed) |}
    /\ explains_all rs evs ses /\ failed_draw last last_seed.
Proof.
  induction ks as [|k ks IH]; intros d x log elog c' rs Hd E; cbn [serve_all] in E; [discriminate|].
  destruct (serve (watched_drbg dr) (watched_source es) {| drbg := (d, log); entropy := (x, elog) |} k)
    as [[c1 resp] o] eqn:K.
  assert (F : (forall n, o <> Ok n) -> c1 = c' -> rs = [] -> exists d' x' evs ses last last_seed,
    c' = {| drbg := (d', log ++ evs ++ last); entropy := (x', elog ++ ses ++ last_seed) |}
    /\ explains_all rs evs ses /\ failed_draw last last_seed).
  { intros No -> ->. destruct (serve_failed D X dr es d x log elog k c' resp o Hd K No) as (d' & x' & ev & se & -> & Fd).
    exists d', x', [], [], ev, se. split; [reflexivity|]. split; [constructor|assumption]. }
  destruct o as [n|e|]; [|injection E as E1 E2; apply F; congruence..].
  destruct (serve_all (watched_drbg dr) (watched_source es) c1 ks) as [[c2 rs'] ok] eqn:R.
  injection E as <- <- ->.
  apply serve_explained in K; [|assumption]. destruct K as (d1 & x1 & ev & se & -> & Ex).
  apply IH in R; [|assumption]. destruct R as (d2 & x2 & evs & ses & l & ls & -> & Exs & Fd).
  exists d2, x2, (ev ++ evs), (se ++ ses), l, ls. rewrite <- !app_assoc. split; [reflexivity|].
  split; [constructor; assumption|assumption].
Qed.

(** Start-up: the source is drawn from twice, for the entropy input and for the
    nonce, and the generator is instantiated with them. *)
Theorem c51_startup D X (dr : Drbg D) (es : EntropySource X) :
  new (watched_drbg dr) (watched_source es)
  = let '(x1, e) := fill_entropy es (source es) (entropy_default dr) in
    let '(x2, n) := fill_entropy es x1 (nonce_default dr) in
    match instantiate dr e n [] with
    | Ok d => Ok {| drbg := (d, [EvInstantiate e n []]); entropy := (x2, [e; n]) |}
    | Err err => Err err
    | Panic => Panic
    end.
Proof.
  unfold new. cbn [fill_entropy watched_source source entropy_default watched_drbg fst snd].
  destruct (fill_entropy es (source es) (entropy_default dr)) as [x1 e]. cbn [fst snd].
  cbn [nonce_default watched_drbg].
  destruct (fill_entropy es x1 (nonce_default dr)) as [x2 n].
  cbn [instantiate watched_drbg]. destruct (instantiate dr e n []); reflexivity.
Qed.

(** Three commands: two draws with reseeding and a refused one between. *)
Example c51_example :
  let get k := [x80; x01; x00; x00; x00; x0c; x00; x00; x01; x7b; x00; k] in
  serve_all (watched_drbg NeedyDrbg) (watched_source FakeEntropy)
    {| drbg := (5, []); entropy := (tt, []) |}
    [Separate (get x01) (repeat xff 11); Separate (get x02) (repeat xff 11);
     InPlace (get x02) 12]
  = ({| drbg := (7, [EvAskReseed true; EvReseed [x00; x01] []; EvFill [] [x06];
                     EvAskReseed true; EvReseed [x00; x01] []; EvFill [] [x07; x07]]);
        entropy := (tt, [[x00; x01]; [x00; x01]]) |},
     [[x80; x01; x00; x00; x00; x0b; x00; x00; x00; x00; x06];
      [xff; xff; xff; xff; xff; xff; x00; x00; x09; x04];
      [x80; x01; x00; x00; x00; x0c; x00; x00; x00; x00; x07; x07]], true).
Proof. vm_compute. reflexivity. Qed.

(** ** C57 *)
(** A generator failure always ends in a panic, never in a response. *)
Theorem c57_failure_panics_partial D X (dr : Drbg D) (es : EntropySource X) c k n :
  wf_drbg dr -> asks_for (request_of k) n -> 10 + n <= Z.of_nat (length (buffer_of k)) ->
  (~ exists c' out, draws dr es c (firstn (Z.to_nat n) (skipn 10 (buffer_of k))) c' out) ->
  snd (serve dr es c k) = Panic.
Proof.
  intros Hd A L N. pose proof (serve_spec D X dr es c k Hd) as S.
  set (request := request_of k) in *. set (resp := buffer_of k) in *. clearbody request resp. unfold served in S.
  rewrite (asks_for_verdict _ _ _ A) in S.
  destruct (Z.ltb_spec (Z.of_nat (length resp)) (10 + n)); [lia|].
  destruct (try_get_random dr es c (firstn (Z.to_nat n) (skipn 10 resp))) as [[c' out] r] eqn:T.
  destruct S as [_ S]. destruct r as [[]|e|]; [|rewrite S; reflexivity..].
  exfalso. apply N. exists c', out. apply try_draws. assumption.
Qed.

Definition BrokenDrbg : Drbg Z := {|
  entropy_default := []; nonce_default := [];
  instantiate := fun _ _ _ => Ok 0;
  reseed := fun d _ _ => (d, Err tt);
  next_u32 := fun d _ => (d, Err tt);
  next_u64 := fun d _ => (d, Err tt);
  fill_bytes := fun d _ dest => (d, dest, Err tt);
  requires_reseeding := fun d => (d, false)
|}.
Theorem c57_refuted :
  wf_drbg BrokenDrbg
  /\ snd (execute_command_separate BrokenDrbg FakeEntropy fake get12 (repeat x00 32)) = Panic.
Proof.
  split; [|reflexivity]. intros d ai dest d' out r H. cbn in H. injection H as _ <- _. reflexivity.
Qed.

Example c57_example :
  serve_all (watched_drbg BrokenDrbg) (watched_source FakeEntropy)
    {| drbg := (0, []); entropy := (tt, []) |}
    [Separate [x80; x01] (repeat xff 10); Separate get12 (repeat xff 22); Separate get12 (repeat xff 22)]
  = ({| drbg := (0, [EvAskReseed false; EvFill [] (repeat xff 12)]); entropy := (tt, []) |},
     [[xff; xff; xff; xff; xff; xff; x00; x00; x01; x42]], false).
Proof. vm_compute. reflexivity. Qed.

(** And only then: a command never panics unless it is a GetRandom that has to
    be served and the generator cannot. *)
Theorem c57_exactly_when_partial D X (dr : Drbg D) (es : EntropySource X) c k :
  wf_drbg dr ->
  (snd (serve dr es c k) = Panic
   <-> exists n, asks_for (request_of k) n /\ 10 + n <= Z.of_nat (length (buffer_of k))
       /\ ~ exists c' out, draws dr es c (firstn (Z.to_nat n) (skipn 10 (buffer_of k))) c' out)
  /\ snd (serve dr es c k) <> Err tt.
Proof.
  intros Hd. assert (H : snd (serve dr es c k) = Panic ->
    exists n, asks_for (request_of k) n /\ 10 + n <= Z.of_nat (length (buffer_of k))
       /\ ~ exists c' out, draws dr es c (firstn (Z.to_nat n) (skipn 10 (buffer_of k))) c' out).
  { pose proof (serve_spec D X dr es c k Hd) as S.
    set (request := request_of k) in *. set (resp := buffer_of k) in *. clearbody request resp. unfold served in S.
    intros P. destruct (serve dr es c k) as [[c1 r1] o]. cbn in P. subst o.
    destruct (verdict_of request (length resp)) as [rc|m] eqn:V; [discriminate|].
    exists (count_field request). revert V. unfold verdict_of.
    destruct (Z.ltb_spec (Z.of_nat (length request)) 10); [discriminate|]. cbn [orb].
    destruct (Z.eqb_spec (size_field request) (Z.of_nat (length request))); [|discriminate]. cbn [negb].
    destruct (Z.eqb_spec (code_field request) 0x17B); [|discriminate]. cbn [negb].
    destruct (Z.ltb_spec (Z.of_nat (length request)) 12); [discriminate|].
    destruct (Z.ltb_spec (Z.of_nat (length resp)) (10 + count_field request)); [discriminate|].
    intros V. injection V as <-. repeat split; try assumption.
    intros (c' & out & Dr). apply try_draws in Dr. rewrite Dr in S. destruct S as [_ S]. discriminate. }
  split; [split; [exact H|]|].
  - intros (n & A & L & N). eapply c57_failure_panics_partial; eassumption.
  - pose proof (serve_spec D X dr es c k Hd) as S. unfold served in S.
    destruct (verdict_of _ _); [rewrite S; discriminate|].
    destruct (try_get_random _ _ _ _) as [[c1 out] r]. destruct S as [_ S].
    rewrite S. destruct r; discriminate.
Qed.

(** ** C58 *)
(** What is not looked at: the tag, and everything behind the count. *)
Theorem c58_ignored_partial D X (dr : Drbg D) (es : EntropySource X) c request request' resp :
  wf_drbg dr ->
  12 <= Z.of_nat (length request) -> size_field request = Z.of_nat (length request) ->
  12 <= Z.of_nat (length request') -> size_field request' = Z.of_nat (length request') ->
  firstn 6 (skipn 6 request) = firstn 6 (skipn 6 request') ->
  execute_command_separate dr es c request resp = execute_command_separate dr es c request' resp.
Proof.
  intros Hd L S L' S' E.
  assert (Ec : code_field request = code_field request').
  { unfold code_field. apply (f_equal (firstn 4)) in E. rewrite !firstn_firstn in E.
    change (Nat.min 4 6) with 4%nat in E. rewrite E. reflexivity. }
  assert (En : count_field request = count_field request').
  { unfold count_field. apply (f_equal (skipn 4)) in E. rewrite !skipn_firstn_comm, !skipn_skipn' in E.
    change (6 - 4)%nat with 2%nat in E. change (6 + 4)%nat with 10%nat in E. rewrite E. reflexivity. }
  assert (V : verdict_of request (length resp) = verdict_of request' (length resp)).
  { unfold verdict_of. rewrite S, S', Ec, En, !Z.eqb_refl.
    destruct (Z.ltb_spec (Z.of_nat (length request)) 10); [lia|].
    destruct (Z.ltb_spec (Z.of_nat (length request')) 10); [lia|].
    destruct (Z.ltb_spec (Z.of_nat (length request)) 12); [lia|].
    destruct (Z.ltb_spec (Z.of_nat (length request')) 12); [lia|]. reflexivity. }
  pose proof (separate_spec dr es Hd c request resp) as P.
  pose proof (separate_spec dr es Hd c request' resp) as P'.
  unfold served in P, P'. rewrite V in P. destruct (verdict_of request' (length resp)) as [rc|n].
  - congruence.
  - destruct (try_get_random dr es c (firstn n (skipn 10 resp))) as [[c' out] r].
    destruct P as [_ ->]. destruct P' as [_ ->]. reflexivity.
Qed.

(** The same of any two calls, separate or in place, with buffers of the same
    length: generator, source, size and response from the code on are the same,
    and a success response is the same in all its bytes. *)
Theorem c58_ignored_calls_partial D X (dr : Drbg D) (es : EntropySource X) c k k' :
  wf_drbg dr -> ignores_contents dr -> length (buffer_of k') = length (buffer_of k) ->
  12 <= Z.of_nat (length (request_of k)) -> size_field (request_of k) = Z.of_nat (length (request_of k)) ->
  12 <= Z.of_nat (length (request_of k')) -> size_field (request_of k') = Z.of_nat (length (request_of k')) ->
  firstn 6 (skipn 6 (request_of k)) = firstn 6 (skipn 6 (request_of k')) ->
  let '(c1, r1, o1) := serve dr es c k in
  let '(c2, r2, o2) := serve dr es c k' in
  c1 = c2 /\ o1 = o2
  /\ forall n, o1 = Ok n ->
       skipn 6 (firstn n r1) = skipn 6 (firstn n r2)
       /\ (is_success (firstn n r1) = true -> firstn n r1 = firstn n r2).
Proof.
  intros Hd Hi Hl L S L' S' E.
  pose proof (serve_spec D X dr es c k Hd) as P.
  pose proof (separate_spec dr es Hd c (request_of k) (buffer_of k')) as P1.
  pose proof (c58_ignored_partial D X dr es c (request_of k) (request_of k') (buffer_of k') Hd L S L' S' E) as Q.
  pose proof (serve_spec D X dr es c k' Hd) as P'.
  pose proof (separate_spec dr es Hd c (request_of k') (buffer_of k')) as P2.
  pose proof (served_agree D X dr es c (request_of k) (buffer_of k) (buffer_of k') _ _ Hi Hl P P1) as A.
  pose proof (served_agree D X dr es c (request_of k') (buffer_of k') (buffer_of k') _ _ Hi eq_refl P2 P') as B.
  rewrite Q in A.
  destruct (serve dr es c k) as [[c1 r1] o1]. destruct (serve dr es c k') as [[c2 r2] o2].
  destruct (execute_command_separate dr es c (request_of k') (buffer_of k')) as [[c3 r3] o3].
  destruct A as (A1 & A2 & A3), B as (B1 & B2 & B3). split; [congruence|]. split; [congruence|].
  intros n On. destruct (A3 n On) as [A4 A5]. assert (On3 : o3 = Ok n) by congruence.
  destruct (B3 n On3) as [B4 B5]. split; [congruence|]. intros Hs.
  unfold is_success in Hs. apply andb_true_iff in Hs as [Hn H0]. apply Nat.leb_le in Hn. apply Z.eqb_eq in H0.
  rewrite firstn_length in Hn. rewrite skipn_firstn_comm, firstn_firstn, Nat.min_l in H0 by lia.
  assert (Z0 : forall l, (10 <= length l)%nat -> be_val (firstn 4 (skipn 6 l)) = 0 -> firstn 4 (skipn 6 l) = be_bytes 4 0).
  { intros l Hl' Hz. rewrite <- Hz. rewrite <- (be_bytes_val (firstn 4 (skipn 6 l))) at 1.
    rewrite firstn_length, skipn_length, Nat.min_l by lia. reflexivity. }
  assert (A6 : firstn n r1 = firstn n r3) by (apply A5; [apply Z0; [lia|exact H0]|lia]).
  assert (L3 : (10 <= length r3)%nat).
  { apply (f_equal (@length byte)) in A6. rewrite !firstn_length in A6. lia. }
  rewrite A6. apply B5; [|lia]. apply Z0; [exact L3|].
  apply (f_equal (fun l => firstn 4 (skipn 6 l))) in A6.
  rewrite !skipn_firstn_comm, !firstn_firstn, !Nat.min_l in A6 by lia. rewrite <- A6. exact H0.
Qed.

(** Two such requests. *)
Example c58_example :
  let stray := [xde; xad; x00; x00; x00; x0e; x00; x00; x01; x7b; x00; x0c; xbe; xef] in
  size_field stray = Z.of_nat (length stray) /\ size_field get12 = Z.of_nat (length get12)
  /\ firstn 6 (skipn 6 stray) = firstn 6 (skipn 6 get12)
  /\ execute_command_separate FakeDrbg FakeEntropy fake stray (repeat xff 24)
     = execute_command_separate FakeDrbg FakeEntropy fake get12 (repeat xff 24)
  /\ request_of (InPlace (stray ++ repeat xff 10) 14) = stray
  /\ is_success (firstn 22 (snd (fst (serve FakeDrbg FakeEntropy fake (InPlace (stray ++ repeat xff 10) 14))))) = true
  /\ firstn 22 (snd (fst (serve FakeDrbg FakeEntropy fake (InPlace (stray ++ repeat xff 10) 14))))
     = firstn 22 (snd (fst (serve FakeDrbg FakeEntropy fake (Separate get12 (repeat xff 24))))).
Proof. vm_compute. repeat split. Qed.
(** A request with sessions tag, and one with four stray bytes, are served. *)
Theorem c58_refuted :
  exists with_sessions with_stray,
  firstn 2 with_sessions = be_bytes 2 0x8002
  /\ with_stray = [x80; x01; x00; x00; x00; x10; x00; x00; x01; x7b; x00; x01; xde; xad; xbe; xef]
  /\ is_success (firstn 22 (snd (fst (execute_command_separate FakeDrbg FakeEntropy fake with_sessions (repeat x00 32))))) = true
  /\ is_success (firstn 11 (snd (fst (execute_command_separate FakeDrbg FakeEntropy fake with_stray (repeat x00 32))))) = true.
Proof.
  exists (be_bytes 2 0x8002 ++ skipn 2 get12),
    [x80; x01; x00; x00; x00; x10; x00; x00; x01; x7b; x00; x01; xde; xad; xbe; xef].
  vm_compute. auto.
Qed.
