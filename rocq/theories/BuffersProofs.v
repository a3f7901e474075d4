(** The server over arbitrary lawful buffers (Buffers.v) simulates the server
    over slices (Server.v). *)
From Coq Require Import ZArith NArith List Lia Bool.
From Coq Require Import Init.Byte.
From Verif Require Import Prelude Errors Server ServerSpec Buffers BuffersSpec.
Import ListNotations.
Open Scope Z_scope.

Lemma slice_at bs offset n : (offset + n <= length bs)%nat ->
  bytes_at bs offset n (firstn n (skipn offset bs)).
Proof.
  intros H. exists (firstn offset bs), (skipn n (skipn offset bs)).
  rewrite !firstn_skipn. repeat split; rewrite ?firstn_length, ?skipn_length; lia.
Qed.
Lemma at_slice bs offset n out : bytes_at bs offset n out -> out = firstn n (skipn offset bs).
Proof.
  intros (a & b & -> & <- & <-). rewrite skipn_app_exact, firstn_app_exact. reflexivity.
Qed.
Lemma at_le bs offset n out : bytes_at bs offset n out -> (offset + n <= length bs)%nat.
Proof. intros (a & b & -> & <- & <-). rewrite !app_length. lia. Qed.
Lemma put_slice bs offset data bs' : put_at bs offset data bs' ->
  bs' = firstn offset bs ++ data ++ skipn (offset + length data) bs.
Proof.
  intros (a & o & b & -> & -> & <- & E). rewrite firstn_app_exact.
  replace (skipn (length a + length data) (a ++ o ++ b)) with b; [reflexivity|].
  rewrite <- E, <- app_length, app_assoc, skipn_app_exact. reflexivity.
Qed.

(** The reading methods, as the slice has them. *)
Lemma read_u16_spec {R} (ri : read_buffer R) content r offset : reads ri content ->
  read_u16 ri r offset = match slice_read (content r) offset 2 with Some bs => Ok (be_val bs) | None => Err tt end.
Proof.
  intros (_ & _ & _ & H). destruct (H r offset) as (H1 & H2 & _). unfold slice_read.
  destruct (Nat.leb_spec (offset + 2) (length (content r))) as [L|L]; [apply H1, slice_at, L|apply H2, L].
Qed.
Lemma read_u32_spec {R} (ri : read_buffer R) content r offset : reads ri content ->
  read_u32 ri r offset = match slice_read (content r) offset 4 with Some bs => Ok (be_val bs) | None => Err tt end.
Proof.
  intros (_ & _ & _ & H). destruct (H r offset) as (_ & _ & H1 & H2). unfold slice_read.
  destruct (Nat.leb_spec (offset + 4) (length (content r))) as [L|L]; [apply H1, slice_at, L|apply H2, L].
Qed.
Lemma read_into_spec {R} (ri : read_buffer R) content r offset out : reads ri content ->
  read_into ri r offset out
  = match slice_read (content r) offset (length out) with Some bs => Ok bs | None => Err tt end.
Proof.
  intros (_ & H1 & H2 & _). unfold slice_read.
  destruct (Nat.leb_spec (offset + length out) (length (content r))) as [L|L]; [|apply H2, L].
  destruct (H1 r offset out L) as (bs & -> & E). apply at_slice in E. now rewrite E.
Qed.
Lemma write_spec {W} (wi : write_buffer W) content w offset data : writes wi content ->
  exists w', match slice_write (content w) offset data with
             | Some bs => write wi w offset data = (w', Ok tt) /\ content w' = bs
             | None => write wi w offset data = (w', Err tt) /\ content w' = content w
             end.
Proof.
  intros (_ & H1 & H2 & _). unfold slice_write.
  destruct (Nat.leb_spec (offset + length data) (length (content w))) as [L|L]; [|apply H2, L].
  destruct (H1 w offset data L) as (w' & E & P). exists w'. split; [exact E|].
  apply put_slice in P. rewrite P. unfold overwrite. now rewrite skipn_skipn'.
Qed.

(** A pair of buffers and what it stands for. *)
Record stands {B W S} (bb : both B W) (content : W -> list byte) (sb : buffers S) (sim : B -> S -> Prop) : Prop := {
  st_len : forall b s, sim b s -> len (request bb) b = request_len sb s;
  st_16 : forall b s offset, sim b s -> read_u16 (request bb) b offset
    = match request_read sb s offset 2 with Some bs => Ok (be_val bs) | None => Err tt end;
  st_32 : forall b s offset, sim b s -> read_u32 (request bb) b offset
    = match request_read sb s offset 4 with Some bs => Ok (be_val bs) | None => Err tt end;
  st_get : forall b s, sim b s -> content (get_response bb b) = response sb s;
  st_put : forall b s w, sim b s -> sim (put_response bb b w) (set_response sb s (content w));
  st_set : forall s r, response sb (set_response sb s r) = r;
  st_set2 : forall s r r', set_response sb (set_response sb s r) r' = set_response sb s r';
  st_same : forall s, set_response sb s (response sb s) = s
}.

Section Sim.
Context {D X B W S : Type} (dr : Drbg D) (es : EntropySource X) (bb : both B W) (wi : write_buffer W)
  (content : W -> list byte) (sb : buffers S) (sim : B -> S -> Prop).
Hypothesis Hst : stands bb content sb sim.
Hypothesis Hw : writes wi content.
Hypothesis Hd : wf_drbg dr.
Hypothesis Hi : ignores_contents dr.

Definition csim (c1 : cursor B) (c2 : cursor S) : Prop :=
  sim (bufs c1) (bufs c2) /\ request_offset c1 = request_offset c2 /\ response_offset c1 = response_offset c2.

Lemma take_sim (k : nat) (read : B -> nat -> outcome unit Z) c1 c2 :
  (forall b s offset, sim b s -> read b offset
     = match request_read sb s offset k with Some bs => Ok (be_val bs) | None => Err tt end) ->
  csim c1 c2 ->
  match @take B k read c1, read_be sb k c2 with
  | Ok (Some (z1, c1)), Some (z2, c2) => z1 = z2 /\ csim c1 c2
  | Ok None, None => True
  | _, _ => False
  end.
Proof.
  intros H (H1 & H2 & H3). unfold take, read_be. rewrite (H _ (bufs c2)) by exact H1. rewrite H2.
  destruct (request_read sb (bufs c2) (request_offset c2) k); [|exact I].
  split; [reflexivity|]. repeat split; cbn; congruence.
Qed.

Lemma callback_length c dest : length (snd (get_random_or_failure dr es c dest)) = length dest.
Proof.
  unfold get_random_or_failure, try_get_random.
  destruct (requires_reseeding dr (drbg c)) as [d1 [|]].
  - destruct (fill_entropy es (entropy c) (entropy_default dr)) as [x seed].
    destruct (reseed dr d1 seed []) as [d2 [u|e|]]; try reflexivity.
    cbn [drbg entropy]. destruct (fill_bytes dr d2 [] dest) as [[d3 out] r] eqn:E.
    apply Hd in E. destruct r; exact E.
  - cbn [drbg entropy]. destruct (fill_bytes dr d1 [] dest) as [[d3 out] r] eqn:E.
    apply Hd in E. destruct r; exact E.
Qed.
Lemma callback_same c dest1 dest2 : length dest1 = length dest2 ->
  fst (get_random_or_failure dr es c dest1) = fst (get_random_or_failure dr es c dest2)
  /\ (snd (fst (get_random_or_failure dr es c dest1)) <> Panic ->
      snd (get_random_or_failure dr es c dest1) = snd (get_random_or_failure dr es c dest2)).
Proof.
  intros L. unfold get_random_or_failure, try_get_random.
  destruct (requires_reseeding dr (drbg c)) as [d1 [|]].
  - destruct (fill_entropy es (entropy c) (entropy_default dr)) as [x seed].
    destruct (reseed dr d1 seed []) as [d2 [u|e|]]; cbn; try (split; congruence).
    rewrite (Hi d2 [] dest1 dest2 L). auto.
  - cbn. rewrite (Hi d1 [] dest1 dest2 L). auto.
Qed.

Lemma get_random_sim c c1 c2 : csim c1 c2 ->
  let '(c', c1', r) := get_random_any dr es bb wi c c1 in
  let '(c'', c2', r') := get_random dr es sb c c2 in
  c' = c'' /\ r = r' /\ (r <> Panic -> csim c1' c2').
Proof.
  intros H. unfold get_random_any, get_random, read_be_u16.
  pose proof (take_sim 2 (read_u16 (request bb)) c1 c2 (st_16 _ _ _ _ Hst) H) as T.
  destruct (@take B 2 _ c1) as [[[z1 k1]|]|e|]; destruct (read_be sb 2 c2) as [[z2 k2]|]; try contradiction.
  2:{ split; [reflexivity|]. split; [reflexivity|]. intros _. exact H. }
  destruct T as [-> (S1 & S2 & S3)]. unfold write_callback, slice_write_callback.
  rewrite <- (st_get _ _ _ _ Hst _ _ S1), S3. set (n := Z.to_nat z2).
  destruct Hw as (_ & _ & _ & C1 & C2).
  destruct (Nat.leb_spec (response_offset k2 + n) (length (content (get_response bb (bufs k1))))) as [L|L].
  - destruct (C1 _ _ _ n (get_random_or_failure dr es c) L) as (w & dest & Ld & E & P).
    { intros dest <-. apply callback_length. }
    rewrite E. clear E.
    set (slice := firstn n (skipn (response_offset k2) (content (get_response bb (bufs k1))))) in *.
    assert (Ls : length slice = n) by (unfold slice; rewrite firstn_length, skipn_length; lia).
    destruct (callback_same c dest slice ltac:(lia)) as [E1 E2].
    destruct (get_random_or_failure dr es c dest) as [[c' r] out].
    assert (Lo := callback_length c slice).
    destruct (get_random_or_failure dr es c slice) as [[c'' r'] out']. cbn [fst snd] in *.
    injection E1 as <- <-. split; [reflexivity|]. split; [reflexivity|]. intros Hr. specialize (E2 Hr). subst out'.
    apply put_slice in P. rewrite Lo, Ls in P.
    split; [cbn [bufs]; rewrite <- P; now apply (st_put _ _ _ _ Hst)|]. cbn. lia.
  - destruct (C2 _ _ _ n (get_random_or_failure dr es c) L) as (w & E & P). rewrite E.
    split; [reflexivity|]. split; [reflexivity|]. intros _. repeat split; cbn; try congruence.
    rewrite <- (st_same _ _ _ _ Hst (bufs k2)), <- (st_get _ _ _ _ Hst _ _ S1), <- P.
    now apply (st_put _ _ _ _ Hst).
Qed.

Lemma execute_sim c b s : sim b s ->
  let '(c', b', r) := execute_any dr es bb wi c b in
  let '(c'', s', r') := execute_command dr es sb c s in
  c' = c'' /\ r = r' /\ (r <> Panic -> content (get_response bb b') = response sb s').
Proof.
  intros H. unfold execute_any, execute_command. rewrite (st_len _ _ _ _ Hst _ _ H).
  set (k1 := {| bufs := b; request_offset := 0; response_offset := 10 |}).
  set (k2 := {| bufs := s; request_offset := 0; response_offset := 10 |}).
  assert (K : csim k1 k2) by (repeat split; assumption). clearbody k1 k2.
  unfold read_be_u16, read_be_u32. pose proof (st_get _ _ _ _ Hst _ _ H) as Hg.
  pose proof (take_sim 2 (read_u16 (request bb)) k1 k2 (st_16 _ _ _ _ Hst) K) as T.
  destruct (@take B 2 _ k1) as [[[z1 k1']|]|e|]; destruct (read_be sb 2 k2) as [[z2 k2']|]; try contradiction; auto.
  destruct T as [_ K']. clear K k1 k2 z1 z2.
  pose proof (take_sim 4 (read_u32 (request bb)) k1' k2' (st_32 _ _ _ _ Hst) K') as T.
  destruct (@take B 4 _ k1') as [[[z1 k1]|]|e|]; destruct (read_be sb 4 k2') as [[z2 k2]|]; try contradiction; auto.
  destruct T as [-> K]. clear K' k1' k2'. destruct (negb _); auto.
  pose proof (take_sim 4 (read_u32 (request bb)) k1 k2 (st_32 _ _ _ _ Hst) K) as T.
  destruct (@take B 4 _ k1) as [[[z1 k1']|]|e|]; destruct (read_be sb 4 k2) as [[z3 k2']|]; try contradiction; auto.
  destruct T as [-> K']. clear K k1 k2 z2.
  assert (G : let '(c', c1', r) := if z3 =? cc_GetRandom then get_random_any dr es bb wi c k1'
                                   else (c, k1', Err rc_CommandCode) in
              let '(c'', c2', r') := if z3 =? cc_GetRandom then get_random dr es sb c k2'
                                     else (c, k2', Err rc_CommandCode) in
              c' = c'' /\ r = r' /\ (r <> Panic -> csim c1' c2')).
  { destruct (z3 =? cc_GetRandom); [apply get_random_sim, K'|]. auto. }
  destruct (if z3 =? cc_GetRandom then get_random_any dr es bb wi c k1' else _) as [[c' c1'] r].
  destruct (if z3 =? cc_GetRandom then get_random dr es sb c k2' else _) as [[c'' c2'] r'].
  destruct G as (<- & <- & G).
  destruct r as [[]|e|]; [| |split; [reflexivity|split; [reflexivity|congruence]]].
  2:{ split; [reflexivity|]. split; [reflexivity|]. intros _.
      apply (st_get _ _ _ _ Hst). apply G. discriminate. }
  destruct (G ltac:(discriminate)) as (S1 & S2 & S3). rewrite S3.
  pose proof (st_get _ _ _ _ Hst _ _ S1) as E0. rewrite <- E0.
  destruct (write_spec wi content (get_response bb (bufs c1')) 0 (be_bytes 2 0x8001) Hw) as (w1 & P1).
  destruct (slice_write (content (get_response bb (bufs c1'))) 0 (be_bytes 2 0x8001)) as [r1|].
  2:{ destruct P1 as [-> P1]. split; [reflexivity|]. split; [reflexivity|]. intros _.
      rewrite (st_get _ _ _ _ Hst _ (set_response sb (bufs c2') (content w1)))
        by (apply (st_put _ _ _ _ Hst), S1).
      rewrite (st_set _ _ _ _ Hst). congruence. }
  destruct P1 as [-> <-].
  destruct (write_spec wi content w1 2 (be_bytes 4 (Z.of_nat (response_offset c2') mod 2 ^ 32)) Hw) as (w2 & P2).
  destruct (slice_write (content w1) 2 _) as [r2|].
  2:{ destruct P2 as [-> P2]. split; [reflexivity|]. split; [reflexivity|]. intros _.
      rewrite (st_get _ _ _ _ Hst _ (set_response sb (bufs c2') (content w2)))
        by (apply (st_put _ _ _ _ Hst), S1).
      rewrite !(st_set _ _ _ _ Hst). congruence. }
  destruct P2 as [-> <-].
  destruct (write_spec wi content w2 6 (be_bytes 4 0) Hw) as (w3 & P3).
  destruct (slice_write (content w2) 6 _) as [r3|].
  - destruct P3 as [-> <-]. split; [reflexivity|]. split; [reflexivity|]. intros _.
    apply (st_get _ _ _ _ Hst), (st_put _ _ _ _ Hst), S1.
  - destruct P3 as [-> P3]. split; [reflexivity|]. split; [reflexivity|]. intros _.
    rewrite (st_get _ _ _ _ Hst _ (set_response sb (bufs c2') (content w3)))
      by (apply (st_put _ _ _ _ Hst), S1).
    rewrite !(st_set _ _ _ _ Hst). congruence.
Qed.

Lemma answer_sim c b s : sim b s ->
  let '(c', w, r) := answer_any dr es bb wi c b in
  let '(c'', s', r') := execute_command dr es sb c s in
  c' = c''
  /\ match r' with
     | Ok n => r = Ok n /\ content w = response sb s'
     | Err e => r = Ok (snd (fill_error (response sb s') e)) /\ content w = fst (fill_error (response sb s') e)
     | Panic => r = Panic
     end.
Proof.
  intros H. unfold answer_any. pose proof (execute_sim c b s H) as E.
  destruct (execute_any dr es bb wi c b) as [[c' b'] r].
  destruct (execute_command dr es sb c s) as [[c'' s'] r'].
  destruct E as (<- & <- & E). destruct r as [n|e|].
  - split; [reflexivity|]. split; [reflexivity|]. apply E. discriminate.
  - specialize (E ltac:(discriminate)). unfold fill_error_any, fill_error. rewrite <- E.
    destruct (write_spec wi content (get_response bb b') 6 (be_bytes 4 e) Hw) as (w & P).
    destruct (slice_write _ 6 _); destruct P as [-> P]; auto.
  - auto.
Qed.
End Sim.

Lemma separate_stands {R W} (ri : read_buffer R) rc (content : W -> list byte) : reads ri rc ->
  stands (separate_both ri) content separate (fun b s => rc (fst b) = fst s /\ content (snd b) = snd s).
Proof.
  intros H. split; cbn; try reflexivity; intros.
  - destruct H0 as [<- _]. apply H.
  - destruct H0 as [<- _]. now apply read_u16_spec.
  - destruct H0 as [<- _]. now apply read_u32_spec.
  - apply H0.
  - split; [apply H0|reflexivity].
  - destruct s; reflexivity.
Qed.
Lemma inout_stands {W} (wi : write_buffer W) (content : W -> list byte) : reads (reading wi) content ->
  stands (inout_both wi) content inout (fun b s => content (fst b) = fst s /\ snd b = snd s).
Proof.
  intros H. split; cbn; try reflexivity; intros.
  - apply H0.
  - destruct H0 as [<- <-]. unfold provided. cbn [repeat length].
    match goal with |- context [if ?c then None else _] => destruct c end; [reflexivity|].
    rewrite (read_into_spec _ content) by exact H.
    cbn [length]. destruct (slice_read _ _ _); reflexivity.
  - destruct H0 as [<- <-]. unfold provided. cbn [repeat length].
    match goal with |- context [if ?c then None else _] => destruct c end; [reflexivity|].
    rewrite (read_into_spec _ content) by exact H.
    cbn [length]. destruct (slice_read _ _ _); reflexivity.
  - apply H0.
  - split; [reflexivity|apply H0].
  - destruct s; reflexivity.
Qed.

Lemma separate_any_sim {D X R W} (dr : Drbg D) (es : EntropySource X) (ri : read_buffer R) (wi : write_buffer W)
    rcont wcont c r w :
  reads ri rcont -> writes wi wcont -> wf_drbg dr -> ignores_contents dr ->
  let '(c', w', o) := separate_any dr es ri wi c r w in
  let '(c'', resp, o') := execute_command_separate dr es c (rcont r) (wcont w) in
  c' = c'' /\ o = o' /\ (o <> Panic -> wcont w' = resp).
Proof.
  intros Hr Hw Hd Hi. unfold separate_any, execute_command_separate.
  pose proof (answer_sim dr es (separate_both ri) wi wcont separate _ (separate_stands ri rcont wcont Hr)
                Hw Hd Hi c (r, w) (rcont r, wcont w) (conj eq_refl eq_refl)) as A.
  destruct (answer_any dr es (separate_both ri) wi c (r, w)) as [[c' w'] o].
  destruct (execute_command dr es separate c (rcont r, wcont w)) as [[c'' s'] r'].
  destruct A as [<- A]. cbn [response separate] in A. destruct r' as [n|e|].
  - destruct A as [-> A]. auto.
  - destruct A as [-> A]. destruct (fill_error (snd s') e) as [resp n]. auto.
  - subst o. split; [reflexivity|]. split; [reflexivity|congruence].
Qed.
Lemma in_place_any_sim {D X W} (dr : Drbg D) (es : EntropySource X) (wi : write_buffer W)
    wcont c w request_size :
  writes wi wcont -> wf_drbg dr -> ignores_contents dr ->
  let '(c', w', o) := in_place_any dr es wi c w request_size in
  let '(c'', resp, o') := execute_command_in_place dr es c (wcont w) request_size in
  c' = c'' /\ o = o' /\ (o <> Panic -> wcont w' = resp).
Proof.
  intros Hw Hd Hi. unfold in_place_any, execute_command_in_place.
  assert (Hr : reads (reading wi) wcont) by apply Hw.
  pose proof (answer_sim dr es (inout_both wi) wi wcont inout _ (inout_stands wi wcont Hr)
                Hw Hd Hi c (inout_both_new wi w request_size) (inout_new (wcont w) request_size)) as A.
  unfold inout_both_new at 1, inout_new at 1 in A. cbn [fst snd] in A.
  rewrite (proj1 Hr w) in A at 1. specialize (A (conj eq_refl eq_refl)).
  destruct (answer_any dr es (inout_both wi) wi c _) as [[c' w'] o].
  destruct (execute_command dr es inout c _) as [[c'' s'] r'].
  destruct A as [<- A]. cbn [response inout] in A. destruct r' as [n|e|].
  - destruct A as [-> A]. auto.
  - destruct A as [-> A]. destruct (fill_error (fst s') e) as [resp n]. auto.
  - subst o. split; [reflexivity|]. split; [reflexivity|congruence].
Qed.
