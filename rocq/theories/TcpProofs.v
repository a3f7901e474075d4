(** Proofs about the TCP connection. *)
From Coq Require Import ZArith NArith List Lia Bool.
From Coq Require Import Init.Byte.
From Verif Require Import Prelude Client Tcp TcpSpec.
Import ListNotations.
Open Scope Z_scope.

Section Talks.
Context {W H C : Type} (sys : world W H C) (Hw : wf_world sys).
Notation log := (list (event H C)).

(** [m] says a prefix of [req], all of it if it succeeds, and then the record
    of it is [good]. *)
Definition talks {A} (m : io (W * log) A) (req : log) (good : A -> log -> Prop) : Prop :=
  forall w l, exists w' ext r, m (w, l) = ((w', l ++ ext), r)
    /\ (exists more, said ext ++ more = req)
    /\ (forall a, r = Ok a -> said ext = req /\ good a ext).

Lemma said_app (a b : log) : said (a ++ b) = said a ++ said b.
Proof. apply filter_app. Qed.
Lemma said_send h bs : @said H C (send h bs) = send h bs.
Proof. unfold said, send. induction bs; cbn; congruence. Qed.
Lemma said_receive h bs : @said H C (receive h bs) = [].
Proof. unfold said, receive. induction bs; cbn; congruence. Qed.

Lemma talks_ret {A} (a : A) : talks (io_ret a) [] (fun b e => b = a /\ e = []).
Proof.
  intros w l. exists w, [], (Ok a). rewrite app_nil_r. split; [reflexivity|].
  split; [exists []; reflexivity|]. intros b E. injection E as <-. auto.
Qed.
Lemma talks_err {A} e req (good : A -> log -> Prop) : talks (io_err e) req good.
Proof.
  intros w l. exists w, [], (Err e). rewrite app_nil_r. split; [reflexivity|].
  split; [exists req; reflexivity|discriminate].
Qed.
Lemma talks_bind {A B} (m : io (W * log) A) (f : A -> io (W * log) B) req1 req2 g1 g2 :
  talks m req1 g1 -> (forall a, talks (f a) req2 (g2 a)) ->
  talks (m >>= f) (req1 ++ req2) (fun b e => exists a e1 e2, e = e1 ++ e2 /\ g1 a e1 /\ g2 a b e2).
Proof.
  intros Hm Hf w l. unfold io_bind. destruct (Hm w l) as (w1 & e1 & r1 & -> & (more & Hp) & Hg).
  destruct r1 as [a|e|].
  - destruct (Hg a eq_refl) as [S1 G1]. destruct (Hf a w1 (l ++ e1)) as (w2 & e2 & r2 & -> & (more2 & Hp2) & Hg2).
    exists w2, (e1 ++ e2), r2. rewrite app_assoc. split; [reflexivity|]. split.
    + exists more2. rewrite said_app, S1, <- app_assoc, Hp2. reflexivity.
    + intros b E. destruct (Hg2 b E) as [S2 G2]. rewrite said_app, S1, S2. split; [reflexivity|].
      exists a, e1, e2. auto.
  - exists w1, e1, (Err e). split; [reflexivity|]. split; [|discriminate].
    exists (more ++ req2). rewrite app_assoc, Hp. reflexivity.
  - exists w1, e1, Panic. split; [reflexivity|]. split; [|discriminate].
    exists (more ++ req2). rewrite app_assoc, Hp. reflexivity.
Qed.
Lemma talks_weaken {A} (m : io (W * log) A) req (g g' : A -> log -> Prop) :
  talks m req g -> (forall a e, g a e -> g' a e) -> talks m req g'.
Proof.
  intros Hm Hi w l. destruct (Hm w l) as (w' & e & r & E & P & G). exists w', e, r.
  split; [exact E|]. split; [exact P|]. intros a Ea. destruct (G a Ea). auto.
Qed.

Lemma write_loop_talks fuel : forall h buf, (length buf <= fuel)%nat ->
  talks (write_loop (watched sys) fuel h buf) (send h buf) (fun _ e => e = send h buf).
Proof.
  induction fuel as [|fuel IH]; intros h buf L w l; cbn [write_loop].
  - destruct buf; [|cbn in L; lia]. exists w, [], (Ok tt). rewrite app_nil_r. split; [reflexivity|].
    split; [exists []; reflexivity|]. intros [] _. auto.
  - destruct buf as [|b0 buf0] eqn:Eb.
    { exists w, [], (Ok tt). rewrite app_nil_r. split; [reflexivity|].
      split; [exists []; reflexivity|]. intros [] _. auto. }
    rewrite <- Eb in *. clear b0 buf0 Eb. cbn [watched write fst snd].
    destruct (write sys w h buf) as [w1 r1] eqn:E.
    destruct r1 as [n|e|].
    2,3: do 3 eexists; (split; [reflexivity|]); (split; [exists (send h buf); reflexivity|discriminate]).
    apply (proj1 Hw) in E. destruct n as [|n].
    + do 3 eexists. split; [reflexivity|]. split; [exists (send h buf); reflexivity|discriminate].
    + destruct (Nat.ltb_spec (length buf) (S n)); [lia|].
      assert (L' : (length (skipn (S n) buf) <= fuel)%nat) by (rewrite skipn_length; lia).
      destruct (IH h (skipn (S n) buf) L' w1 (l ++ map (Out h) (firstn (S n) buf)))
        as (w2 & e2 & r2 & -> & (more & P) & G).
      assert (Sp : send h buf = send h (firstn (S n) buf) ++ @send H C h (skipn (S n) buf)).
      { unfold send. rewrite <- map_app, firstn_skipn. reflexivity. }
      exists w2, (send h (firstn (S n) buf) ++ e2), r2. rewrite app_assoc. split; [reflexivity|]. split.
      * exists more. rewrite said_app, said_send, <- app_assoc, P. symmetry. exact Sp.
      * intros a Ea. destruct (G a Ea) as [S2 ->]. rewrite said_app, !said_send, <- Sp. auto.
Qed.
Lemma write_all_talks h buf : talks (write_all (watched sys) h buf) (send h buf) (fun _ e => e = send h buf).
Proof. apply write_loop_talks. lia. Qed.

Lemma write_whole_talks h buf : talks (write_whole (watched sys) h buf) (send h buf) (fun _ e => e = send h buf).
Proof.
  intros w l. unfold write_whole, io_bind. cbn [watched write fst snd].
  destruct (write sys w h buf) as [w1 r1] eqn:E. destruct r1 as [n|e|].
  2,3: do 3 eexists; (split; [reflexivity|]); (split; [exists (send h buf); reflexivity|discriminate]).
  apply (proj1 Hw) in E.
  assert (Sp : send h (firstn n buf) ++ send h (skipn n buf) = @send H C h buf).
  { unfold send. rewrite <- map_app, firstn_skipn. reflexivity. }
  destruct (Nat.eqb_spec n (length buf)).
  - exists w1, (send h (firstn n buf)), (Ok tt). split; [reflexivity|].
    subst n. rewrite firstn_all, said_send. split; [exists []; apply app_nil_r|]. auto.
  - exists w1, (send h (firstn n buf)), (Err WriteZero). split; [reflexivity|].
    rewrite said_send. split; [|discriminate]. exists (send h (skipn n buf)). exact Sp.
Qed.

Lemma read_loop_log fuel : forall h n w l, (n <= fuel)%nat ->
  exists w' bs r, read_loop (watched sys) fuel h n (w, l) = ((w', l ++ receive h bs), bs, r)
    /\ (length bs <= n)%nat /\ (forall u, r = Ok u -> length bs = n).
Proof.
  induction fuel as [|fuel IH]; intros h n w l L; cbn [read_loop].
  - destruct n; [|lia]. exists w, [], (Ok tt). cbn [receive map]. rewrite app_nil_r. auto.
  - destruct n as [|n]; [exists w, [], (Ok tt); cbn [receive map]; rewrite app_nil_r; auto|].
    cbn [watched read fst snd]. destruct (read sys w h (S n)) as [w1 r1] eqn:E.
    destruct r1 as [bs|e|].
    2,3: exists w1, []; eexists; (split; [reflexivity|]); (split; [cbn; lia|discriminate]).
    apply (proj2 Hw) in E. destruct bs as [|b bs].
    + exists w1, []; eexists. split; [reflexivity|]. split; [cbn; lia|discriminate].
    + destruct (Nat.ltb_spec (S n) (length (b :: bs))); [lia|].
      assert (L' : (S n - length (b :: bs) <= fuel)%nat) by (cbn [length]; lia).
      destruct (IH h (S n - length (b :: bs))%nat w1 (l ++ map (In h) (b :: bs)) L')
        as (w2 & bs2 & r2 & -> & Lb & Lo).
      exists w2, ((b :: bs) ++ bs2), r2. unfold receive. rewrite (map_app (In h) (b :: bs)), app_assoc.
      split; [reflexivity|]. rewrite app_length. split; [lia|]. intros u Eu. rewrite (Lo u Eu). lia.
Qed.
Lemma read_bytes_talks h n :
  talks (read_bytes (watched sys) h n) [] (fun bs e => e = receive h bs /\ length bs = n).
Proof.
  intros w l. unfold read_bytes, read_exact.
  destruct (read_loop_log n h n w l (le_n n)) as (w' & bs & r & -> & L & Lo).
  exists w', (receive h bs), (omap (fun _ => bs) r). split; [reflexivity|]. rewrite said_receive.
  split; [exists []; reflexivity|]. intros a Ea. destruct r as [u|e|]; try discriminate.
  injection Ea as <-. split; [reflexivity|]. split; [reflexivity|]. apply (Lo u eq_refl).
Qed.
Lemma read_u32_talks h :
  talks (read_u32 (watched sys) h) [] (fun z e => e = receive h (u32be z) /\ u32_ok z).
Proof.
  unfold read_u32. eapply talks_weaken.
  - change (@nil (event H C)) with ([] ++ @nil (event H C)).
    apply talks_bind; [apply read_bytes_talks|]. intros bs. apply talks_ret.
  - cbn beta. intros z e (bs & e1 & e2 & -> & [-> L] & -> & ->). rewrite app_nil_r.
    unfold u32be, u32_ok. pose proof (be_bytes_val bs) as Q. pose proof (be_val_range bs) as R. rewrite L in Q, R.
    rewrite Q. split; [reflexivity|exact R].
Qed.
Lemma check_end_talks h :
  talks (check_response_end (watched sys) h) [] (fun _ e => e = ack h).
Proof.
  unfold check_response_end. eapply talks_weaken.
  - change (@nil (event H C)) with ([] ++ @nil (event H C)).
    apply talks_bind; [apply read_u32_talks|]. intros z.
    instantiate (1 := fun z _ e => z = 0 /\ e = []). cbn beta.
    destruct (Z.eqb_spec z 0); [|apply talks_err]. eapply talks_weaken; [apply talks_ret|].
    cbn beta. intros _ e' [_ ->]. auto.
  - cbn beta. intros ? e (z & e1 & e2 & -> & [-> _] & -> & ->). apply app_nil_r.
Qed.
Lemma shutdown_talks h :
  talks (fun w => shutdown (watched sys) w h) [Shut h] (fun _ e => e = [Shut h]).
Proof.
  intros w l. cbn [watched shutdown fst snd]. destruct (shutdown sys w h) as [w1 [u|e|]].
  - exists w1, [Shut h], (Ok u). split; [reflexivity|]. split; [exists []; reflexivity|]. auto.
  - exists w1, [], (Err e). split; [reflexivity|]. split; [exists [Shut h]; reflexivity|discriminate].
  - exists w1, [], Panic. split; [reflexivity|]. split; [exists [Shut h]; reflexivity|discriminate].
Qed.

(** A request whose only answer is the terminator. *)
Lemma ack_talks m h req : talks m (send h req) (fun (_ : unit) e => e = send h req) ->
  talks (m ;; check_response_end (watched sys) h) (send h req) (fun _ e => e = send h req ++ ack h).
Proof.
  intros Hm. eapply talks_weaken.
  - rewrite <- (app_nil_r (send h req)). apply talks_bind; [exact Hm|]. intros u. apply check_end_talks.
  - cbn beta. intros ? e (? & e1 & e2 & -> & -> & ->). reflexivity.
Qed.
(** One after the other. *)
Lemma then_talks {A} (m : io (W * log) unit) (n : io (W * log) A) r1 r2 e1 g :
  talks m r1 (fun _ e => e = e1) -> talks n r2 g ->
  talks (m ;; n) (r1 ++ r2) (fun a e => exists e2, e = e1 ++ e2 /\ g a e2).
Proof.
  intros Hm Hn. eapply talks_weaken; [apply talks_bind; [exact Hm|intros u; exact Hn]|].
  cbn beta. intros a e (? & x1 & x2 & -> & -> & Hg). eauto.
Qed.
Lemma then_eq (m n : io (W * log) unit) r1 r2 e1 e2 :
  talks m r1 (fun _ e => e = e1) -> talks n r2 (fun _ e => e = e2) ->
  talks (m ;; n) (r1 ++ r2) (fun _ e => e = e1 ++ e2).
Proof.
  intros Hm Hn. eapply talks_weaken; [apply then_talks; eassumption|].
  cbn beta. intros ? e (x & -> & ->). reflexivity.
Qed.

Lemma signal_talks h code :
  talks (write_all (watched sys) h (u32_bytes code) ;; check_response_end (watched sys) h)
        (send h (u32be code)) (fun _ e => e = signalled h code).
Proof. apply ack_talks. apply write_all_talks. Qed.
Lemma request_talks h bytes :
  talks (write_whole (watched sys) h bytes ;; check_response_end (watched sys) h)
        (send h bytes) (fun _ e => e = send h bytes ++ ack h).
Proof. apply ack_talks. apply write_whole_talks. Qed.

Lemma u32be_mod z : u32be (z mod 2 ^ 32) = u32be z.
Proof. apply (be_bytes_mod 4). Qed.

Lemma io_bind_assoc {A B D} (m : io (W * log) A) (f : A -> io (W * log) B) (g : B -> io (W * log) D) w :
  (m >>= f >>= g) w = (m >>= (fun a => f a >>= g)) w.
Proof. unfold io_bind. destruct (m w) as [w' [a|e|]]; reflexivity. Qed.
Lemma talks_ext {A} (m n : io (W * log) A) req g :
  (forall w, m w = n w) -> talks n req g -> talks m req g.
Proof. intros E Hn w l. rewrite E. apply Hn. Qed.

Lemma hcrtm_talks c data :
  talks (hcrtm_sequence (watched sys) c data)
    (send (tpm_tcp c) (u32be 5) ++ send (tpm_tcp c) (u32be 6 ++ u32be (Z.of_nat (length data)) ++ data)
     ++ send (tpm_tcp c) (u32be 7))
    (fun _ e => e = conversation c (Hcrtm data) Done).
Proof.
  unfold hcrtm_sequence, conversation. rewrite (app_assoc (send _ _) (ack _)).
  assert (Em : u32_bytes (Z.of_nat (length data) mod 2 ^ 32) = u32be (Z.of_nat (length data)))
    by apply (be_bytes_mod 4).
  rewrite Em.
  eapply talks_ext; [|apply then_eq; [apply signal_talks|apply then_eq; [apply request_talks|apply signal_talks]]].
  intros w. rewrite !io_bind_assoc. unfold io_bind, u32_bytes, u32be, SignalHashStart, SignalHashData, SignalHashEnd.
  match goal with |- context [write_all ?a ?b ?c w] => destruct (write_all a b c w) as [w1 [u|e|]]; try reflexivity end.
  match goal with |- context [check_response_end ?a ?b w1] => destruct (check_response_end a b w1) as [w2 [u2|e|]]; try reflexivity end.
  match goal with |- context [write_whole ?a ?b ?c w2] => destruct (write_whole a b c w2) as [w3 [u3|e|]]; reflexivity end.
Qed.

Lemma be4 bs : length bs = 4%nat -> u32be (be_val bs) = bs /\ u32_ok (be_val bs).
Proof.
  intros L. unfold u32be, u32_ok. pose proof (be_bytes_val bs) as Q. pose proof (be_val_range bs) as R.
  rewrite L in Q, R. auto.
Qed.
Lemma le_val_range l : 0 <= le_val l < pow256 (length l).
Proof.
  induction l as [|b l IH]; [split; [apply Z.le_refl|reflexivity]|].
  cbn [length le_val]. rewrite pow256_S. pose proof (bz_range b). lia.
Qed.
Lemma le4 bs : length bs = 4%nat -> le_bytes 4 (le_val bs) = bs /\ u32_ok (le_val bs).
Proof.
  intros L. unfold u32_ok. pose proof (le_bytes_val bs) as Q. pose proof (le_val_range bs) as R.
  rewrite L in Q, R. auto.
Qed.
Lemma receive_app h a b : @receive H C h (a ++ b) = receive h a ++ receive h b.
Proof. apply map_app. Qed.

Lemma handshake_talks c v :
  talks (remote_handshake (watched sys) c v) (send (tpm_tcp c) (u32be 15 ++ u32be v))
    (fun x e => e = conversation c (Handshake v) (Versions (fst x) (snd x))
                /\ answers (Handshake v) (Versions (fst x) (snd x))).
Proof.
  unfold remote_handshake. eapply talks_weaken.
  - rewrite <- (app_nil_r (send _ _)). apply then_talks; [apply write_whole_talks|].
    change (@nil (event H C)) with ([] ++ [] ++ @nil (event H C)).
    apply talks_bind; [apply read_bytes_talks|]. intros resp.
    apply talks_bind; [apply check_end_talks|]. intros u. apply talks_ret.
  - cbn beta. intros x e (e2 & -> & bs & f1 & f2 & -> & [-> L] & u & g1 & g2 & -> & -> & -> & ->).
    cbn [fst snd conversation answers]. rewrite app_nil_r.
    destruct (be4 (firstn 4 bs)) as [Q1 R1]; [rewrite firstn_length; lia|].
    destruct (be4 (skipn 4 bs)) as [Q2 R2]; [rewrite skipn_length; lia|].
    rewrite Q1, Q2, firstn_skipn. auto.
Qed.

Lemma sizes_talks c :
  talks (get_command_response_sizes (watched sys) c) (send (plat_tcp c) (u32be 25))
    (fun '(x1, x2, x3, x4) e => e = conversation c ResponseSizes (Sizes x1 x2 x3 x4)
                /\ answers ResponseSizes (Sizes x1 x2 x3 x4)).
Proof.
  unfold get_command_response_sizes. eapply talks_weaken.
  - rewrite <- (app_nil_r (send _ _)). apply then_talks; [apply write_all_talks|].
    change (@nil (event H C)) with ([] ++ @nil (event H C)).
    apply talks_bind; [apply read_u32_talks|]. intros len.
    instantiate (1 := fun len x e => len = 16 /\ exists bs, length bs = 16%nat /\ e = receive (plat_tcp c) bs ++ ack (plat_tcp c)
       /\ x = (le_val (firstn 4 bs), be_val (firstn 4 (skipn 4 bs)), le_val (firstn 4 (skipn 8 bs)), be_val (skipn 12 bs))).
    cbn beta. destruct (Z.eqb_spec len 16); [|apply talks_err]. cbn [negb]. eapply talks_weaken.
    + change (@nil (event H C)) with ([] ++ [] ++ @nil (event H C)).
      apply talks_bind; [apply read_bytes_talks|]. intros resp.
      apply talks_bind; [apply check_end_talks|]. intros u. apply talks_ret.
    + cbn beta. intros x e' (bs & f1 & f2 & -> & [-> L] & u & g1 & g2 & -> & -> & -> & ->).
      split; [assumption|]. exists bs. rewrite app_nil_r. auto.
  - cbn beta. intros x e (e2 & -> & len & f1 & f2 & -> & [-> _] & -> & bs & L & -> & ->).
    cbn [conversation answers].
    destruct (le4 (firstn 4 bs)) as [Q1 R1]; [rewrite firstn_length; lia|].
    destruct (be4 (firstn 4 (skipn 4 bs))) as [Q2 R2]; [rewrite firstn_length, skipn_length; lia|].
    destruct (le4 (firstn 4 (skipn 8 bs))) as [Q3 R3]; [rewrite firstn_length, skipn_length; lia|].
    destruct (be4 (skipn 12 bs)) as [Q4 R4]; [rewrite skipn_length; lia|].
    rewrite Q1, Q2, Q3, Q4. split; [|auto]. rewrite (receive_app _ (u32be 16)), <- !app_assoc.
    do 3 f_equal. f_equal.
    do 16 (destruct bs as [|? bs]; [discriminate L|]). destruct bs; [reflexivity|discriminate L].
Qed.

Lemma act_talks c z :
  talks (act_get_signaled (watched sys) c z) (send (plat_tcp c) (u32be 26 ++ u32be z))
    (fun x e => e = conversation c (ActSignaled z) (Number x) /\ answers (ActSignaled z) (Number x)).
Proof.
  unfold act_get_signaled. eapply talks_weaken.
  - rewrite <- (app_nil_r (send _ _)). apply then_talks; [apply write_whole_talks|].
    change (@nil (event H C)) with ([] ++ [] ++ @nil (event H C)).
    apply talks_bind; [apply read_u32_talks|]. intros resp.
    apply talks_bind; [apply check_end_talks|]. intros u. apply talks_ret.
  - cbn beta. intros x e (e2 & -> & z1 & f1 & f2 & -> & [-> R] & u & g1 & g2 & -> & -> & -> & ->).
    cbn [conversation answers]. rewrite app_nil_r. auto.
Qed.

Lemma end_talks c code :
  talks (end_both (watched sys) c code)
    (send (tpm_tcp c) (u32be code) ++ [Shut (tpm_tcp c)] ++ send (plat_tcp c) (u32be code) ++ [Shut (plat_tcp c)])
    (fun _ e => e = send (tpm_tcp c) (u32be code) ++ [Shut (tpm_tcp c)]
                    ++ send (plat_tcp c) (u32be code) ++ [Shut (plat_tcp c)]).
Proof.
  unfold end_both.
  apply then_eq; [apply write_all_talks|]. apply then_eq; [apply shutdown_talks|].
  apply then_eq; [apply write_all_talks|]. apply shutdown_talks.
Qed.

(** The first half of [transact]. *)
Definition command_request (c : tcp H) (command : list byte) : list byte :=
  u32be 8 ++ be_bytes 1 (locality c) ++ u32be (Z.of_nat (length command)) ++ command.
Lemma request_detail c command w l :
  let frame := command_request c command in
  exists w' e r,
    (write_whole (watched sys) (tpm_tcp c) (u32_bytes SendCommand ++ be_bytes 1 (locality c)
           ++ u32_bytes (Z.of_nat (length command)) ++ command) ;; read_u32 (watched sys) (tpm_tcp c)) (w, l)
    = ((w', l ++ e), r)
    /\ (exists more, said e ++ more = send (tpm_tcp c) frame)
    /\ (said e = send (tpm_tcp c) frame \/ e = said e /\ is_ok r = false)
    /\ (forall len, r = Ok len -> said e = send (tpm_tcp c) frame
          /\ e = send (tpm_tcp c) frame ++ receive (tpm_tcp c) (u32be len) /\ u32_ok len).
Proof.
  intros frame.
  change (u32_bytes SendCommand ++ be_bytes 1 (locality c) ++ u32_bytes (Z.of_nat (length command)) ++ command) with frame.
  unfold io_bind at 1, write_whole, io_bind at 1. cbn [write watched fst snd].
  destruct Hw as [Hn _]. pose proof (Hn w (tpm_tcp c) frame) as Hc.
  destruct (write sys w (tpm_tcp c) frame) as [w1 [n|e|]].
  2,3: exists w1, []; eexists; (split; [reflexivity|]); (split; [eexists; reflexivity|]);
    (split; [right; split; reflexivity|discriminate]).
  specialize (Hc w1 n eq_refl). fold (@send H C (tpm_tcp c) (firstn n frame)).
  destruct (Nat.eqb_spec n (length frame)) as [->|Ne].
  - rewrite firstn_all. cbn [io_ret].
    destruct (read_u32_talks (tpm_tcp c) w1 (l ++ send (tpm_tcp c) frame)) as (w2 & e2 & r2 & E2 & [m2 P2] & G2).
    assert (S2 : said e2 = []) by (destruct (said e2); [reflexivity|discriminate]).
    unfold io_ret. rewrite E2. exists w2, (send (tpm_tcp c) frame ++ e2), r2. rewrite app_assoc. split; [reflexivity|].
    rewrite said_app, said_send, S2, app_nil_r. split; [exists []; apply app_nil_r|]. split; [left; reflexivity|].
    intros len ->. destruct (G2 len eq_refl) as (_ & -> & R). auto.
  - exists w1, (send (tpm_tcp c) (firstn n frame)), (Err WriteZero). split; [reflexivity|].
    rewrite said_send. split.
    + exists (send (tpm_tcp c) (skipn n frame)). unfold send. rewrite <- map_app, firstn_skipn. reflexivity.
    + split; [right; split; reflexivity|discriminate].
Qed.

(** [transact] in full: every byte said and heard, and what becomes of the
    response buffer. *)
Lemma transact_spec c w l command response :
  exists w' response' ext r, tcp_transact (watched sys) c (w, l) command response = ((w', l ++ ext), response', r)
    /\ (exists more, said ext ++ more = send (tpm_tcp c) (command_request c command))
    /\ (said ext = send (tpm_tcp c) (command_request c command)
        \/ ext = said ext /\ is_ok r = false /\ response' = response)
    /\ length response' = length response
    /\ (forall n, r = Ok n ->
         (n <= length response)%nat /\ u32_ok (Z.of_nat n)
         /\ skipn n response' = skipn n response
         /\ ext = send (tpm_tcp c) (command_request c command)
                   ++ receive (tpm_tcp c) (u32be (Z.of_nat n) ++ firstn n response') ++ ack (tpm_tcp c)).
Proof.
  unfold tcp_transact. destruct (2 ^ 32 <=? Z.of_nat (length command)).
  { exists w, response, [], (Err InvalidInput). rewrite app_nil_r. split; [reflexivity|].
    split; [eexists; reflexivity|]. split; [right; auto|]. split; [reflexivity|discriminate]. }
  destruct (request_detail c command w l) as (w1 & e1 & r1 & -> & P & D & G).
  destruct r1 as [len|e|].
  2,3: exists w1, response, e1; eexists; (split; [reflexivity|]); (split; [exact P|]);
    (split; [destruct D as [D|[D1 D2]]; auto|]); (split; [reflexivity|discriminate]).
  destruct (G len eq_refl) as (S1 & E1 & R).
  destruct (Z.ltb_spec (Z.of_nat (length response)) len) as [Big|Small].
  { exists w1, response, e1, (Err InvalidInput). split; [reflexivity|]. split; [exact P|]. split; [auto|].
    split; [reflexivity|discriminate]. }
  unfold read_exact.
  destruct (read_loop_log (Z.to_nat len) (tpm_tcp c) (Z.to_nat len) w1 (l ++ e1) (le_n _)) as (w2 & bs & r2 & -> & Lb & Lo).
  assert (L2 : length (overwrite bs response) = length response) by (apply overwrite_length; unfold u32_ok in R; lia).
  assert (P2 : exists more, said (e1 ++ receive (tpm_tcp c) bs) ++ more = send (tpm_tcp c) (command_request c command)).
  { rewrite said_app, said_receive, app_nil_r. exact P. }
  destruct r2 as [u|e|].
  2,3: exists w2, (overwrite bs response), (e1 ++ receive (tpm_tcp c) bs); eexists; rewrite app_assoc;
    (split; [reflexivity|]); (split; [exact P2|]); (split; [left; rewrite said_app, said_receive, app_nil_r; exact S1|]);
    (split; [exact L2|discriminate]).
  specialize (Lo u eq_refl).
  destruct (check_end_talks (tpm_tcp c) w2 ((l ++ e1) ++ receive (tpm_tcp c) bs)) as (w3 & e3 & r3 & -> & (m3 & P3) & G3).
  assert (S3 : said e3 = []) by (destruct (said e3); [reflexivity|discriminate]).
  exists w3, (overwrite bs response), (e1 ++ receive (tpm_tcp c) bs ++ e3), (omap (fun _ => Z.to_nat len) r3).
  rewrite !app_assoc. split; [reflexivity|]. split; [|split; [|split; [exact L2|]]].
  - rewrite said_app, S3, app_nil_r. exact P2.
  - left. rewrite !said_app, S3, said_receive, !app_nil_r. exact S1.
  - intros n En. destruct r3 as [u3|e|]; try discriminate. injection En as <-.
    destruct (G3 u3 eq_refl) as [_ ->]. unfold u32_ok in R. rewrite Z2Nat.id by lia.
    split; [lia|]. split; [exact R|].
    rewrite <- Lo, skipn_overwrite, firstn_overwrite. split; [reflexivity|].
    rewrite E1, receive_app, <- !app_assoc. reflexivity.
Qed.

Lemma keep_talks {A} (m : io (W * log) A) req good (f : A -> answer) w l :
  talks m req good ->
  exists w' ext r, m (w, l) = ((w', l ++ ext), r)
    /\ (exists more, said ext ++ more = req)
    /\ (forall a, omap f r = Ok a -> exists x, a = f x /\ good x ext).
Proof.
  intros Hm. destruct (Hm w l) as (w' & e & r & E & P & G). exists w', e, r. split; [exact E|]. split; [exact P|].
  intros a Ea. destruct r as [x|er|]; try discriminate. injection Ea as <-. exists x. split; [reflexivity|]. apply G. reflexivity.
Qed.

Lemma said_ack h : @said H C (ack h) = [].
Proof. reflexivity. Qed.
Lemma said_signalled h code : @said H C (signalled h code) = send h (u32be code).
Proof. reflexivity. Qed.

(** Everything at once. *)
Theorem perform_spec c o w l :
  exists w' ext r,
    perform (watched sys) c o (w, l)
    = ({| tpm_tcp := tpm_tcp c; plat_tcp := plat_tcp c; locality := locality_after (locality c) o |}, (w', l ++ ext), r)
    /\ (forall a, answers o a -> exists more, said ext ++ more = said (conversation c o a))
    /\ (forall a, r = Ok a -> answers o a /\ ext = conversation c o a).
Proof.
  assert (Ec : {| tpm_tcp := tpm_tcp c; plat_tcp := plat_tcp c; locality := locality c |} = c) by (destruct c; reflexivity).
  assert (Unit : forall (m : io (W * log) unit) req conv, said conv = req ->
    talks m req (fun _ e => e = conv) ->
    exists w' ext r, (let r := unit_answer (m (w, l)) in (c, fst r, snd r)) = (c, (w', l ++ ext), r)
    /\ (exists more, said ext ++ more = said conv)
    /\ (forall a, r = Ok a -> a = Done /\ ext = conv)).
  { intros m req conv Es Hm. destruct (keep_talks m req _ (fun _ => Done) w l Hm) as (w' & e & r & E & P & G).
    exists w', e, (omap (fun _ => Done) r). unfold unit_answer. rewrite E. split; [reflexivity|].
    rewrite Es. split; [exact P|]. intros a Ea. destruct (G a Ea) as (x & -> & ->). auto. }
  destruct o as [command response|data|v|z|s| | | |z|z|z|lo| |]; cbn [perform locality_after]; rewrite ?Ec.
  - destruct (transact_spec c w l command response) as (w' & resp' & e & r & -> & P & _ & L & G).
    exists w', e, (omap (fun n => Payload (firstn n resp')) r). split; [reflexivity|]. split.
    + intros a Ha. destruct a; try contradiction. cbn [conversation].
      rewrite !said_app, said_receive, said_ack, said_send, !app_nil_r. exact P.
    + intros a Ea. destruct r as [n| |]; try discriminate. injection Ea as <-.
      destruct (G n eq_refl) as (Ln & R & _ & ->). cbn [answers conversation].
      assert (Lf : length (firstn n resp') = n) by (rewrite firstn_length; lia). rewrite Lf. auto.
  - destruct (Unit _ _ (conversation c (Hcrtm data) Done) ltac:(cbn [conversation]; rewrite !said_app, said_send, !said_signalled, !said_ack; cbn [app]; rewrite ?app_nil_r; reflexivity) (hcrtm_talks c data)) as (w' & e & r & E & P & G).
    exists w', e, r. split; [exact E|]. split; [intros [] Ha; try contradiction; exact P|].
    intros a Ea. destruct (G a Ea) as [-> ->]. split; [exact I|reflexivity].
  - destruct (keep_talks _ _ _ (fun x => Versions (fst x) (snd x)) w l (handshake_talks c v)) as (w' & e & r & -> & P & G).
    exists w', e, (omap (fun x => Versions (fst x) (snd x)) r). split; [reflexivity|]. split.
    + intros a Ha. destruct a; try contradiction. cbn [conversation].
      rewrite !said_app, said_receive, said_ack, said_send, !app_nil_r. exact P.
    + intros a Ea. destruct (G a Ea) as (x & -> & -> & A). auto.
  - destruct (Unit _ _ (conversation c (AlternativeResult z) Done) ltac:(cbn [conversation]; rewrite !said_app, said_send, !said_ack, app_nil_r; reflexivity) (request_talks (tpm_tcp c) (u32be 16 ++ u32be z))) as (w' & e & r & E & P & G).
    exists w', e, r. split; [exact E|]. split; [intros [] Ha; try contradiction; exact P|].
    intros a Ea. destruct (G a Ea) as [-> ->]. split; [exact I|reflexivity].
  - destruct (Unit _ _ (conversation c (Signal s) Done) ltac:(reflexivity) (signal_talks (plat_tcp c) (signal_code s))) as (w' & e & r & E & P & G).
    exists w', e, r. split; [exact E|]. split; [intros [] Ha; try contradiction; exact P|].
    intros a Ea. destruct (G a Ea) as [-> ->]. split; [exact I|reflexivity].
  - assert (T : talks (reinit (watched sys) c)
      (send (plat_tcp c) (u32be 12) ++ send (plat_tcp c) (u32be 2) ++ send (plat_tcp c) (u32be 1) ++ send (plat_tcp c) (u32be 11))
      (fun _ e => e = conversation c Reinit Done)).
    { unfold reinit. repeat (apply then_eq; [apply signal_talks|]). apply signal_talks. }
    destruct (Unit _ _ (conversation c Reinit Done) ltac:(reflexivity) T) as (w' & e & r & E & P & G).
    exists w', e, r. split; [exact E|]. split; [intros [] Ha; try contradiction; exact P|].
    intros a Ea. destruct (G a Ea) as [-> ->]. split; [exact I|reflexivity].
  - destruct (Unit _ _ (conversation c FailureMode Done) ltac:(reflexivity) (signal_talks (plat_tcp c) 30)) as (w' & e & r & E & P & G).
    exists w', e, r. split; [exact E|]. split; [intros [] Ha; try contradiction; exact P|].
    intros a Ea. destruct (G a Ea) as [-> ->]. split; [exact I|reflexivity].
  - destruct (keep_talks _ _ _ (fun '(x1, x2, x3, x4) => Sizes x1 x2 x3 x4) w l (sizes_talks c)) as (w' & e & r & -> & P & G).
    exists w', e, (omap (fun '(x1, x2, x3, x4) => Sizes x1 x2 x3 x4) r). split; [reflexivity|]. split.
    + intros a Ha. destruct a; try contradiction. cbn [conversation].
      rewrite !said_app, said_receive, said_ack, said_send, !app_nil_r. exact P.
    + intros a Ea. destruct (G a Ea) as ([[[x1 x2] x3] x4] & -> & -> & A). auto.
  - destruct (keep_talks _ _ _ Number w l (act_talks c z)) as (w' & e & r & -> & P & G).
    exists w', e, (omap Number r). split; [reflexivity|]. split.
    + intros a Ha. destruct a; try contradiction. cbn [conversation].
      rewrite !said_app, said_receive, said_ack, said_send, !app_nil_r. exact P.
    + intros a Ea. destruct (G a Ea) as (x & -> & -> & A). auto.
  - destruct (Unit _ _ (conversation c (FirmwareHash z) Done) ltac:(cbn [conversation]; rewrite !said_app, said_send, !said_ack, app_nil_r; reflexivity) (request_talks (plat_tcp c) (u32be 35 ++ u32be z))) as (w' & e & r & E & P & G).
    exists w', e, r. split; [exact E|]. split; [intros [] Ha; try contradiction; exact P|].
    intros a Ea. destruct (G a Ea) as [-> ->]. split; [exact I|reflexivity].
  - destruct (Unit _ _ (conversation c (FirmwareSvn z) Done) ltac:(cbn [conversation]; rewrite !said_app, said_send, !said_ack, app_nil_r; reflexivity) (request_talks (plat_tcp c) (u32be 36 ++ u32be z))) as (w' & e & r & E & P & G).
    exists w', e, r. split; [exact E|]. split; [intros [] Ha; try contradiction; exact P|].
    intros a Ea. destruct (G a Ea) as [-> ->]. split; [exact I|reflexivity].
  - exists w, [], (Ok Done). rewrite app_nil_r. split; [reflexivity|]. split.
    + intros [] Ha; try contradiction. exists []. reflexivity.
    + intros a Ea. injection Ea as <-. split; [exact I|reflexivity].
  - destruct (Unit _ _ (conversation c EndSession Done) ltac:(reflexivity) (end_talks c 20)) as (w' & e & r & E & P & G).
    exists w', e, r. split; [exact E|]. split; [intros [] Ha; try contradiction; exact P|].
    intros a Ea. destruct (G a Ea) as [-> ->]. split; [exact I|reflexivity].
  - destruct (Unit _ _ (conversation c StopSimulator Done) ltac:(reflexivity) (end_talks c 21)) as (w' & e & r & E & P & G).
    exists w', e, r. split; [exact E|]. split; [intros [] Ha; try contradiction; exact P|].
    intros a Ea. destruct (G a Ea) as [-> ->]. split; [exact I|reflexivity].
Qed.
End Talks.

(** ** The well-behaved peer *)
Section Pipe.
Variable pieces : nat -> nat.
Notation peer := (pipe pieces).
Definition give (h : bool) (bs : list byte) (w : list byte * list byte) : list byte * list byte :=
  if h then (bs ++ fst w, snd w) else (fst w, bs ++ snd w).

Lemma give_app h a b w : give h (a ++ b) w = give h a (give h b w).
Proof. destruct h, w; cbn; rewrite <- app_assoc; reflexivity. Qed.

Lemma pipe_read h bs : forall fuel w, (length bs <= fuel)%nat ->
  read_loop peer fuel h (length bs) (give h bs w) = (w, bs, Ok tt).
Proof.
  remember (length bs) as n eqn:En. revert bs En.
  induction n as [n IH] using lt_wf_ind. intros bs En fuel w Hf.
  destruct bs as [|b bs].
  { cbn in En. subst n. destruct h, w, fuel; reflexivity. }
  destruct fuel as [|fuel]; [cbn in En; lia|].
  destruct n as [|n]; [discriminate|].
  cbn [read_loop].
  set (q := if h then fst (give h (b :: bs) w) else snd (give h (b :: bs) w)).
  set (k := Nat.min (S n) (Nat.max 1 (pieces (length q)))).
  assert (Ek : read peer (give h (b :: bs) w) h (S n) = (give h (skipn k (b :: bs)) w, Ok (firstn k (b :: bs)))).
  { assert (Eq : q = (b :: bs) ++ (if h then fst w else snd w)) by (unfold q; destruct h; reflexivity).
    assert (Lk : (k <= length (b :: bs))%nat) by (rewrite <- En; unfold k; lia).
    assert (S1 : skipn k q = skipn k (b :: bs) ++ (if h then fst w else snd w)).
    { rewrite Eq, skipn_app. replace (k - length (b :: bs))%nat with 0%nat by lia. reflexivity. }
    assert (F1 : firstn k q = firstn k (b :: bs)).
    { rewrite Eq, firstn_app. replace (k - length (b :: bs))%nat with 0%nat by lia.
      rewrite firstn_O, app_nil_r. reflexivity. }
    cbn [read pipe]. fold q. fold k. rewrite F1, S1. destruct h; reflexivity. }
  rewrite Ek.
  assert (K1 : (1 <= k <= S n)%nat) by (unfold k; lia). clearbody k. clear q.
  assert (Lf : length (firstn k (b :: bs)) = k) by (rewrite firstn_length, <- En; lia).
  destruct (firstn k (b :: bs)) as [|b' f] eqn:Ef; [cbn in Lf; lia|].
  rewrite Lf. replace (S n <? k)%nat with false by (symmetry; apply Nat.ltb_ge; lia).
  assert (Ls : (S n - k)%nat = length (skipn k (b :: bs))) by (rewrite skipn_length, <- En; reflexivity).
  rewrite (IH (S n - k)%nat ltac:(lia) (skipn k (b :: bs)) Ls fuel w ltac:(lia)).
  rewrite <- Ef, firstn_skipn. reflexivity.
Qed.

Lemma pipe_write h bs w : write_all peer h bs w = (w, Ok tt).
Proof.
  unfold write_all. destruct bs as [|b bs]; [reflexivity|].
  cbn [length write_loop write pipe].
  replace (S (length bs) <? S (length bs))%nat with false by (symmetry; apply Nat.ltb_ge; lia).
  change (S (length bs)) with (length (b :: bs)). rewrite skipn_all. destruct (length bs); reflexivity.
Qed.
Lemma pipe_write_whole h bs w : write_whole peer h bs w = (w, Ok tt).
Proof. unfold write_whole, io_bind. cbn [write pipe]. rewrite Nat.eqb_refl. reflexivity. Qed.
Lemma pipe_read_bytes h n bs w : length bs = n -> read_bytes peer h n (give h bs w) = (w, Ok bs).
Proof. intros <-. unfold read_bytes, read_exact. rewrite pipe_read by lia. reflexivity. Qed.
Lemma u32be_val z : u32_ok z -> be_val (u32be z) = z.
Proof. intros Hz. unfold u32be. rewrite be_val_bytes. apply Z.mod_small. exact Hz. Qed.
Lemma le4_val z : u32_ok z -> le_val (le_bytes 4 z) = z.
Proof. intros Hz. rewrite le_val_bytes. apply Z.mod_small. exact Hz. Qed.
Lemma pipe_read_u32 h z w : u32_ok z -> read_u32 peer h (give h (u32be z) w) = (w, Ok z).
Proof.
  intros Hz. unfold read_u32, io_bind. rewrite pipe_read_bytes by apply be_bytes_length.
  unfold io_ret. rewrite u32be_val by assumption. reflexivity.
Qed.
Lemma pipe_end h w : check_response_end peer h (give h [x00; x00; x00; x00] w) = (w, Ok tt).
Proof.
  unfold check_response_end, io_bind.
  change [x00; x00; x00; x00] with (u32be 0). rewrite pipe_read_u32 by (split; [apply Z.le_refl|reflexivity]).
  reflexivity.
Qed.
Lemma pipe_signal h code w :
  (write_all peer h (u32_bytes code) ;; check_response_end peer h) (give h [x00; x00; x00; x00] w) = (w, Ok tt).
Proof. unfold io_bind. rewrite pipe_write. apply pipe_end. Qed.
Lemma pipe_request h bs w :
  (write_whole peer h bs ;; check_response_end peer h) (give h [x00; x00; x00; x00] w) = (w, Ok tt).
Proof. unfold io_bind. rewrite pipe_write_whole. apply pipe_end. Qed.

Lemma io_then {W A B} (m : io W A) (f : A -> io W B) w w' a r : m w = (w', Ok a) -> f a w' = r -> (m >>= f) w = r.
Proof. intros E F. unfold io_bind. rewrite E. exact F. Qed.

Lemma heard_app {C} h (a b : list (event bool C)) : heard h (a ++ b) = heard h a ++ heard h b.
Proof. apply flat_map_app. Qed.
Lemma heard_send {C} h h' bs : heard h (@send bool C h' bs) = [].
Proof. induction bs as [|b bs IH]; [reflexivity|exact IH]. Qed.
Lemma heard_receive {C} h h' bs : heard h (@receive bool C h' bs) = if Bool.eqb h h' then bs else [].
Proof.
  induction bs as [|b bs IH]; [destruct (Bool.eqb h h'); reflexivity|].
  change (heard h (@receive bool C h' (b :: bs))) with ((if Bool.eqb h h' then [b] else []) ++ heard h (@receive bool C h' bs)).
  rewrite IH. destruct (Bool.eqb h h'); reflexivity.
Qed.
Lemma heard_ack {C} h h' : heard h (@ack bool C h') = if Bool.eqb h h' then [x00; x00; x00; x00] else [].
Proof. apply heard_receive. Qed.

Lemma in_store_app {C} (a b : list (event bool C)) w : in_store (a ++ b) w = in_store a (in_store b w).
Proof. unfold in_store. rewrite !heard_app, <- !app_assoc. reflexivity. Qed.
Lemma in_store_send {C} h bs w : in_store (@send bool C h bs) w = w.
Proof. unfold in_store. rewrite !heard_send. destruct w; reflexivity. Qed.
Lemma in_store_receive {C} h bs w : in_store (@receive bool C h bs) w = give h bs w.
Proof. unfold in_store. rewrite !heard_receive. destruct h, w; reflexivity. Qed.
Lemma in_store_ack {C} h w : in_store (@ack bool C h) w = give h [x00; x00; x00; x00] w.
Proof. apply in_store_receive. Qed.
Lemma in_store_signalled {C} h code w : in_store (@signalled bool C h code) w = give h [x00; x00; x00; x00] w.
Proof. unfold signalled. rewrite in_store_app, in_store_send. apply in_store_ack. Qed.

Lemma pipe_ends c code w : end_both peer c code w = (w, Ok tt).
Proof.
  unfold end_both. eapply io_then; [apply pipe_write|]. eapply io_then; [reflexivity|].
  eapply io_then; [apply pipe_write|]. reflexivity.
Qed.

Lemma pipe_performs loc o a w :
  answers o a -> writable o ->
  let c := {| tpm_tcp := true; plat_tcp := false; locality := loc |} in
  perform peer c o (in_store (@conversation bool unit c o a) w)
  = ({| tpm_tcp := true; plat_tcp := false; locality := locality_after loc o |}, w, Ok a).
Proof.
  intros Ha Hw c. pose proof Hw as Hw'.
  destruct o as [command response|data|v|z|s| | | |z|z|z|lo| |], a as [|bytes|y|y1 y2|y1 y2 y3 y4]; try contradiction;
    cbn [perform conversation locality_after c tpm_tcp plat_tcp locality].
  - destruct Ha as [Hl Hu]. cbn [writable] in Hw'. cbn [locality] in *. unfold tcp_transact.
    replace (2 ^ 32 <=? Z.of_nat (length command)) with false by (symmetry; apply Z.leb_gt; exact Hw').
    rewrite receive_app, !in_store_app, in_store_send, !in_store_receive, in_store_ack.
    set (w1 := give true [x00; x00; x00; x00] w). cbn [tpm_tcp].
    rewrite (io_then (write_whole peer true _) _ _ _ _ _ (pipe_write_whole true _ _)
              (pipe_read_u32 true (Z.of_nat (length bytes)) (give true bytes w1) Hu)).
    replace (Z.of_nat (length response) <? Z.of_nat (length bytes)) with false by (symmetry; apply Z.ltb_ge; lia).
    rewrite Nat2Z.id. unfold read_exact. rewrite pipe_read by lia. subst w1. rewrite pipe_end. cbn [omap].
    unfold overwrite. rewrite firstn_app, firstn_all, Nat.sub_diag, firstn_O, app_nil_r. reflexivity.
  - rewrite !in_store_app, !in_store_send, !in_store_signalled, in_store_ack.
    unfold unit_answer, hcrtm_sequence, c. cbn [tpm_tcp].
    rewrite (io_then _ _ _ _ _ _ (pipe_write true _ _)
               (io_then _ _ _ _ _ _ (pipe_end true _)
                 (io_then _ _ _ _ _ _ (pipe_write_whole true _ _)
                   (io_then _ _ _ _ _ _ (pipe_end true _)
                     (pipe_signal true SignalHashEnd w))))).
    reflexivity.
  - destruct Ha as [H1 H2].
    rewrite receive_app, !in_store_app, in_store_send, !in_store_receive, in_store_ack, <- give_app.
    unfold remote_handshake, c. cbn [tpm_tcp].
    assert (L : length (u32be y1 ++ u32be y2) = 8%nat) by reflexivity.
    rewrite (io_then _ _ _ _ _ _ (pipe_write_whole true _ _)
               (io_then _ _ _ _ _ _ (pipe_read_bytes true 8 _ _ L)
                 (io_then _ _ _ _ _ _ (pipe_end true w) eq_refl))).
    unfold io_ret. cbn [omap fst snd].
    assert (A1 : firstn 4 (u32be y1 ++ u32be y2) = u32be y1) by reflexivity.
    assert (A2 : skipn 4 (u32be y1 ++ u32be y2) = u32be y2) by reflexivity.
    rewrite A1, A2, !u32be_val by assumption. reflexivity.
  - rewrite in_store_app, in_store_send, in_store_ack. unfold unit_answer, set_alternative_result, c. cbn [tpm_tcp].
    rewrite pipe_request. reflexivity.
  - rewrite in_store_signalled. unfold unit_answer, platform_signal, c. cbn [plat_tcp]. rewrite pipe_signal. reflexivity.
  - rewrite !in_store_app, !in_store_signalled. unfold unit_answer, reinit, platform_signal, c. cbn [plat_tcp].
    rewrite (io_then _ _ _ _ _ _ (pipe_signal false _ _)
               (io_then _ _ _ _ _ _ (pipe_signal false _ _)
                 (io_then _ _ _ _ _ _ (pipe_signal false _ _) (pipe_signal false (signal_code NvOn) w)))).
    reflexivity.
  - rewrite in_store_signalled. unfold unit_answer, test_failure_mode, c. cbn [plat_tcp]. rewrite pipe_signal. reflexivity.
  - destruct Ha as (H1 & H2 & H3 & H4).
    set (bs := le_bytes 4 y1 ++ u32be y2 ++ le_bytes 4 y3 ++ u32be y4).
    rewrite receive_app, !in_store_app, in_store_send, !in_store_receive, in_store_ack.
    unfold get_command_response_sizes, c. cbn [plat_tcp].
    assert (L : length bs = 16%nat) by reflexivity.
    rewrite (io_then (write_all peer false _) _ _ _ _ _ (pipe_write false _ _)
               (io_then (read_u32 peer false) _ _ _ _ _ (pipe_read_u32 false 16 _ ltac:(split; [discriminate|reflexivity]))
                 (io_then (read_bytes peer false 16) _ _ _ _ _ (pipe_read_bytes false 16 bs _ L)
                   (io_then (check_response_end peer false) _ _ _ _ _ (pipe_end false w) eq_refl)))).
    unfold io_ret. cbn [omap fst snd].
    assert (A1 : firstn 4 bs = le_bytes 4 y1) by reflexivity.
    assert (A2 : firstn 4 (skipn 4 bs) = u32be y2) by reflexivity.
    assert (A3 : firstn 4 (skipn 8 bs) = le_bytes 4 y3) by reflexivity.
    assert (A4 : skipn 12 bs = u32be y4) by reflexivity.
    rewrite A1, A2, A3, A4. rewrite !le4_val, !u32be_val by assumption. reflexivity.
  - rewrite !in_store_app, in_store_send, in_store_receive, in_store_ack. cbn [answers] in Ha.
    unfold act_get_signaled, c. cbn [plat_tcp].
    rewrite (io_then _ _ _ _ _ _ (pipe_write_whole false _ _)
               (io_then _ _ _ _ _ _ (pipe_read_u32 false y _ Ha)
                 (io_then _ _ _ _ _ _ (pipe_end false w) eq_refl))).
    reflexivity.
  - rewrite in_store_app, in_store_send, in_store_ack. unfold unit_answer, set_firmware_hash, c. cbn [plat_tcp].
    rewrite pipe_request. reflexivity.
  - rewrite in_store_app, in_store_send, in_store_ack. unfold unit_answer, set_firmware_svn, c. cbn [plat_tcp].
    rewrite pipe_request. reflexivity.
  - destruct w; reflexivity.
  - rewrite !in_store_app, !in_store_send. unfold unit_answer, session_end, c. cbn [tpm_tcp plat_tcp].
    assert (E : in_store [@Shut bool unit true] (in_store [@Shut bool unit false] w) = w) by (destruct w; reflexivity).
    rewrite E.
    rewrite pipe_ends. reflexivity.
  - rewrite !in_store_app, !in_store_send. unfold unit_answer, stop_simulator, c. cbn [tpm_tcp plat_tcp].
    assert (E : in_store [@Shut bool unit true] (in_store [@Shut bool unit false] w) = w) by (destruct w; reflexivity).
    rewrite E.
    rewrite pipe_ends. reflexivity.
Qed.
End Pipe.
