(** Properties of the results of calls on the simulator connection (C95): a
    call succeeds exactly when its conversation took place in full, and how a
    command ended can be read off the bytes exchanged. *)
From Coq Require Import String ZArith NArith List Lia Bool.
From Coq Require Import Init.Byte.
From Verif Require Import Prelude Client ClientSpec Tcp TcpSpec TcpProofs SimulatorProofs TcpFacts.
Import ListNotations.
Open Scope Z_scope.

(** ** Computations whose success can be seen in the record *)
Section Whole.
Context {W H C : Type} (sys : world W H C) (Hw : wf_world sys).
Notation log := (list (event H C)).

(** [m] succeeds with [a] exactly when what is seen begins with one of the
    records that are [good] for [a]; and such records determine [a] and where
    they end. *)
Definition whole {A} (m : io (W * log) A) (good : A -> log -> Prop) : Prop :=
  (forall w l, exists w' ext r, m (w, l) = ((w', l ++ ext), r)
     /\ match r with
        | Ok a => good a ext
        | _ => forall a p x, good a p -> ext <> p ++ x
        end)
  /\ (forall a p a' p' x x', good a p -> good a' p' -> p ++ x = p' ++ x' -> a = a' /\ p = p').

Lemma whole_ret {A} (a : A) : whole (io_ret a) (fun b e => b = a /\ e = []).
Proof.
  split.
  - intros w l. exists w, [], (Ok a). rewrite app_nil_r. unfold io_ret. auto.
  - intros b p b' p' x x' [-> ->] [-> ->] _. auto.
Qed.
Lemma whole_err {A} e : whole (@io_err (W * log) A e) (fun _ _ => False).
Proof.
  split.
  - intros w l. exists w, [], (Err e). rewrite app_nil_r. unfold io_err. auto.
  - intros b p b' p' x x' [].
Qed.
Lemma whole_bind {A B} (m : io (W * log) A) (f : A -> io (W * log) B) g1 (g2 : A -> B -> log -> Prop) :
  whole m g1 -> (forall a, whole (f a) (g2 a)) ->
  whole (m >>= f) (fun b e => exists a e1 e2, e = e1 ++ e2 /\ g1 a e1 /\ g2 a b e2).
Proof.
  intros [Hm Um] Hf. split.
  - intros w l. unfold io_bind. destruct (Hm w l) as (w1 & e1 & r1 & -> & G1). destruct r1 as [a|er|].
    + destruct (proj1 (Hf a) w1 (l ++ e1)) as (w2 & e2 & r2 & -> & G2).
      exists w2, (e1 ++ e2), r2. rewrite app_assoc. split; [reflexivity|]. destruct r2 as [b|er|].
      * exists a, e1, e2. auto.
      * intros b p x (a' & p1 & p2 & -> & Q1 & Q2) E. rewrite <- app_assoc in E.
        destruct (Um _ _ _ _ _ _ G1 Q1 E) as [<- <-]. apply app_inv_head in E. exact (G2 _ _ _ Q2 E).
      * intros b p x (a' & p1 & p2 & -> & Q1 & Q2) E. rewrite <- app_assoc in E.
        destruct (Um _ _ _ _ _ _ G1 Q1 E) as [<- <-]. apply app_inv_head in E. exact (G2 _ _ _ Q2 E).
    + exists w1, e1, (Err er). split; [reflexivity|].
      intros b p x (a' & p1 & p2 & -> & Q1 & Q2) E. rewrite <- app_assoc in E. exact (G1 _ _ _ Q1 E).
    + exists w1, e1, Panic. split; [reflexivity|].
      intros b p x (a' & p1 & p2 & -> & Q1 & Q2) E. rewrite <- app_assoc in E. exact (G1 _ _ _ Q1 E).
  - intros b p b' p' x x' (a & p1 & p2 & -> & G1 & G2) (a' & p1' & p2' & -> & G1' & G2') E.
    rewrite <- !app_assoc in E. destruct (Um _ _ _ _ _ _ G1 G1' E) as [<- <-]. apply app_inv_head in E.
    destruct (proj2 (Hf a) _ _ _ _ _ _ G2 G2' E) as [<- <-]. auto.
Qed.

Lemma send_short h (part buf : list byte) x : (length part < length buf)%nat ->
  @send H C h part <> send h buf ++ x.
Proof.
  intros L E. apply (f_equal (@length _)) in E. unfold send in E. rewrite app_length, !map_length in E. lia.
Qed.
Lemma receive_short h (part buf : list byte) x : (length part < length buf)%nat ->
  @receive H C h part <> receive h buf ++ x.
Proof.
  intros L E. apply (f_equal (@length _)) in E. unfold receive in E. rewrite app_length, !map_length in E. lia.
Qed.
Lemma receive_inj h (a b : list byte) : @receive H C h a = receive h b -> a = b.
Proof.
  revert b. induction a as [|x a IH]; intros [|y b] E; try discriminate; [reflexivity|].
  cbn in E. injection E as -> E. f_equal. exact (IH _ E).
Qed.
Lemma same_split {A} (a b x y : list A) : length a = length b -> a ++ x = b ++ y -> a = b /\ x = y.
Proof.
  revert b. induction a as [|c a IH]; intros [|d b] L E; try discriminate; [auto|].
  injection E as -> E. injection L as L. destruct (IH b L E) as [-> ->]. auto.
Qed.

Lemma write_loop_log fuel : forall h buf w l, (length buf <= fuel)%nat ->
  exists w' part r, write_loop (watched sys) fuel h buf (w, l) = ((w', l ++ send h part), r)
    /\ match r with Ok _ => part = buf | _ => (length part < length buf)%nat end.
Proof.
  induction fuel as [|fuel IH]; intros h buf w l L; cbn [write_loop].
  - destruct buf; [|cbn in L; lia]. exists w, [], (Ok tt). cbn [send map]. rewrite app_nil_r. auto.
  - destruct buf as [|b buf]; [exists w, [], (Ok tt); cbn [send map]; rewrite app_nil_r; auto|].
    cbn [watched write fst snd]. destruct (write sys w h (b :: buf)) as [w1 r1] eqn:E.
    destruct r1 as [n|e|].
    2,3: exists w1, []; eexists; (split; [reflexivity|]); cbn; lia.
    apply (proj1 Hw) in E. destruct n as [|n].
    + exists w1, []; eexists. split; [reflexivity|]. cbn. lia.
    + destruct (Nat.ltb_spec (length (b :: buf)) (S n)); [lia|].
      assert (L' : (length (skipn (S n) (b :: buf)) <= fuel)%nat) by (rewrite skipn_length; cbn [length] in *; lia).
      destruct (IH h (skipn (S n) (b :: buf)) w1 (l ++ map (Out h) (firstn (S n) (b :: buf))) L')
        as (w2 & part & r2 & -> & G).
      exists w2, (firstn (S n) (b :: buf) ++ part), r2. unfold send. rewrite map_app, app_assoc.
      split; [reflexivity|]. rewrite skipn_length in G. destruct r2 as [u|e|].
      * rewrite G. apply firstn_skipn.
      * rewrite app_length, firstn_length. lia.
      * rewrite app_length, firstn_length. lia.
Qed.
Lemma write_all_whole h buf : whole (write_all (watched sys) h buf) (fun _ e => e = send h buf).
Proof.
  split.
  - intros w l. unfold write_all. destruct (write_loop_log (length buf) h buf w l (le_n _)) as (w' & part & r & -> & G).
    exists w', (send h part), r. split; [reflexivity|]. destruct r as [u|e|].
    + rewrite G. reflexivity.
    + intros a p x -> . apply send_short. exact G.
    + intros a p x -> . apply send_short. exact G.
  - intros [] p [] p' x x' -> -> _. auto.
Qed.
Lemma write_whole_log h buf w l :
  exists w' part r, write_whole (watched sys) h buf (w, l) = ((w', l ++ send h part), r)
    /\ (exists rest, buf = part ++ rest)
    /\ match r with Ok _ => part = buf
       | Err e => (length part < length buf)%nat /\ (e = WriteZero \/ exists w0 w1, write sys w0 h buf = (w1, Err e))
                  \/ buf = [] /\ part = [] /\ exists w0 w1, write sys w0 h buf = (w1, Err e)
       | Panic => part = [] /\ exists w0 w1, write sys w0 h buf = (w1, Panic) end.
Proof.
  unfold write_whole, io_bind at 1. cbn [watched write fst snd].
  destruct (write sys w h buf) as [w1 r1] eqn:E. destruct r1 as [n|e|].
  - pose proof (proj1 Hw _ _ _ _ _ E) as Hn. fold (@send H C h (firstn n buf)).
    destruct (Nat.eqb_spec n (length buf)) as [->|Ne]; unfold io_ret, io_err.
    + exists w1, buf, (Ok tt). rewrite firstn_all. split; [reflexivity|]. split; [exists []; symmetry; apply app_nil_r|reflexivity].
    + exists w1, (firstn n buf), (Err WriteZero). split; [reflexivity|].
      split; [exists (skipn n buf); symmetry; apply firstn_skipn|]. left. rewrite firstn_length. split; [lia|auto].
  - exists w1, [], (Err e). split; [reflexivity|]. split; [exists buf; reflexivity|].
    destruct buf as [|b buf]; [right; eauto|left]. split; [cbn; lia|eauto].
  - exists w1, [], Panic. split; [reflexivity|]. split; [exists buf; reflexivity|]. eauto.
Qed.
Lemma write_whole_whole h buf : buf <> [] ->
  whole (write_whole (watched sys) h buf) (fun _ e => e = send h buf).
Proof.
  intros Nb. split.
  - intros w l. destruct (write_whole_log h buf w l) as (w' & part & r & -> & _ & G).
    exists w', (send h part), r. split; [reflexivity|]. destruct r as [u|e|].
    + rewrite G. reflexivity.
    + intros a p x -> . destruct G as [[G _]|[G _]]; [|contradiction]. apply send_short. exact G.
    + intros a p x -> . destruct G as [-> _]. destruct buf; [contradiction|discriminate].
  - intros [] p [] p' x x' -> -> _. auto.
Qed.

(** An error that came from reading from a stream. *)
Definition from_reading (h : H) (e : io_error) : Prop :=
  e = UnexpectedEof \/ exists w w' n, read sys w h n = (w', Err e).
Lemma read_loop_ends fuel : forall h n w l, (n <= fuel)%nat ->
  exists w' bs r, read_loop (watched sys) fuel h n (w, l) = ((w', l ++ receive h bs), bs, r)
    /\ match r with
       | Ok _ => length bs = n
       | Err e => (length bs < n)%nat /\ from_reading h e
       | Panic => (length bs < n)%nat /\ exists w w' n, read sys w h n = (w', Panic) end.
Proof.
  induction fuel as [|fuel IH]; intros h n w l L; cbn [read_loop].
  - destruct n; [|lia]. exists w, [], (Ok tt). cbn [receive map]. rewrite app_nil_r. auto.
  - destruct n as [|n]; [exists w, [], (Ok tt); cbn [receive map]; rewrite app_nil_r; auto|].
    cbn [watched read fst snd]. destruct (read sys w h (S n)) as [w1 r1] eqn:E.
    destruct r1 as [bs|e|].
    + pose proof (proj2 Hw _ _ _ _ _ E) as E'. destruct bs as [|b bs].
      * exists w1, []; eexists. split; [reflexivity|]. split; [cbn; lia|]. left. reflexivity.
      * destruct (Nat.ltb_spec (S n) (length (b :: bs))); [lia|].
        assert (L' : (S n - length (b :: bs) <= fuel)%nat) by (cbn [length]; lia).
        destruct (IH h (S n - length (b :: bs))%nat w1 (l ++ map (In h) (b :: bs)) L')
          as (w2 & bs2 & r2 & -> & G).
        exists w2, ((b :: bs) ++ bs2), r2. unfold receive. rewrite (map_app (In h) (b :: bs)), app_assoc.
        split; [reflexivity|]. rewrite app_length.
        destruct r2 as [u|e|]; [lia|destruct G; split; [lia|assumption]|destruct G; split; [lia|assumption]].
    + exists w1, []; eexists. split; [reflexivity|]. split; [cbn; lia|]. right. eauto.
    + exists w1, []; eexists. split; [reflexivity|]. split; [cbn; lia|]. eauto.
Qed.
Lemma read_bytes_whole h n :
  whole (read_bytes (watched sys) h n) (fun bs e => e = receive h bs /\ length bs = n).
Proof.
  split.
  - intros w l. unfold read_bytes, read_exact.
    destruct (read_loop_ends n h n w l (le_n n)) as (w' & bs & r & -> & G).
    exists w', (receive h bs), (omap (fun _ => bs) r). split; [reflexivity|]. destruct r as [u|e|]; cbn [omap].
    + auto.
    + intros a p x [-> La]. apply receive_short. lia.
    + intros a p x [-> La]. apply receive_short. lia.
  - intros a p a' p' x x' [-> La] [-> La'] E. apply same_split in E.
    + destruct E as [E _]. apply receive_inj in E. subst. auto.
    + unfold receive. rewrite !map_length. congruence.
Qed.
Lemma read_u32_whole h :
  whole (read_u32 (watched sys) h)
    (fun z e => exists bs e1 e2, e = e1 ++ e2 /\ (e1 = receive h bs /\ length bs = 4%nat) /\ z = be_val bs /\ e2 = []).
Proof. unfold read_u32. apply whole_bind; [apply read_bytes_whole|]. intros bs. apply whole_ret. Qed.
Lemma read_u32_good h z e : u32_ok z -> e = receive h (u32be z) ->
  exists bs e1 e2, e = e1 ++ e2 /\ (e1 = @receive H C h bs /\ length bs = 4%nat) /\ z = be_val bs /\ e2 = [].
Proof.
  intros Hz ->. exists (u32be z), (receive h (u32be z)), []. rewrite app_nil_r. split; [reflexivity|].
  split; [split; [reflexivity|apply be_bytes_length]|]. split; [|reflexivity]. symmetry. apply u32be_val. exact Hz.
Qed.
Lemma whole_weaken {A} (m : io (W * log) A) (g g' : A -> log -> Prop) :
  whole m g -> (forall a e, g a e <-> g' a e) -> whole m g'.
Proof.
  intros [Hm Um] I. split.
  - intros w l. destruct (Hm w l) as (w' & ext & r & E & G). exists w', ext, r. split; [exact E|].
    destruct r as [a|e|]; [apply I; exact G| |]; intros a p x Ga; apply (G a p x); apply I; exact Ga.
  - intros a p a' p' x x' Ga Ga'. apply Um; apply I; assumption.
Qed.
Lemma check_end_whole h : whole (check_response_end (watched sys) h) (fun _ e => e = ack h).
Proof.
  unfold check_response_end.
  eapply whole_weaken.
  - apply whole_bind; [apply read_u32_whole|]. intros z.
    instantiate (1 := fun z _ e => z = 0 /\ e = []). cbn beta.
    destruct (Z.eqb_spec z 0) as [Ez|Nz].
    + eapply whole_weaken; [apply whole_ret|]. cbn beta. intros [] e. intuition.
    + eapply whole_weaken; [apply whole_err|]. cbn beta. intros [] e. intuition.
  - cbn beta. intros a e. split.
    + intros (z & e1 & e2 & -> & (bs & e3 & e4 & -> & (-> & L) & Ez & ->) & -> & ->). rewrite !app_nil_r.
      pose proof (be_bytes_val bs) as Q. rewrite L, <- Ez in Q. rewrite <- Q. reflexivity.
    + intros ->. exists 0, (ack h), []. rewrite app_nil_r. split; [reflexivity|]. split; [|auto].
      apply read_u32_good; [unfold u32_ok; lia|reflexivity].
Qed.
Lemma shutdown_whole h : whole (fun w => shutdown (watched sys) w h) (fun _ e => e = [Shut h]).
Proof.
  split.
  - intros w l. cbn [watched shutdown fst snd]. destruct (shutdown sys w h) as [w1 [u|e|]].
    + exists w1, [Shut h], (Ok u). auto.
    + exists w1, [], (Err e). split; [reflexivity|]. intros a p x ->. discriminate.
    + exists w1, [], Panic. split; [reflexivity|]. intros a p x ->. discriminate.
  - intros [] p [] p' x x' -> -> _. auto.
Qed.
(** One after the other, without results. *)
Lemma then_whole {A} (m : io (W * log) unit) (n : io (W * log) A) e1 g :
  whole m (fun _ e => e = e1) -> whole n g ->
  whole (m ;; n) (fun a e => exists e2, e = e1 ++ e2 /\ g a e2).
Proof.
  intros Hm Hn. eapply whole_weaken; [apply (whole_bind _ _ _ (fun _ => g) Hm); intros; exact Hn|].
  cbn beta. intros a e. split.
  - intros (u & x1 & x2 & -> & -> & G). eauto.
  - intros (x2 & -> & G). exists tt, e1, x2. auto.
Qed.
Lemma seq_whole (m n : io (W * log) unit) e1 e2 :
  whole m (fun _ e => e = e1) -> whole n (fun _ e => e = e2) -> whole (m ;; n) (fun _ e => e = e1 ++ e2).
Proof.
  intros Hm Hn. eapply whole_weaken; [apply then_whole; eassumption|].
  cbn beta. intros a e. split; [intros (x & -> & ->); reflexivity|intros ->; eauto].
Qed.
Lemma signal_whole h code :
  whole (write_all (watched sys) h (u32_bytes code) ;; check_response_end (watched sys) h)
    (fun _ e => e = signalled h code).
Proof. apply seq_whole; [apply write_all_whole|apply check_end_whole]. Qed.
Lemma request_whole h bytes : bytes <> [] ->
  whole (write_whole (watched sys) h bytes ;; check_response_end (watched sys) h)
    (fun _ e => e = send h bytes ++ ack h).
Proof. intros N. apply seq_whole; [apply write_whole_whole; exact N|apply check_end_whole]. Qed.
Lemma end_whole c code :
  whole (end_both (watched sys) c code)
    (fun _ e => e = send (tpm_tcp c) (u32be code) ++ [Shut (tpm_tcp c)]
                    ++ send (plat_tcp c) (u32be code) ++ [Shut (plat_tcp c)]).
Proof.
  unfold end_both. repeat (apply seq_whole; [first [apply write_all_whole|apply shutdown_whole]|]). apply shutdown_whole.
Qed.
End Whole.

Section Calls.
Context {W H C : Type} (sys : world W H C) (Hw : wf_world sys).
Notation log := (list (event H C)).
Lemma whole_ok {A} (m : io (W * log) A) g x conv w l w' r :
  whole m g -> g x conv -> m (w, l) = ((w', l ++ conv), r) -> r = Ok x.
Proof.
  intros [Hm Um] Gx E. destruct (Hm w l) as (w1 & ext & r1 & E1 & G). rewrite E in E1.
  assert (Er : r = r1) by congruence. assert (Ee : l ++ conv = l ++ ext) by congruence.
  apply app_inv_head in Ee. subst ext r1. clear E E1. destruct r as [a|e|].
  - f_equal. refine (proj1 (Um a conv x conv [] [] G Gx eq_refl)).
  - exfalso. apply (G x conv [] Gx). symmetry. apply app_nil_r.
  - exfalso. apply (G x conv [] Gx). symmetry. apply app_nil_r.
Qed.
Lemma handshake_whole c v :
  exists g, whole (remote_handshake (watched sys) c v) g
  /\ forall sv ei, u32_ok sv -> u32_ok ei ->
       g (sv, ei) (send (tpm_tcp c) (u32be 15 ++ u32be v) ++ receive (tpm_tcp c) (u32be sv ++ u32be ei) ++ ack (tpm_tcp c)).
Proof.
  eexists. split.
  - unfold remote_handshake. eapply then_whole; [apply write_whole_whole; [exact Hw|discriminate]|].
    eapply whole_bind; [apply read_bytes_whole; exact Hw|]. intros resp.
    eapply then_whole; [apply check_end_whole; exact Hw|]. apply whole_ret.
  - intros sv ei Hs He. cbn beta. eexists. split; [reflexivity|].
    exists (u32be sv ++ u32be ei). eexists. eexists. split; [reflexivity|]. split; [split; [reflexivity|]|].
    + rewrite app_length. unfold u32be. rewrite !be_bytes_length. reflexivity.
    + exists []. rewrite app_nil_r. split; [reflexivity|]. split; [|reflexivity].
      replace (firstn 4 (u32be sv ++ u32be ei)) with (u32be sv)
        by (symmetry; apply firstn_app_exact'; symmetry; apply be_bytes_length).
      replace (skipn 4 (u32be sv ++ u32be ei)) with (u32be ei)
        by (symmetry; apply skipn_app_exact'; symmetry; apply be_bytes_length).
      rewrite !u32be_val by assumption. reflexivity.
Qed.
Lemma sizes_whole c :
  exists g, whole (get_command_response_sizes (watched sys) c) g
  /\ forall x1 x2 x3 x4, u32_ok x1 -> u32_ok x2 -> u32_ok x3 -> u32_ok x4 ->
       g (x1, x2, x3, x4) (send (plat_tcp c) (u32be 25)
         ++ receive (plat_tcp c) (u32be 16 ++ le_bytes 4 x1 ++ u32be x2 ++ le_bytes 4 x3 ++ u32be x4) ++ ack (plat_tcp c)).
Proof.
  eexists. split.
  - unfold get_command_response_sizes. eapply then_whole; [apply write_all_whole; exact Hw|].
    eapply whole_bind; [apply read_u32_whole; exact Hw|]. intros len.
    instantiate (1 := fun len r e => len = 16 /\ exists resp e1 e2, e = e1 ++ e2
       /\ (e1 = receive (plat_tcp c) resp /\ length resp = 16%nat)
       /\ exists e3, e2 = ack (plat_tcp c) ++ e3
          /\ r = (le_val (firstn 4 resp), be_val (firstn 4 (skipn 4 resp)),
                  le_val (firstn 4 (skipn 8 resp)), be_val (skipn 12 resp)) /\ e3 = []).
    cbn beta. destruct (Z.eqb_spec len 16) as [El|Nl]; cbn [negb].
    + eapply whole_weaken.
      * eapply whole_bind; [apply read_bytes_whole; exact Hw|]. intros resp.
        eapply then_whole; [apply check_end_whole; exact Hw|]. apply whole_ret.
      * cbn beta. intros r e. split; [intros Q; split; [exact El|exact Q]|intros [_ Q]; exact Q].
    + eapply whole_weaken; [apply whole_err|]. cbn beta. intros r e. intuition.
  - intros x1 x2 x3 x4 H1 H2 H3 H4. cbn beta. eexists. split; [reflexivity|].
    exists 16, (receive (plat_tcp c) (u32be 16)). eexists. split; [rewrite receive_app, <- app_assoc; reflexivity|].
    split; [apply read_u32_good; [unfold u32_ok; lia|reflexivity]|]. split; [reflexivity|].
    set (resp := le_bytes 4 x1 ++ u32be x2 ++ le_bytes 4 x3 ++ u32be x4).
    assert (Le : forall z, length (le_bytes 4 z) = 4%nat) by (intros; reflexivity).
    assert (Be : forall z, length (u32be z) = 4%nat) by (intros; apply be_bytes_length).
    exists resp. eexists. eexists. split; [reflexivity|]. split; [split; [reflexivity|]|].
    + unfold resp. rewrite !app_length, !Le, !Be. reflexivity.
    + exists []. rewrite app_nil_r. split; [reflexivity|]. split; [|reflexivity].
      assert (S4 : skipn 4 resp = u32be x2 ++ le_bytes 4 x3 ++ u32be x4) by (apply skipn_app_exact'; symmetry; apply Le).
      assert (S8 : skipn 8 resp = le_bytes 4 x3 ++ u32be x4).
      { unfold resp. rewrite app_assoc. apply skipn_app_exact'. rewrite app_length, Le, Be. reflexivity. }
      assert (S12 : skipn 12 resp = u32be x4).
      { unfold resp. rewrite (app_assoc (u32be x2)), app_assoc. apply skipn_app_exact'.
        rewrite !app_length, !Le, Be. reflexivity. }
      rewrite S4, S8, S12.
      assert (F : forall a b : list byte, length a = 4%nat -> firstn 4 (a ++ b) = a) by (intros a b L; apply firstn_app_exact'; symmetry; exact L).
      unfold resp. rewrite !F by first [apply Le|apply Be].
      rewrite !u32be_val, !le4_val by assumption. reflexivity.
Qed.
Lemma act_whole c z :
  exists g, whole (act_get_signaled (watched sys) c z) g
  /\ forall n, u32_ok n -> g n (send (plat_tcp c) (u32be 26 ++ u32be z) ++ receive (plat_tcp c) (u32be n) ++ ack (plat_tcp c)).
Proof.
  eexists. split.
  - unfold act_get_signaled. eapply then_whole; [apply write_whole_whole; [exact Hw|discriminate]|].
    eapply whole_bind; [apply read_u32_whole; exact Hw|]. intros n.
    eapply then_whole; [apply check_end_whole; exact Hw|]. apply whole_ret.
  - intros n Hn. cbn beta. eexists. split; [reflexivity|]. exists n. eexists. eexists. split; [reflexivity|].
    split; [apply read_u32_good; [exact Hn|reflexivity]|]. exists []. rewrite app_nil_r. auto.
Qed.
Lemma hcrtm_whole c data :
  whole (hcrtm_sequence (watched sys) c data)
    (fun _ e => e = signalled (tpm_tcp c) 5
       ++ send (tpm_tcp c) (u32be 6 ++ u32be (Z.of_nat (length data)) ++ data) ++ ack (tpm_tcp c)
       ++ signalled (tpm_tcp c) 7).
Proof.
  unfold hcrtm_sequence, signalled. rewrite <- !app_assoc.
  apply seq_whole; [apply write_all_whole; exact Hw|]. apply seq_whole; [apply check_end_whole; exact Hw|].
  apply seq_whole.
  - rewrite <- (u32be_mod (Z.of_nat (length data))). apply write_whole_whole; [exact Hw|discriminate].
  - apply seq_whole; [apply check_end_whole; exact Hw|]. apply seq_whole; [apply write_all_whole; exact Hw|apply check_end_whole; exact Hw].
Qed.
Lemma reinit_whole c :
  whole (reinit (watched sys) c)
    (fun _ e => e = signalled (plat_tcp c) 12 ++ signalled (plat_tcp c) 2 ++ signalled (plat_tcp c) 1 ++ signalled (plat_tcp c) 11).
Proof.
  unfold reinit, platform_signal. repeat (apply seq_whole; [apply signal_whole; exact Hw|]). apply signal_whole. exact Hw.
Qed.
End Calls.

(** ** C95 *)

(** Against every peer and system: a call succeeds with an answer if and only
    if the conversation that the protocol has for this call and this answer
    took place, to the last byte. *)
Theorem c95_calls : forall (W H C : Type) (sys : world W H C) (c c' : tcp H) o (w w' : W) (l seen : list (event H C)) r a,
  wf_world sys ->
  perform (watched sys) c o (w, l) = (c', (w', l ++ seen), r) ->
  (r = Ok a <-> answers o a /\ seen = conversation c o a).
Proof.
  intros W H C sys c c' o w w' l seen r a Hw E. split.
  { intros ->. destruct (perform_spec sys Hw c o w l) as (w1 & seen1 & r1 & E1 & _ & G). rewrite E in E1.
    assert (r1 = Ok a) by congruence. assert (Es : l ++ seen = l ++ seen1) by congruence. apply app_inv_head in Es. subst.
    apply G. reflexivity. }
  intros [Ha ->].
  assert (K : forall (A : Type) (m : io (W * list (event H C)) A) g x (f : A -> answer),
            whole m g -> g x (conversation c o a) -> f x = a ->
            (c', (w', l ++ conversation c o a), r) = (c, fst (m (w, l)), omap f (snd (m (w, l)))) -> r = Ok a).
  { intros A m g x f Hm Gx Fx Em. destruct (m (w, l)) as [[w1 l1] r1] eqn:E1. cbn [fst snd] in Em.
    assert (Er : r = omap f r1) by congruence. assert (l1 = l ++ conversation c o a) by congruence. subst l1.
    rewrite (whole_ok m g x _ _ _ _ _ Hm Gx E1) in Er. rewrite Er. cbn [omap]. rewrite Fx. reflexivity. }
  assert (U : forall (m : io (W * list (event H C)) unit),
            whole m (fun _ e => e = conversation c o a) -> Done = a ->
            (c', (w', l ++ conversation c o a), r) = (c, fst (unit_answer (m (w, l))), snd (unit_answer (m (w, l)))) -> r = Ok a).
  { intros m Hm Fx Em. apply (K unit m _ tt (fun _ => Done) Hm eq_refl Fx). exact Em. }
  destruct o as [command response|data|v|z|s| | | |z|z|z|lo| |]; cbn [perform] in E; symmetry in E.
  - (* Transact *)
    destruct a as [|bytes| | |]; try contradiction. cbn [answers] in Ha. destruct Ha as [Lb Hb].
    destruct (Z.leb_spec (2 ^ 32) (Z.of_nat (length command))) as [Big|Wr].
    { exfalso. rewrite c38_too_long in E by exact Big.
      assert (El : l ++ conversation c (Transact command response) (Payload bytes) = l) by congruence.
      rewrite <- (app_nil_r l) in El at 2. apply app_inv_head in El. discriminate. }
    set (t := tpm_tcp c) in *. set (frame := command_frame c command).
    assert (Nf : frame <> []) by discriminate.
    set (m := write_whole (watched sys) t frame ;; (read_u32 (watched sys) t >>= fun len =>
               if Z.of_nat (length response) <? len then io_err InvalidInput
               else read_bytes (watched sys) t (Z.to_nat len) >>= fun bs =>
                    check_response_end (watched sys) t ;; io_ret bs)).
    assert (Em : (c', (w', l ++ conversation c (Transact command response) (Payload bytes)), r)
                 = (c, fst (m (w, l)), omap Payload (snd (m (w, l))))).
    { rewrite E. unfold tcp_transact, m.
      replace (2 ^ 32 <=? Z.of_nat (length command)) with false by (symmetry; apply Z.leb_gt; exact Wr).
      change (u32_bytes SendCommand ++ be_bytes 1 (locality c) ++ u32_bytes (Z.of_nat (length command)) ++ command) with frame.
      fold t. unfold io_bind. destruct (write_whole (watched sys) t frame (w, l)) as [w1 [u|e|]]; cbn [fst snd omap]; [|reflexivity|reflexivity].
      destruct (read_u32 (watched sys) t w1) as [w2 [len|e|]]; cbn [fst snd omap]; [|reflexivity|reflexivity].
      destruct (Z.of_nat (length response) <? len); [reflexivity|].
      unfold read_bytes, read_exact. destruct w2 as [w2 l2].
      destruct (read_loop_ends sys Hw (Z.to_nat len) t (Z.to_nat len) w2 l2 (le_n _)) as (w3 & bs & r3 & -> & G).
      destruct r3 as [u3|e|]; cbn [fst snd omap]; [|reflexivity|reflexivity].
      destruct (check_response_end (watched sys) t (w3, l2 ++ receive t bs)) as [w4 [u4|e|]]; cbn [fst snd omap]; [|reflexivity|reflexivity].
      cbn [fst snd io_ret omap]. rewrite <- G, firstn_overwrite. reflexivity. }
    refine (K _ m _ bytes Payload _ _ eq_refl Em).
    + unfold m. eapply then_whole; [apply write_whole_whole; [exact Hw|exact Nf]|].
      eapply whole_bind; [apply read_u32_whole; exact Hw|]. intros len.
      instantiate (1 := fun len b e => len <= Z.of_nat (length response) /\ exists bs e1 e2, e = e1 ++ e2
        /\ (e1 = receive t bs /\ length bs = Z.to_nat len) /\ exists e3, e2 = ack t ++ e3 /\ b = bs /\ e3 = []).
      cbn beta. destruct (Z.ltb_spec (Z.of_nat (length response)) len) as [Big|Fits].
      * eapply whole_weaken; [apply whole_err|]. cbn beta. intros b e. split; [intros []|]. intros [Q _]. lia.
      * eapply whole_weaken.
        -- eapply whole_bind; [apply read_bytes_whole; exact Hw|]. intros bs.
           eapply then_whole; [apply check_end_whole; exact Hw|]. apply whole_ret.
        -- cbn beta. intros b e. split; [intros Q; split; [exact Fits|exact Q]|intros [_ Q]; exact Q].
    + cbn beta. eexists. split; [reflexivity|]. exists (Z.of_nat (length bytes)), (receive t (u32be (Z.of_nat (length bytes)))).
      eexists. split; [fold t; rewrite receive_app, <- app_assoc; reflexivity|].
      split; [apply read_u32_good; [exact Hb|reflexivity]|]. split; [lia|].
      exists bytes. eexists. eexists. split; [reflexivity|]. rewrite Nat2Z.id. split; [auto|]. exists []. rewrite app_nil_r. auto.
  - destruct a; try contradiction. refine (U _ _ eq_refl E). apply hcrtm_whole. exact Hw.
  - destruct a; try contradiction. cbn [answers] in Ha. destruct Ha as [H1 H2].
    destruct (handshake_whole sys Hw c v) as (g & Hm & Gg).
    refine (K _ (remote_handshake (watched sys) c v) g (server_version, endpoint_info) (fun x => Versions (fst x) (snd x)) Hm (Gg _ _ H1 H2) eq_refl _).
    rewrite E. destruct (remote_handshake (watched sys) c v (w, l)) as [w1 r1]. reflexivity.
  - destruct a; try contradiction. refine (U _ _ eq_refl E). apply request_whole; [exact Hw|discriminate].
  - destruct a; try contradiction. refine (U _ _ eq_refl E). unfold platform_signal.
    eapply whole_weaken; [apply signal_whole; exact Hw|]. cbn beta. intros u e. destruct s; reflexivity.
  - destruct a; try contradiction. refine (U _ _ eq_refl E). apply reinit_whole. exact Hw.
  - destruct a; try contradiction. refine (U _ _ eq_refl E). apply signal_whole. exact Hw.
  - destruct a; try contradiction. cbn [answers] in Ha. destruct Ha as (H1 & H2 & H3 & H4).
    destruct (sizes_whole sys Hw c) as (g & Hm & Gg).
    refine (K _ (get_command_response_sizes (watched sys) c) g (command_size, command, response_size, response)
              (fun '(x1, x2, x3, x4) => Sizes x1 x2 x3 x4) Hm (Gg _ _ _ _ H1 H2 H3 H4) eq_refl _).
    rewrite E. destruct (get_command_response_sizes (watched sys) c (w, l)) as [w1 r1]. reflexivity.
  - destruct a; try contradiction. cbn [answers] in Ha.
    destruct (act_whole sys Hw c z) as (g & Hm & Gg).
    refine (K _ (act_get_signaled (watched sys) c z) g _ Number Hm (Gg _ Ha) eq_refl _).
    rewrite E. destruct (act_get_signaled (watched sys) c z (w, l)) as [w1 r1]. reflexivity.
  - destruct a; try contradiction. refine (U _ _ eq_refl E). apply request_whole; [exact Hw|discriminate].
  - destruct a; try contradiction. refine (U _ _ eq_refl E). apply request_whole; [exact Hw|discriminate].
  - destruct a; try contradiction. congruence.
  - destruct a; try contradiction. refine (U _ _ eq_refl E). apply end_whole. exact Hw.
  - destruct a; try contradiction. refine (U _ _ eq_refl E). apply end_whole. exact Hw.
Qed.

Example c95_calls_case :
  let os := [Transact get_random_cmd (repeat x55 16); Hcrtm [x01; x02]; Handshake 1; AlternativeResult 5; Signal PowerOn; Reinit;
             FailureMode; ResponseSizes; ActSignaled 3; FirmwareHash 7; FirmwareSvn 8; Locality 4; EndSession; StopSimulator] in
  let ans := [Payload random_rsp; Done; Versions 1 2; Done; Done; Done; Done; Sizes 1 2 3 4; Number 9; Done; Done; Done; Done; Done] in
  forallb (fun '(o, a) =>
    match perform (watched (pipe byte_by_byte)) (ends 3) o (in_store (@conversation bool unit (ends 3) o a) ([], []), []) with
    | (_, (_, seen), Ok _) => (length seen =? length (@conversation bool unit (ends 3) o a))%nat
    | _ => false
    end) (combine os ans) = true.
Proof. vm_compute. reflexivity. Qed.

(** How a command ended, from the bytes exchanged: nothing was said because the
    command is too long; or a part of the frame was said; or all of it, and the
    answer broke off in its length, in the response or in the acknowledgement,
    or announced more than the buffer holds, or had a wrong acknowledgement; or
    it was complete.  The error, and what is in the buffer, follow. *)
Inductive ended {W H C} (sys : world W H C) (c : tcp H) (command response : list byte)
    : list (event H C) -> list byte -> outcome io_error nat -> Prop :=
| TooLong : 2 ^ 32 <= Z.of_nat (length command) ->
    ended sys c command response [] response (Err InvalidInput)
| NotSent : forall part e, (length part < length (command_frame c command))%nat ->
    (exists rest, command_frame c command = part ++ rest) ->
    e = WriteZero \/ (exists w w', write sys w (tpm_tcp c) (command_frame c command) = (w', Err e)) ->
    ended sys c command response (send (tpm_tcp c) part) response (Err e)
| NoLength : forall part e, (length part < 4)%nat -> from_reading sys (tpm_tcp c) e ->
    ended sys c command response
      (send (tpm_tcp c) (command_frame c command) ++ receive (tpm_tcp c) part) response (Err e)
| TooBig : forall len, u32_ok len -> Z.of_nat (length response) < len ->
    ended sys c command response
      (send (tpm_tcp c) (command_frame c command) ++ receive (tpm_tcp c) (u32be len)) response (Err InvalidInput)
| BrokenOff : forall len part e, u32_ok len -> len <= Z.of_nat (length response) ->
    Z.of_nat (length part) < len -> from_reading sys (tpm_tcp c) e ->
    ended sys c command response
      (send (tpm_tcp c) (command_frame c command) ++ receive (tpm_tcp c) (u32be len ++ part))
      (part ++ skipn (length part) response) (Err e)
| NoAcknowledgement : forall payload part e, (length payload <= length response)%nat ->
    (length part < 4)%nat -> from_reading sys (tpm_tcp c) e ->
    ended sys c command response
      (send (tpm_tcp c) (command_frame c command)
       ++ receive (tpm_tcp c) (u32be (Z.of_nat (length payload)) ++ payload ++ part))
      (payload ++ skipn (length payload) response) (Err e)
| WrongAcknowledgement : forall payload z, (length payload <= length response)%nat -> u32_ok z -> z <> 0 ->
    ended sys c command response
      (send (tpm_tcp c) (command_frame c command)
       ++ receive (tpm_tcp c) (u32be (Z.of_nat (length payload)) ++ payload ++ u32be z))
      (payload ++ skipn (length payload) response) (Err InvalidData)
| Complete : forall payload, (length payload <= length response)%nat ->
    ended sys c command response
      (send (tpm_tcp c) (command_frame c command) ++ receive (tpm_tcp c) (response_frame payload))
      (payload ++ skipn (length payload) response) (Ok (length payload)).

Lemma read_u32_ends {W H C} (sys : world W H C) (Hw : quiet_world sys) h w l :
  exists w' bs r, read_u32 (watched sys) h (w, l) = ((w', l ++ receive h bs), r)
    /\ match r with
       | Ok z => bs = u32be z /\ u32_ok z
       | Err e => (length bs < 4)%nat /\ from_reading sys h e
       | Panic => False
       end.
Proof.
  unfold read_u32, read_bytes, read_exact, io_bind.
  destruct (read_loop_ends sys (proj1 Hw) 4 h 4 w l (le_n _)) as (w' & bs & r & -> & G).
  destruct r as [u|e|]; cbn [omap].
  - exists w', bs, (Ok (be_val bs)). split; [reflexivity|]. destruct (be4 bs G). auto.
  - exists w', bs, (Err e). auto.
  - destruct G as (_ & w0 & w1 & n & E). destruct Hw as (_ & _ & _ & Q & _). specialize (Q w0 h n). rewrite E in Q. discriminate.
Qed.

(** Every command, against every peer, ends in one of these ways. *)
Theorem c95_ended : forall (W H C : Type) (sys : world W H C) (c : tcp H) (w : W) (l : list (event H C)) command response,
  quiet_world sys ->
  exists w' seen response' r,
    tcp_transact (watched sys) c (w, l) command response = ((w', l ++ seen), response', r)
    /\ ended sys c command response seen response' r.
Proof.
  intros W H C sys c w l command response Hq. pose proof (proj1 Hq) as Hw.
  destruct (Z.leb_spec (2 ^ 32) (Z.of_nat (length command))) as [Big|Wr].
  { exists w, [], response, (Err InvalidInput). rewrite app_nil_r. split; [apply c38_too_long; exact Big|]. constructor. exact Big. }
  unfold tcp_transact. replace (2 ^ 32 <=? Z.of_nat (length command)) with false by (symmetry; apply Z.leb_gt; exact Wr).
  change (u32_bytes SendCommand ++ be_bytes 1 (locality c) ++ u32_bytes (Z.of_nat (length command)) ++ command)
    with (command_frame c command).
  set (t := tpm_tcp c). set (frame := command_frame c command). unfold io_bind at 1.
  destruct (write_whole_log sys Hw t frame w l) as (w1 & part & r1 & -> & Pre & G1).
  destruct r1 as [u|e|].
  2:{ exists w1, (send t part), response, (Err e). split; [reflexivity|]. destruct G1 as [[L G1]|[N _]]; [|discriminate].
      apply NotSent; assumption. }
  2:{ destruct G1 as (_ & w0 & w2 & E). destruct Hq as (_ & _ & Q & _). specialize (Q w0 t frame). rewrite E in Q. discriminate. }
  subst part. destruct (read_u32_ends sys Hq t w1 (l ++ send t frame)) as (w2 & bs & r2 & -> & G2).
  destruct r2 as [len|e|]; [|exists w2, (send t frame ++ receive t bs), response, (Err e)|contradiction].
  2:{ rewrite app_assoc. split; [reflexivity|]. destruct G2. apply NoLength; assumption. }
  destruct G2 as [-> Hl]. destruct (Z.ltb_spec (Z.of_nat (length response)) len) as [Big|Fits].
  { exists w2, (send t frame ++ receive t (u32be len)), response, (Err InvalidInput). rewrite app_assoc.
    split; [reflexivity|]. apply TooBig; assumption. }
  unfold read_exact. destruct (read_loop_ends sys Hw (Z.to_nat len) t (Z.to_nat len) w2 ((l ++ send t frame) ++ receive t (u32be len)) (le_n _))
    as (w3 & bs & r3 & -> & G3).
  destruct r3 as [u3|e|].
  2:{ exists w3, (send t frame ++ receive t (u32be len ++ bs)), (overwrite bs response), (Err e).
      rewrite receive_app, !app_assoc. split; [reflexivity|]. destruct G3 as [L3 F3]. unfold u32_ok in Hl.
      rewrite <- !app_assoc. rewrite <- receive_app. apply BrokenOff; [exact Hl|exact Fits|lia|exact F3]. }
  2:{ destruct G3 as (_ & w0 & w4 & n & E). destruct Hq as (_ & _ & _ & Q & _). specialize (Q w0 t n). rewrite E in Q. discriminate. }
  assert (El : len = Z.of_nat (length bs)) by (unfold u32_ok in Hl; lia). subst len. clear G3. rewrite Nat2Z.id.
  unfold check_response_end, io_bind.
  destruct (read_u32_ends sys Hq t w3 (((l ++ send t frame) ++ receive t (u32be (Z.of_nat (length bs)))) ++ receive t bs)) as (w4 & zs & r4 & -> & G4).
  set (seen := @send H C t frame ++ receive t (u32be (Z.of_nat (length bs)) ++ bs ++ zs)).
  assert (Es : (((l ++ send t frame) ++ receive t (u32be (Z.of_nat (length bs)))) ++ receive t bs) ++ receive t zs = l ++ seen).
  { unfold seen. rewrite !receive_app, <- !app_assoc. reflexivity. }
  assert (Lb : (length bs <= length response)%nat) by lia.
  destruct r4 as [z|e|]; [|exists w4, seen, (overwrite bs response), (Err e)|contradiction].
  2:{ rewrite Es. split; [reflexivity|]. destruct G4. apply NoAcknowledgement; assumption. }
  destruct G4 as [-> Hz]. destruct (Z.eqb_spec z 0) as [->|Nz]; unfold io_ret, io_err; rewrite Es; cbn [omap].
  - exists w4, seen, (overwrite bs response), (Ok (length bs)). split; [reflexivity|]. apply Complete. exact Lb.
  - exists w4, seen, (overwrite bs response), (Err InvalidData). split; [reflexivity|]. apply WrongAcknowledgement; assumption.
Qed.

Example c95_ended_cases :
  let run stored response := tcp_transact (pipe byte_by_byte) (ends 0) (stored, []) get_random_cmd response in
  run [x00; x00] [x55; x55] = (([], []), [x55; x55], Err UnexpectedEof)                                        (* NoLength *)
  /\ run [x00; x00; x00; x03; x01] [x55; x55] = (([x01], []), [x55; x55], Err InvalidInput)                    (* TooBig *)
  /\ run [x00; x00; x00; x02; x01] [x55; x55] = (([], []), [x01; x55], Err UnexpectedEof)                      (* BrokenOff *)
  /\ run [x00; x00; x00; x01; x01; x00] [x55; x55] = (([], []), [x01; x55], Err UnexpectedEof)                 (* NoAcknowledgement *)
  /\ run [x00; x00; x00; x01; x01; x00; x00; x00; x07] [x55; x55] = (([], []), [x01; x55], Err InvalidData)    (* WrongAcknowledgement *)
  /\ run [x00; x00; x00; x01; x01; x00; x00; x00; x00] [x55; x55] = (([], []), [x01; x55], Ok 1%nat).          (* Complete *)
Proof. vm_compute. repeat split. Qed.

(** A response that carries an error of the TPM is returned like any other:
    whatever the tag, the response code and what follows them. *)
Theorem c95_error_codes : forall pieces l command response tag size code more w,
  Z.of_nat (length command) < 2 ^ 32 ->
  let rsp := be_bytes 2 tag ++ u32be size ++ u32be code ++ more in
  (length rsp <= length response)%nat -> Z.of_nat (length rsp) < 2 ^ 32 ->
  perform (pipe pieces) (ends l) (Transact command response) (response_frame rsp ++ fst w, snd w)
  = (ends l, w, Ok (Payload rsp)).
Proof.
  intros pieces l command response tag size code more w Hc rsp Lr Hr.
  pose proof (c40_left_partial pieces l command response rsp 0 w Hc Hr ltac:(lia)) as P.
  replace (length rsp <=? length response)%nat with true in P by (symmetry; apply Nat.leb_le; exact Lr).
  etransitivity; [|exact P]. unfold response_frame. rewrite <- !app_assoc. reflexivity.
Qed.
Example c95_error_codes_case :   (* TPM_RC_FAILURE *)
  let rsp := [x80; x01; x00; x00; x00; x0a; x00; x00; x01; x01] in
  perform (pipe byte_by_byte) (ends 0) (Transact get_random_cmd (repeat x00 12)) (response_frame rsp, [])
  = (ends 0, ([], []), Ok (Payload rsp)).
Proof. vm_compute. reflexivity. Qed.

(** The documentation says that an error is only returned when no response
    could be got at all.  That is false: here the whole response was received,
    is in the buffer, and the call fails. *)
Theorem c95_no_response_refuted :
  ~ (forall (W H C : Type) (sys : world W H C) (c : tcp H) (w w' : W) (l l' : list (event H C)) command response response' e,
       quiet_world sys ->
       tcp_transact (watched sys) c (w, l) command response = ((w', l'), response', Err e) ->
       ~ exists payload rest,
           (length payload <= length response)%nat
           /\ l' = l ++ send (tpm_tcp c) (command_frame c command)
                     ++ receive (tpm_tcp c) (u32be (Z.of_nat (length payload)) ++ payload) ++ rest).
Proof.
  intros F.
  refine (F _ _ _ (pipe byte_by_byte) (ends 0) (u32be 14 ++ random_rsp ++ u32be 1, []) ([], []) [] _
            get_random_cmd (repeat x00 14) random_rsp InvalidData (pipe_quiet _) _ _).
  - vm_compute. reflexivity.
  - exists random_rsp, (receive true (u32be 1)). split; [apply Nat.leb_le; reflexivity|]. vm_compute. reflexivity.
Qed.
