(** Signals during the calls of the simulator connection (C98). *)
From Coq Require Import ZArith NArith List Lia Bool.
From Coq Require Import Init.Byte.
From Verif Require Import Prelude Client Tcp TcpSpec TcpProofs SimulatorProofs TcpFacts Interrupts.
Import ListNotations.
Open Scope Z_scope.

(** [sys] is a system without signals (they are in the schedule). *)
Definition without_signals {W H C} (sys : world W H C) : Prop :=
  (forall w h buf, snd (write sys w h buf) <> Err interrupted)
  /\ (forall w h n, snd (read sys w h n) <> Err interrupted).

Section Proofs.
Context {W H C : Type} (sys : world W H C) (Hs : without_signals sys).

Definition unaffected {A} (m' : io (signals W) A) (m : io W A) : Prop :=
  forall ks w, exists ks', m' (ks, w) = ((ks', fst (m w)), snd (m w)).

Lemma not_interrupted e : e <> interrupted -> is_interrupted e = false.
Proof.
  intros N. destruct e as [c| | | | | |c]; try reflexivity.
  cbn. destruct c as [|p|p]; try reflexivity.
  destruct p as [p|p|]; try reflexivity. destruct p as [p|p|]; try reflexivity.
  destruct p; try reflexivity. contradiction N. reflexivity.
Qed.

Lemma to_come_tl ks : (to_come (tl ks) <= to_come ks)%nat.
Proof. destruct ks; cbn; lia. Qed.

Lemma write_loop_same : forall fuel_i fuel h buf ks w,
  (length buf <= fuel)%nat -> (length buf + to_come ks <= fuel_i)%nat ->
  exists ks', write_loop_i sys fuel_i h buf (ks, w)
              = ((ks', fst (write_loop sys fuel h buf w)), snd (write_loop sys fuel h buf w)).
Proof.
  induction fuel_i as [|fi IH]; intros fuel h buf ks w L1 L2.
  - destruct buf as [|b buf]; [|cbn in L2; lia]. exists ks. destruct fuel; reflexivity.
  - destruct buf as [|b buf]; [exists ks; destruct fuel; reflexivity|].
    destruct fuel as [|fuel]; [cbn in L1; lia|].
    destruct ks as [|[|k] ks].
    + cbn [write_loop_i write_call disturbed]. unfold write_call, disturbed. cbn [write_loop].
      destruct (write sys w h (b :: buf)) as [w' [n|e|]] eqn:E.
      * destruct n as [|n]; [eexists; reflexivity|].
        destruct (Nat.ltb_spec (length (b :: buf)) (S n)); [eexists; reflexivity|].
        apply IH; rewrite skipn_length; cbn [length to_come fold_right tl] in *; lia.
      * rewrite not_interrupted; [eexists; reflexivity|].
        intros ->. apply (proj1 Hs w h (b :: buf)). rewrite E. reflexivity.
      * eexists. reflexivity.
    + cbn [write_loop_i write_call disturbed]. unfold write_call, disturbed. cbn [write_loop].
      destruct (write sys w h (b :: buf)) as [w' [n|e|]] eqn:E.
      * destruct n as [|n]; [eexists; reflexivity|].
        destruct (Nat.ltb_spec (length (b :: buf)) (S n)); [eexists; reflexivity|].
        apply IH; rewrite skipn_length; cbn [length to_come fold_right tl] in *; unfold to_come in *; lia.
      * rewrite not_interrupted; [eexists; reflexivity|].
        intros ->. apply (proj1 Hs w h (b :: buf)). rewrite E. reflexivity.
      * eexists. reflexivity.
    + cbn [write_loop_i]. unfold write_call, disturbed. cbn [is_interrupted interrupted].
      apply (IH (S fuel)); [assumption|]. unfold to_come in *. cbn [length fold_right] in *. lia.
Qed.

Lemma read_loop_same : forall fuel_i fuel h n ks w,
  (n <= fuel)%nat -> (n + to_come ks <= fuel_i)%nat ->
  exists ks', read_loop_i sys fuel_i h n (ks, w)
              = (let '(w', bs, r) := read_loop sys fuel h n w in ((ks', w'), bs, r)).
Proof.
  induction fuel_i as [|fi IH]; intros fuel h n ks w L1 L2.
  - destruct n as [|n]; [|lia]. exists ks. destruct fuel; reflexivity.
  - destruct n as [|n]; [exists ks; destruct fuel; reflexivity|].
    destruct fuel as [|fuel]; [lia|].
    destruct ks as [|[|k] ks].
    + cbn [read_loop_i]. unfold read_call, disturbed. cbn [read_loop].
      destruct (read sys w h (S n)) as [w' [bs|e|]] eqn:E.
      * destruct bs as [|b bs]; [eexists; reflexivity|].
        destruct (Nat.ltb_spec (S n) (length (b :: bs))); [eexists; reflexivity|].
        destruct (IH fuel h (S n - length (b :: bs))%nat (tl []) w') as (ks' & E').
        { cbn [length]. lia. } { cbn [length to_come fold_right tl] in *. lia. }
        rewrite E'. destruct (read_loop sys fuel h (S n - length (b :: bs)) w') as [[w2 bs2] r2].
        eexists. reflexivity.
      * rewrite not_interrupted; [eexists; reflexivity|].
        intros ->. apply (proj2 Hs w h (S n)). rewrite E. reflexivity.
      * eexists. reflexivity.
    + cbn [read_loop_i]. unfold read_call, disturbed. cbn [read_loop].
      destruct (read sys w h (S n)) as [w' [bs|e|]] eqn:E.
      * destruct bs as [|b bs]; [eexists; reflexivity|].
        destruct (Nat.ltb_spec (S n) (length (b :: bs))); [eexists; reflexivity|].
        destruct (IH fuel h (S n - length (b :: bs))%nat (tl (O :: ks)) w') as (ks' & E').
        { cbn [length]. lia. } { unfold to_come in *. cbn [length fold_right tl] in *. lia. }
        rewrite E'. destruct (read_loop sys fuel h (S n - length (b :: bs)) w') as [[w2 bs2] r2].
        eexists. reflexivity.
      * rewrite not_interrupted; [eexists; reflexivity|].
        intros ->. apply (proj2 Hs w h (S n)). rewrite E. reflexivity.
      * eexists. reflexivity.
    + cbn [read_loop_i]. unfold read_call, disturbed. cbn [is_interrupted interrupted].
      apply (IH (S fuel)); [assumption|]. unfold to_come in *. cbn [fold_right] in *. lia.
Qed.

Lemma write_all_same h buf : unaffected (write_all_i sys h buf) (write_all sys h buf).
Proof. intros ks w. apply write_loop_same; cbn [fst]; lia. Qed.
Lemma read_exact_same h n ks w : exists ks',
  read_exact_i sys h n (ks, w) = (let '(w', bs, r) := read_exact sys h n w in ((ks', w'), bs, r)).
Proof. apply read_loop_same; cbn [fst]; lia. Qed.
Lemma read_bytes_same h n : unaffected (read_bytes_i sys h n) (read_bytes sys h n).
Proof.
  intros ks w. unfold read_bytes_i, read_bytes. destruct (read_exact_same h n ks w) as (ks' & ->).
  destruct (read_exact sys h n w) as [[w' bs] r]. exists ks'. reflexivity.
Qed.
Lemma same_ret {A} (a : A) : unaffected (io_ret a) (io_ret a).
Proof. intros ks w. eexists. reflexivity. Qed.
Lemma same_err {A} e : @unaffected A (io_err e) (io_err e).
Proof. intros ks w. eexists. reflexivity. Qed.
Lemma same_bind {A B} (m' : io (signals W) A) (m : io W A) (f' : A -> io (signals W) B) (f : A -> io W B) :
  unaffected m' m -> (forall a, unaffected (f' a) (f a)) -> unaffected (m' >>= f') (m >>= f).
Proof.
  intros Hm Hf ks w. unfold io_bind. destruct (Hm ks w) as (k1 & ->).
  destruct (m w) as [w' [a|e|]]; cbn [fst snd]; [apply Hf|eexists; reflexivity..].
Qed.
Lemma same_if {A} (b : bool) (m' n' : io (signals W) A) (m n : io W A) :
  unaffected m' m -> unaffected n' n -> unaffected (if b then m' else n') (if b then m else n).
Proof. destruct b; auto. Qed.
Lemma shutdown_same h : unaffected (shutdown_call sys h) (fun w => shutdown sys w h).
Proof. intros ks w. unfold shutdown_call. cbn [fst snd]. destruct (shutdown sys w h). eexists. reflexivity. Qed.
Lemma read_u32_same h : unaffected (read_u32_i sys h) (read_u32 sys h).
Proof. apply same_bind; [apply read_bytes_same|intros; apply same_ret]. Qed.
Lemma check_same h : unaffected (check_response_end_i sys h) (check_response_end sys h).
Proof. apply same_bind; [apply read_u32_same|]. intros a. apply same_if; [apply same_ret|apply same_err]. Qed.
Lemma signal_same h code :
  unaffected (signal_i sys h code) (write_all sys h (u32_bytes code) ;; check_response_end sys h).
Proof. apply same_bind; [apply write_all_same|intros _; apply check_same]. Qed.
Lemma end_same c code : unaffected (end_both_i sys c code) (end_both sys c code).
Proof.
  repeat (apply same_bind; [first [apply write_all_same|apply shutdown_same]|intros _]). apply shutdown_same.
Qed.

(** Which calls on a stream a function makes does not depend on the signals: it
    always uses up the same number of entries of the schedule. *)
Definition paced {A} (m' : io (signals W) A) (m : io W A) : Prop :=
  forall w, exists j, forall ks, m' (ks, w) = ((skipn j ks, fst (m w)), snd (m w)).
Lemma skipn_tl {A} j (ks : list A) : skipn (S j) ks = skipn j (tl ks).
Proof. destruct ks; [now rewrite !skipn_nil|reflexivity]. Qed.

Lemma write_loop_paced : forall fuel h buf w, (length buf <= fuel)%nat ->
  exists j, forall fi ks, (length buf + to_come ks <= fi)%nat ->
    write_loop_i sys fi h buf (ks, w)
    = ((skipn j ks, fst (write_loop sys fuel h buf w)), snd (write_loop sys fuel h buf w)).
Proof.
  induction fuel as [|fuel IH]; intros h buf w L.
  - destruct buf; [|cbn in L; lia]. exists O. intros [|fi] ks _; reflexivity.
  - destruct buf as [|b buf]; [exists O; intros [|fi] ks _; reflexivity|].
    cbn [write_loop]. destruct (write sys w h (b :: buf)) as [w' r] eqn:E.
    assert (J : exists j, forall fi ks, (length buf + to_come ks <= fi)%nat ->
      match r with
      | Ok O => ((ks, w'), Err WriteZero)
      | Ok n => if (length (b :: buf) <? n)%nat then ((ks, w'), Panic) else write_loop_i sys fi h (skipn n (b :: buf)) (ks, w')
      | Err e => ((ks, w'), Err e)
      | Panic => ((ks, w'), Panic)
      end
      = let x := match r with
        | Ok O => (w', Err WriteZero)
        | Ok n => if (length (b :: buf) <? n)%nat then (w', Panic) else write_loop sys fuel h (skipn n (b :: buf)) w'
        | Err e => (w', Err e)
        | Panic => (w', Panic)
        end in ((skipn j ks, fst x), snd x)).
    { destruct r as [[|n]|e|]; try (exists O; reflexivity).
      destruct (length (b :: buf) <? S n)%nat eqn:T; [exists O; reflexivity|]. apply Nat.ltb_ge in T.
      destruct (IH h (skipn (S n) (b :: buf)) w') as (j & J).
      { rewrite skipn_length. cbn [length] in *. lia. }
      exists j. intros fi ks F. apply J. rewrite skipn_length. cbn [length] in *. lia. }
    destruct J as (j & J). exists (S j). cbn zeta in J.
    induction fi as [|fi IHf]; intros ks F; [cbn in F; lia|].
    destruct ks as [|[|k] ks].
    + cbn [write_loop_i]. unfold write_call, disturbed. rewrite E, skipn_tl. rewrite <- (J fi (tl [])) by (cbn in *; lia).
      destruct r as [n|e|]; try reflexivity.
      rewrite not_interrupted; [reflexivity|]. intros ->. apply (proj1 Hs w h (b :: buf)). rewrite E. reflexivity.
    + cbn [write_loop_i]. unfold write_call, disturbed. rewrite E, skipn_tl.
      rewrite <- (J fi (tl (O :: ks))) by (unfold to_come in *; cbn [length fold_right tl] in *; lia).
      destruct r as [n|e|]; try reflexivity.
      rewrite not_interrupted; [reflexivity|]. intros ->. apply (proj1 Hs w h (b :: buf)). rewrite E. reflexivity.
    + cbn [write_loop_i]. unfold write_call at 1, disturbed. cbn [is_interrupted interrupted].
      rewrite (IHf (k :: ks)) by (unfold to_come in *; cbn [length fold_right] in *; lia). reflexivity.
Qed.

Lemma read_loop_paced : forall fuel h n w, (n <= fuel)%nat ->
  exists j, forall fi ks, (n + to_come ks <= fi)%nat ->
    read_loop_i sys fi h n (ks, w)
    = (let '(w', bs, r) := read_loop sys fuel h n w in ((skipn j ks, w'), bs, r)).
Proof.
  induction fuel as [|fuel IH]; intros h n w L.
  - destruct n; [|lia]. exists O. intros [|fi] ks _; reflexivity.
  - destruct n as [|n]; [exists O; intros [|fi] ks _; reflexivity|].
    cbn [read_loop]. destruct (read sys w h (S n)) as [w' r] eqn:E.
    assert (J : exists j, forall fi ks, (n + to_come ks <= fi)%nat ->
      match r with
      | Ok [] => ((ks, w'), [], Err UnexpectedEof)
      | Ok bs => if (S n <? length bs)%nat then ((ks, w'), [], Panic)
                 else let '(s'', rest, r2) := read_loop_i sys fi h (S n - length bs) (ks, w') in (s'', bs ++ rest, r2)
      | Err e => ((ks, w'), [], Err e)
      | Panic => ((ks, w'), [], Panic)
      end
      = let '(w2, bs2, r2) := match r with
        | Ok [] => (w', [], Err UnexpectedEof)
        | Ok bs => if (S n <? length bs)%nat then (w', [], Panic)
                   else let '(w'', rest, r2) := read_loop sys fuel h (S n - length bs) w' in (w'', bs ++ rest, r2)
        | Err e => (w', [], Err e)
        | Panic => (w', [], Panic)
        end in ((skipn j ks, w2), bs2, r2)).
    { destruct r as [[|b bs]|e|]; try (exists O; reflexivity).
      destruct (S n <? length (b :: bs))%nat eqn:T; [exists O; reflexivity|]. apply Nat.ltb_ge in T.
      destruct (IH h (S n - length (b :: bs))%nat w') as (j & J).
      { cbn [length] in *. lia. }
      exists j. intros fi ks F. rewrite J by (cbn [length] in *; lia).
      destruct (read_loop sys fuel h (S n - length (b :: bs)) w') as [[w2 bs2] r2]. reflexivity. }
    destruct J as (j & J). exists (S j).
    induction fi as [|fi IHf]; intros ks F; [lia|].
    destruct ks as [|[|k] ks].
    + cbn [read_loop_i]. unfold read_call, disturbed. rewrite E, skipn_tl.
      refine (eq_trans _ (J fi (tl []) _)); [|cbn in *; lia].
      destruct r as [n'|e|]; try reflexivity.
      rewrite not_interrupted; [reflexivity|]. intros ->. apply (proj2 Hs w h (S n)). rewrite E. reflexivity.
    + cbn [read_loop_i]. unfold read_call, disturbed. rewrite E, skipn_tl.
      refine (eq_trans _ (J fi (tl (O :: ks)) _)); [|unfold to_come in *; cbn [length fold_right tl] in *; lia].
      destruct r as [n'|e|]; try reflexivity.
      rewrite not_interrupted; [reflexivity|]. intros ->. apply (proj2 Hs w h (S n)). rewrite E. reflexivity.
    + cbn [read_loop_i]. unfold read_call at 1, disturbed. cbn [is_interrupted interrupted].
      rewrite (IHf (k :: ks)) by (unfold to_come in *; cbn [length fold_right] in *; lia). reflexivity.
Qed.

Lemma paced_bind {A B} (m' : io (signals W) A) (m : io W A) (f' : A -> io (signals W) B) (f : A -> io W B) :
  paced m' m -> (forall a, paced (f' a) (f a)) -> paced (m' >>= f') (m >>= f).
Proof.
  intros Hm Hf w. destruct (Hm w) as (j & E). unfold io_bind. destruct (m w) as [w' [a|e|]]; cbn [fst snd] in *.
  - destruct (Hf a w') as (j2 & E2). exists (j2 + j)%nat. intros ks. rewrite E, E2.
    do 2 f_equal. revert ks. clear. induction j as [|j IH]; intros ks; [now rewrite Nat.add_0_r|].
    rewrite Nat.add_succ_r, !skipn_tl. apply IH.
  - exists j. intros ks. now rewrite E.
  - exists j. intros ks. now rewrite E.
Qed.
Lemma signal_paced h code :
  paced (signal_i sys h code) (write_all sys h (u32_bytes code) ;; check_response_end sys h).
Proof.
  apply paced_bind.
  { intros w. destruct (write_loop_paced (length (u32_bytes code)) h (u32_bytes code) w (le_n _)) as (j & J).
    exists j. intros ks. apply J. cbn [fst]. lia. }
  intros _. apply paced_bind; [apply paced_bind|].
  - intros w. destruct (read_loop_paced 4 h 4 w (le_n _)) as (j & J). exists j. intros ks.
    unfold read_bytes_i, read_bytes, read_exact_i, read_exact. cbn [fst]. rewrite (J (4 + to_come ks)%nat) by lia.
    destruct (read_loop sys 4 h 4 w) as [[w' bs] r]. reflexivity.
  - intros bs w. exists O. reflexivity.
  - intros a w. exists O. destruct (a =? 0); reflexivity.
Qed.

(** What begins with a vectored write. *)
Lemma write_whole_hit h bytes k ks w :
  write_whole_i sys h bytes (S k :: ks, w) = ((k :: ks, w), Err interrupted).
Proof. reflexivity. Qed.
Lemma write_whole_miss h bytes ks w : hd O ks = O ->
  exists ks', write_whole_i sys h bytes (ks, w) = ((ks', fst (write_whole sys h bytes w)), snd (write_whole sys h bytes w)).
Proof.
  intros E. unfold write_whole_i, write_whole, write_call, io_bind, disturbed.
  destruct ks as [|[|k] ks]; [| |discriminate E];
    (destruct (write sys w h bytes) as [w' [n|e|]]; [destruct (n =? length bytes)%nat| |]; eexists; reflexivity).
Qed.
(** [m'] is either interrupted, with nothing done, or not affected. *)
Definition at_first {A} (m' : io (signals W) A) (m : io W A) : Prop :=
  (forall k ks w, m' (S k :: ks, w) = ((k :: ks, w), Err interrupted))
  /\ (forall ks w, hd O ks = O -> exists ks', m' (ks, w) = ((ks', fst (m w)), snd (m w))).
Lemma first_bind {B} h bytes (f' : unit -> io (signals W) B) (f : unit -> io W B) :
  (forall a, unaffected (f' a) (f a)) ->
  at_first (write_whole_i sys h bytes >>= f') (write_whole sys h bytes >>= f).
Proof.
  intros Hf. split; [reflexivity|]. intros ks w E. unfold io_bind.
  destruct (write_whole_miss h bytes ks w E) as (k1 & ->).
  destruct (write_whole sys h bytes w) as [w' [a|e|]]; cbn [fst snd]; [apply Hf|eexists; reflexivity..].
Qed.
Lemma number_first h code z :
  at_first (set_number_i sys h code z)
           (write_whole sys h (u32_bytes code ++ u32_bytes z) ;; check_response_end sys h).
Proof. apply first_bind. intros _. apply check_same. Qed.
Lemma handshake_first c v : at_first (remote_handshake_i sys c v) (remote_handshake sys c v).
Proof.
  apply first_bind. intros _. apply same_bind; [apply read_bytes_same|]. intros bs.
  apply same_bind; [apply check_same|]. intros _. apply same_ret.
Qed.
Lemma act_first c z : at_first (act_get_signaled_i sys c z) (act_get_signaled sys c z).
Proof.
  apply first_bind. intros _. apply same_bind; [apply read_u32_same|]. intros x.
  apply same_bind; [apply check_same|]. intros _. apply same_ret.
Qed.
Lemma sizes_same c : unaffected (get_command_response_sizes_i sys c) (get_command_response_sizes sys c).
Proof.
  apply same_bind; [apply write_all_same|]. intros _. apply same_bind; [apply read_u32_same|]. intros x.
  apply same_if; [apply same_err|]. apply same_bind; [apply read_bytes_same|]. intros bs.
  apply same_bind; [apply check_same|]. intros _. apply same_ret.
Qed.
Lemma reinit_same c : unaffected (reinit_i sys c) (reinit sys c).
Proof. repeat (apply same_bind; [apply signal_same|intros _]). apply signal_same. Qed.

Lemma transact_miss c command response ks w :
  2 ^ 32 <= Z.of_nat (length command) \/ hd O ks = O ->
  exists ks', tcp_transact_i sys c (ks, w) command response
    = (let '(w', response', r) := tcp_transact sys c w command response in ((ks', w'), response', r)).
Proof.
  intros E. unfold tcp_transact_i, tcp_transact.
  destruct (Z.leb_spec (2 ^ 32) (Z.of_nat (length command))); [eexists; reflexivity|].
  destruct E as [E|E]; [lia|]. cbv zeta.
  set (bytes := u32_bytes SendCommand ++ _). clearbody bytes.
  destruct (proj2 (first_bind (tpm_tcp c) bytes (fun _ => read_u32_i sys (tpm_tcp c)) (fun _ => read_u32 sys (tpm_tcp c))
    (fun _ => read_u32_same _)) ks w E) as (k1 & ->).
  destruct ((write_whole sys (tpm_tcp c) bytes ;; read_u32 sys (tpm_tcp c)) w) as [w1 [len|e|]]; cbn [fst snd];
    [|eexists; reflexivity..].
  destruct (Z.of_nat (length response) <? len); [eexists; reflexivity|].
  destruct (read_exact_same (tpm_tcp c) (Z.to_nat len) k1 w1) as (k2 & ->).
  destruct (read_exact sys (tpm_tcp c) (Z.to_nat len) w1) as [[w2 bs] [[]|e|]]; [|eexists; reflexivity..].
  destruct (check_same (tpm_tcp c) k2 w2) as (k3 & ->).
  destruct (check_response_end sys (tpm_tcp c) w2) as [w3 r]. eexists. reflexivity.
Qed.

End Proofs.

Lemma watched_without {W H C} (sys : world W H C) : without_signals sys -> without_signals (watched sys).
Proof.
  intros [H1 H2]. split.
  - intros w h buf. cbn [write watched]. specialize (H1 (fst w) h buf). destruct (write sys (fst w) h buf). exact H1.
  - intros w h n. cbn [read watched]. specialize (H2 (fst w) h n). destruct (read sys (fst w) h n). exact H2.
Qed.

(** The calls that send a number, a handle or a command in one piece with their
    code. *)
Definition one_piece (o : operation) : Prop :=
  match o with
  | Transact command _ => Z.of_nat (length command) < 2 ^ 32
  | Handshake _ | AlternativeResult _ | ActSignaled _ | FirmwareHash _ | FirmwareSvn _ => True
  | _ => False
  end.

(** ** C98 *)

(** Signals do not disturb a call that sends bare codes only, however many there
    are and whenever they come: result, connection and all that is done are as
    without signals. *)
Theorem c98_codes_partial : forall (W H C : Type) (sys : world W H C) c o ks (w : W),
  without_signals sys -> ~ one_piece o -> (forall data, o <> Hcrtm data) ->
  exists ks', perform_i sys c o (ks, w)
    = (let '(c', w', r) := perform sys c o w in (c', (ks', w'), r)).
Proof.
  intros W H C sys c o ks w Hs P N.
  assert (U : forall (m' : io (signals W) unit) (m : io W unit), unaffected m' m ->
    exists ks', (c, fst (unit_answer (m' (ks, w))), snd (unit_answer (m' (ks, w))))
      = (c, (ks', fst (unit_answer (m w))), snd (unit_answer (m w)))).
  { intros m' m Hm. destruct (Hm ks w) as (ks' & ->). exists ks'. reflexivity. }
  destruct o; cbn [one_piece] in P; try (exfalso; exact (P I)); cbn [perform_i perform].
  - destruct (transact_miss sys Hs c command response ks w) as (ks' & ->); [left; lia|].
    destruct (tcp_transact sys c w command response) as [[w' rsp'] r]. exists ks'. reflexivity.
  - destruct (N data). reflexivity.
  - exact (U _ _ (signal_same sys Hs _ _)).
  - exact (U _ _ (reinit_same sys Hs c)).
  - exact (U _ _ (signal_same sys Hs _ _)).
  - destruct (sizes_same sys Hs c ks w) as (ks' & ->). exists ks'.
    destruct (get_command_response_sizes sys c w). reflexivity.
  - exists ks. reflexivity.
  - exact (U _ _ (end_same sys Hs c _)).
  - exact (U _ _ (end_same sys Hs c _)).
Qed.

(** A call that sends more than a code is disturbed exactly by a signal that
    comes while it is sending: it fails as interrupted and nothing has been
    done.  Signals at any later time make no difference. *)
Theorem c98_one_piece_partial : forall (W H C : Type) (sys : world W H C) c o (w : W),
  without_signals sys -> one_piece o ->
  (forall k ks, perform_i sys c o (S k :: ks, w) = (c, (k :: ks, w), Err interrupted))
  /\ (forall ks, hd O ks = O ->
      exists ks', perform_i sys c o (ks, w) = (let '(c', w', r) := perform sys c o w in (c', (ks', w'), r))).
Proof.
  intros W H C sys c o w Hs P.
  assert (U : forall (m' : io (signals W) unit) (m : io W unit), at_first m' m ->
    (forall k ks, (c, fst (unit_answer (m' (S k :: ks, w))), snd (unit_answer (m' (S k :: ks, w))))
       = (c, (k :: ks, w), Err interrupted))
    /\ (forall ks, hd O ks = O ->
      exists ks', (c, fst (unit_answer (m' (ks, w))), snd (unit_answer (m' (ks, w))))
      = (c, (ks', fst (unit_answer (m w))), snd (unit_answer (m w))))).
  { intros m' m [Ha Hb]. split; intros.
    - rewrite Ha. reflexivity.
    - destruct (Hb ks w) as (ks' & ->); [assumption|]. exists ks'. reflexivity. }
  destruct o; cbn [one_piece] in P; try contradiction P; cbn [perform_i perform].
  - split.
    + intros k ks. unfold tcp_transact_i. destruct (Z.leb_spec (2 ^ 32) (Z.of_nat (length command))); [lia|]. reflexivity.
    + intros ks E. destruct (transact_miss sys Hs c command response ks w) as (ks' & ->); [right; assumption|].
      destruct (tcp_transact sys c w command response) as [[w' rsp'] r]. exists ks'. reflexivity.
  - destruct (handshake_first sys Hs c client_version) as [Ha Hb]. split; intros.
    + rewrite Ha. reflexivity.
    + destruct (Hb ks w) as (ks' & ->); [assumption|]. exists ks'.
      destruct (remote_handshake sys c client_version w). reflexivity.
  - exact (U _ _ (number_first sys Hs _ _ _)).
  - destruct (act_first sys Hs c act_handle) as [Ha Hb]. split; intros.
    + rewrite Ha. reflexivity.
    + destruct (Hb ks w) as (ks' & ->); [assumption|]. exists ks'.
      destruct (act_get_signaled sys c act_handle w). reflexivity.
  - exact (U _ _ (number_first sys Hs _ _ _)).
  - exact (U _ _ (number_first sys Hs _ _ _)).
Qed.

(** The response buffer of a command that is interrupted is left alone. *)
Theorem c98_buffer_partial : forall (W H C : Type) (sys : world W H C) c command response k ks (w : W),
  Z.of_nat (length command) < 2 ^ 32 ->
  tcp_transact_i sys c (S k :: ks, w) command response = ((k :: ks, w), response, Err interrupted).
Proof.
  intros W H C sys c command response k ks w L. unfold tcp_transact_i.
  destruct (Z.leb_spec (2 ^ 32) (Z.of_nat (length command))); [lia|]. reflexivity.
Qed.

(** So a caller who repeats such a call while it is interrupted gets what they
    would have got without signals. *)
Fixpoint insist {W H C} (n : nat) (sys : world W H C) (c : tcp H) (o : operation) (s : signals W)
    : tcp H * signals W * outcome io_error answer :=
  match n, perform_i sys c o s with
  | S n', (c', s', Err (System 4)) => insist n' sys c' o s'
  | _, res => res
  end.
Theorem c98_insist_partial : forall (W H C : Type) (sys : world W H C) c o ks (w : W),
  without_signals sys -> one_piece o ->
  snd (perform sys c o w) <> Err interrupted ->
  exists ks', insist (hd O ks) sys c o (ks, w)
    = (let '(c', w', r) := perform sys c o w in (c', (ks', w'), r)).
Proof.
  intros W H C sys c o ks w Hs P NI. destruct (c98_one_piece_partial W H C sys c o w Hs P) as [Hit Miss].
  destruct ks as [|k ks].
  - cbn [hd insist]. destruct (Miss [] eq_refl) as (ks' & ->). exists ks'.
    destruct (perform sys c o w) as [[c' w'] r]. reflexivity.
  - cbn [hd]. induction k as [|k IH].
    + cbn [insist]. destruct (Miss (O :: ks) eq_refl) as (ks' & ->). exists ks'. reflexivity.
    + cbn [insist]. rewrite Hit. cbn [interrupted]. exact IH.
Qed.

(** The hash sequence has two exchanges of codes and between them one with the
    data: a signal while these are being sent leaves the sequence begun - its
    start has been sent and acknowledged - and not ended; signals at all other
    times make no difference.  Which system call that is - the one numbered [m],
    counting the calls that get through - depends neither on the signals nor on
    the data; if the start is not acknowledged there is none. *)
Theorem c98_hash_partial : forall (W H C : Type) (sys : world W H C) c (w : W) (l : list (event H C)),
  without_signals sys -> wf_world sys ->
  (forall data ks, exists ks',
     snd (perform (watched sys) c (Hcrtm data) (w, l)) <> Ok Done
     /\ perform_i (watched sys) c (Hcrtm data) (ks, (w, l))
        = (let '(c', w', r) := perform (watched sys) c (Hcrtm data) (w, l) in (c', (ks', w'), r)))
  \/ exists m w', forall data ks,
       (nth m ks O = O -> exists ks',
          perform_i (watched sys) c (Hcrtm data) (ks, (w, l))
          = (let '(c', w', r) := perform (watched sys) c (Hcrtm data) (w, l) in (c', (ks', w'), r)))
       /\ (nth m ks O <> O -> exists ks',
             perform_i (watched sys) c (Hcrtm data) (ks, (w, l))
             = (c, (ks', (w', l ++ signalled (tpm_tcp c) 5)), Err interrupted)).
Proof.
  intros W H C sys c w l Hs Hw. cbn [perform_i perform].
  pose proof (watched_without sys Hs) as Hs'.
  set (t := tpm_tcp c).
  set (bytes data := u32_bytes SignalHashData ++ u32_bytes (Z.of_nat (length data) mod 2 ^ 32) ++ data).
  set (rest' := check_response_end_i (watched sys) t ;; write_all_i (watched sys) t (u32_bytes SignalHashEnd) ;;
                check_response_end_i (watched sys) t).
  set (rest := check_response_end (watched sys) t ;; write_all (watched sys) t (u32_bytes SignalHashEnd) ;;
               check_response_end (watched sys) t).
  assert (Hr : unaffected rest' rest).
  { apply same_bind; [apply check_same; assumption|intros _]. apply signal_same. assumption. }
  destruct (signal_paced (watched sys) Hs' t SignalHashStart (w, l)) as (m & M).
  destruct (signal_talks sys Hw t SignalHashStart w l) as (w1 & seen & r1 & E1 & _ & G).
  assert (E' : forall data ks, hcrtm_sequence_i (watched sys) c data (ks, (w, l))
    = match r1 with
      | Ok _ => (write_whole_i (watched sys) t (bytes data) ;; rest') (skipn m ks, (w1, l ++ seen))
      | Err e => ((skipn m ks, (w1, l ++ seen)), Err e)
      | Panic => ((skipn m ks, (w1, l ++ seen)), Panic)
      end).
  { intros data ks. specialize (M ks). rewrite E1 in M. unfold signal_i, io_bind at 1 in M. cbn [fst snd] in M.
    unfold hcrtm_sequence_i. fold t. unfold io_bind at 1.
    destruct (write_all_i (watched sys) t (u32_bytes SignalHashStart) (ks, (w, l))) as [s1 [u|e|]];
      [|injection M as -> <-; reflexivity..].
    unfold io_bind at 1. rewrite M. destruct r1; reflexivity. }
  assert (E : forall data, hcrtm_sequence (watched sys) c data (w, l)
    = match r1 with
      | Ok _ => (write_whole (watched sys) t (bytes data) ;; rest) (w1, l ++ seen)
      | Err e => ((w1, l ++ seen), Err e)
      | Panic => ((w1, l ++ seen), Panic)
      end).
  { intros data. unfold io_bind at 1 in E1. unfold hcrtm_sequence. fold t. unfold io_bind at 1.
    destruct (write_all (watched sys) t (u32_bytes SignalHashStart) (w, l)) as [s1 [u|e|]];
      [|injection E1 as -> <-; reflexivity..].
    unfold io_bind at 1. rewrite E1. destruct r1; reflexivity. }
  destruct r1 as [[]|e|].
  - right. destruct (G tt eq_refl) as [_ ->]. change SignalHashStart with 5 in *.
    exists m, w1. intros data ks. rewrite E', E.
    assert (N : nth m ks O = hd O (skipn m ks)).
    { clear. revert ks. induction m as [|m IH]; intros [|k ks]; try reflexivity. apply IH. }
    rewrite N. split; intros K.
    + destruct (proj2 (first_bind (watched sys) t (bytes data) (fun _ => rest') (fun _ => rest) (fun _ => Hr)) _
        (w1, l ++ signalled t 5) K) as (k2 & E2).
      exists k2. unfold unit_answer. rewrite E2. reflexivity.
    + destruct (skipn m ks) as [|[|k] k1']; try (contradiction K; reflexivity).
      exists (k :: k1'). reflexivity.
  - left. intros data ks. rewrite E', E. exists (skipn m ks). split; [discriminate|reflexivity].
  - left. intros data ks. rewrite E', E. exists (skipn m ks). split; [discriminate|reflexivity].
Qed.

(** Dropping a simulator is not disturbed. *)
Theorem c98_dropped : forall (W H C : Type) (sys : world W H C) (s : @simulator H C) ks (w : W),
  without_signals sys -> snd (simulator_drop_i sys s (ks, w)) = simulator_drop sys s w.
Proof.
  intros W H C sys s ks w Hs. unfold simulator_drop_i, simulator_drop, stop_nicely, stop_simulator.
  destruct (end_same sys Hs (conn s) Stop ks w) as (ks' & ->).
  destruct (end_both sys (conn s) Stop w) as [w' [u|e|]]; reflexivity.
Qed.

(** One signal, and a command that would have succeeded fails; another, and a
    hash sequence is left without its end. *)
Theorem c98_undisturbed_refuted :
  without_signals (pipe byte_by_byte)
  /\ perform (pipe byte_by_byte) (ends 0) (Transact get_random_cmd (repeat x00 14)) (response_frame random_rsp, [])
     = (ends 0, ([], []), Ok (Payload random_rsp))
  /\ perform_i (pipe byte_by_byte) (ends 0) (Transact get_random_cmd (repeat x00 14)) ([1%nat], (response_frame random_rsp, []))
     = (ends 0, ([O], (response_frame random_rsp, [])), Err interrupted)
  /\ perform (pipe byte_by_byte) (ends 0) (Hcrtm [x61]) (repeat x00 12, []) = (ends 0, ([], []), Ok Done)
  /\ perform_i (pipe byte_by_byte) (ends 0) (Hcrtm [x61]) ([0; 0; 0; 0; 0; 1]%nat, (repeat x00 12, []))
     = (ends 0, ([O], (repeat x00 8, [])), Err interrupted).
Proof. split; [split; discriminate|]. vm_compute. auto. Qed.

(** Signals at each of the five system calls of a platform signal, three before
    the first. *)
Example c98_codes_case :
  perform_i (pipe byte_by_byte) (ends 0) (Signal PowerOn) ([3; 1; 1; 1; 2]%nat, ([], repeat x00 4))
  = (ends 0, ([], ([], [])), Ok Done).
Proof. vm_compute. reflexivity. Qed.
Example c98_one_piece_case :
  perform_i (pipe byte_by_byte) (ends 0) (Transact get_random_cmd (repeat x00 14))
    ([0; 2; 1; 1; 1; 4; 0; 1]%nat, (response_frame random_rsp, []))
  = (ends 0, ([], ([], [])), Ok (Payload random_rsp))
  /\ insist 2 (pipe byte_by_byte) (ends 0) (Transact get_random_cmd (repeat x00 14))
       ([2; 1]%nat, (response_frame random_rsp, []))
     = (ends 0, ([], ([], [])), Ok (Payload random_rsp)).
Proof. vm_compute. auto. Qed.
