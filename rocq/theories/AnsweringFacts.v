(** The pieces in which the answers of a peer arrive (C115). *)
From Coq Require Import String ZArith NArith List Lia Bool.
From Coq Require Import Init.Byte.
From Verif Require Import Prelude Types Marshal WireSpec Catalogue Errors Tpm2b Client ClientSpec ClientProofs ClientFacts
  Tcp TcpSpec TcpProofs Remote RemoteFacts Controls ControlsFacts Cut Hearing HearingFacts Answering.
Import ListNotations.
Open Scope Z_scope.

Section Peer.
Context {P : Type} (p : peer P).
Local Notation state := (P * (list byte * list byte))%type.
(** What a read of [n] bytes comes to. *)
Definition comes_to (h : bool) (n : nat) (s : state) : state * list byte * outcome io_error unit :=
  let q := port h (snd s) in
  if (n <=? length q)%nat then ((fst s, set_port h (skipn n q) (snd s)), firstn n q, Ok tt)
  else let '(s', e) := stops p (fst s) h in
       ((s', set_port h [] (snd s)), q, Err (match e with Some e => e | None => UnexpectedEof end)).
Lemma loop_comes {R} (cut : cuts R) h : forall fuel n r s, (n <= fuel)%nat -> exists r',
  read_loop (answering_net cut p) fuel h n (r, s)
  = (let '(s', bs, o) := comes_to h n s in ((r', s'), bs, o)).
Proof.
  induction fuel as [|fuel IH]; intros [|n] r [s due] L; try lia;
    try (exists r; unfold comes_to; cbn [Nat.leb fst snd skipn firstn read_loop]; now rewrite set_of_port).
  cbn [read_loop read answering_net]. unfold comes_to. cbn [fst snd].
  destruct (port h due) as [|b0 q0] eqn:Q.
  { cbn [length Nat.leb]. destruct (stops p s h) as [s' e]. exists r. rewrite <- Q, set_of_port, Q.
    destruct e as [e|]; reflexivity. }
  set (q := b0 :: q0) in *. destruct (cut r h (S n) q) as [r1 k0].
  set (k := Nat.min (S n) (Nat.max 1 k0)). assert (Lk : (1 <= k <= S n)%nat) by (unfold k; lia). clearbody k.
  assert (Lb : length (firstn k q) = Nat.min k (length q)) by apply firstn_length.
  assert (L1 : (1 <= length q)%nat) by (unfold q; cbn; lia).
  destruct (firstn k q) as [|b bs] eqn:E; [cbn in Lb; lia|].
  destruct (Nat.ltb_spec (S n) (length (b :: bs))); [lia|].
  destruct (IH (S n - length (b :: bs))%nat r1 (s, set_port h (skipn k q) due)) as (r2 & E2); [cbn [length]; lia|].
  rewrite E2. exists r2. unfold comes_to. cbn [fst snd]. rewrite port_of_set, !set_of_set, skipn_length.
  assert (Ek : length (b :: bs) = k \/ (length q < k)%nat /\ length (b :: bs) = length q) by lia.
  destruct Ek as [Ek|[Lq Ek]]; rewrite Ek.
  - destruct (Nat.leb_spec (S n - k) (length q - k)) as [L2|L2], (Nat.leb_spec (S n) (length q)) as [L3|L3]; try lia.
    + rewrite skipn_skipn', <- E, <- firstn_parts by lia. replace (k + (S n - k))%nat with (S n) by lia. reflexivity.
    + destruct (stops p s h) as [s' e]. rewrite <- E, firstn_skipn. reflexivity.
  - destruct (Nat.leb_spec (S n - length q) (length q - k)) as [L2|L2]; [lia|].
    destruct (Nat.leb_spec (S n) (length q)) as [L3|L3]; [lia|].
    destruct (stops p s h) as [s' e]. rewrite <- E, firstn_skipn. reflexivity.
Qed.
Context {R1 R2 : Type} (cut1 : cuts R1) (cut2 : cuts R2).
Local Notation net1 := (answering_net cut1 p).
Local Notation net2 := (answering_net cut2 p).
(** Two computations that do the same but for the state of the network. *)
Definition same {A} (m1 : io (R1 * state) A) (m2 : io (R2 * state) A) : Prop :=
  forall r1 r2 s, exists r1' r2' s' o, m1 (r1, s) = ((r1', s'), o) /\ m2 (r2, s) = ((r2', s'), o).
Lemma same_bind {A B} (m1 : io (R1 * state) A) m2 (k1 : A -> io (R1 * state) B) k2 :
  same m1 m2 -> (forall a, same (k1 a) (k2 a)) -> same (io_bind m1 k1) (io_bind m2 k2).
Proof.
  intros M K r1 r2 s. destruct (M r1 r2 s) as (x1 & x2 & s' & o & E1 & E2). unfold io_bind. rewrite E1, E2.
  destruct o as [a|e|]; [apply K|exists x1, x2, s'; eexists; split; reflexivity..].
Qed.
Lemma same_ret {A} (a : A) : same (io_ret a) (io_ret a).
Proof. intros r1 r2 s. exists r1, r2, s. eexists. split; reflexivity. Qed.
Lemma same_err {A} e : same (@io_err _ A e) (io_err e).
Proof. intros r1 r2 s. exists r1, r2, s. eexists. split; reflexivity. Qed.
Lemma same_write h buf : same (fun w => write net1 w h buf) (fun w => write net2 w h buf).
Proof. intros r1 r2 [s d]. cbn. destruct (takes p s h buf) as [[s' more] o]. repeat eexists. Qed.
Lemma same_shut h : same (fun w => shutdown net1 w h) (fun w => shutdown net2 w h).
Proof. intros r1 r2 [s d]. cbn. destruct (shuts p s h) as [[s' more] o]. repeat eexists. Qed.
Lemma same_loop h : forall fuel buf, same (write_loop net1 fuel h buf) (write_loop net2 fuel h buf).
Proof.
  induction fuel as [|fuel IH]; intros [|b buf] r1 r2 s; cbn [write_loop]; try solve [repeat eexists].
  destruct (same_write h (b :: buf) r1 r2 s) as (x1 & x2 & s' & o & E1 & E2). cbv beta in E1, E2. rewrite E1, E2.
  destruct o as [[|n]|e|]; try solve [repeat eexists]. destruct (_ <? _)%nat; [repeat eexists|]. apply IH.
Qed.
Lemma same_all h buf : same (write_all net1 h buf) (write_all net2 h buf).
Proof. apply same_loop. Qed.
Lemma same_whole h bs : same (write_whole net1 h bs) (write_whole net2 h bs).
Proof. apply same_bind; [apply same_write|]. intros n. destruct (_ =? _)%nat; [apply same_ret|apply same_err]. Qed.
Lemma same_bytes h n : same (read_bytes net1 h n) (read_bytes net2 h n).
Proof.
  intros r1 r2 s. unfold read_bytes, read_exact.
  destruct (loop_comes cut1 h n n r1 s (le_n _)) as (x1 & ->). destruct (loop_comes cut2 h n n r2 s (le_n _)) as (x2 & ->).
  destruct (comes_to h n s) as [[s' bs] o]. repeat eexists.
Qed.
Lemma same_u32 h : same (read_u32 net1 h) (read_u32 net2 h).
Proof. apply same_bind; [apply same_bytes|]. intros bs. apply same_ret. Qed.
Lemma same_end h : same (check_response_end net1 h) (check_response_end net2 h).
Proof. apply same_bind; [apply same_u32|]. intros z. destruct (z =? 0); [apply same_ret|apply same_err]. Qed.
Ltac alike := repeat first
  [ apply same_end | apply same_u32 | apply same_bytes | apply same_all | apply same_whole | apply same_ret | apply same_err
  | apply same_shut | apply same_bind; [|intros ?] ].
Lemma same_transact t r1 r2 s command response : exists r1' r2' s' rsp o,
  tcp_transact net1 t (r1, s) command response = ((r1', s'), rsp, o)
  /\ tcp_transact net2 t (r2, s) command response = ((r2', s'), rsp, o).
Proof.
  unfold tcp_transact. destruct (_ <=? _); [repeat eexists|].
  match goal with |- context [(write_whole net1 ?h ?b ;; read_u32 net1 ?h) _] =>
    assert (S : same (write_whole net1 h b ;; read_u32 net1 h) (write_whole net2 h b ;; read_u32 net2 h)) by alike end.
  destruct (S r1 r2 s) as (x1 & x2 & s1 & o & E1 & E2). rewrite E1, E2. destruct o as [n|e|]; [|repeat eexists..].
  destruct (_ <? _); [repeat eexists|]. unfold read_exact.
  destruct (loop_comes cut1 (tpm_tcp t) (Z.to_nat n) (Z.to_nat n) x1 s1 (le_n _)) as (y1 & F1).
  destruct (loop_comes cut2 (tpm_tcp t) (Z.to_nat n) (Z.to_nat n) x2 s1 (le_n _)) as (y2 & F2). rewrite F1, F2.
  destruct (comes_to _ _ s1) as [[s2 bs] o]. destruct o as [u|e|]; [|repeat eexists..].
  destruct (same_end (tpm_tcp t) y1 y2 s2) as (z1 & z2 & s3 & o & G1 & G2). rewrite G1, G2. repeat eexists.
Qed.
Lemma same_perform t o r1 r2 s : exists t' r1' r2' s' a,
  perform net1 t o (r1, s) = (t', (r1', s'), a) /\ perform net2 t o (r2, s) = (t', (r2', s'), a).
Proof.
  assert (U : forall m1 m2, same m1 m2 -> exists t' r1' r2' s' a,
    (t, fst (unit_answer (m1 (r1, s))), snd (unit_answer (m1 (r1, s)))) = (t', (r1', s'), a)
    /\ (t, fst (unit_answer (m2 (r2, s))), snd (unit_answer (m2 (r2, s)))) = (t', (r2', s'), a)).
  { intros m1 m2 S. destruct (S r1 r2 s) as (x1 & x2 & s' & a & E1 & E2). rewrite E1, E2. repeat eexists. }
  destruct o as [command response|data|v|z|g| | | |z|z|z|l'| |]; unfold perform.
  - destruct (same_transact t r1 r2 s command response) as (x1 & x2 & s' & rsp & a & E1 & E2). rewrite E1, E2. repeat eexists.
  - apply U. unfold hcrtm_sequence. alike.
  - assert (S : same (remote_handshake net1 t v) (remote_handshake net2 t v)) by (unfold remote_handshake; alike).
    destruct (S r1 r2 s) as (x1 & x2 & s' & a & E1 & E2). rewrite E1, E2. repeat eexists.
  - apply U. unfold set_alternative_result. alike.
  - apply U. unfold platform_signal. alike.
  - apply U. unfold reinit, platform_signal. alike.
  - apply U. unfold test_failure_mode. alike.
  - assert (S : same (get_command_response_sizes net1 t) (get_command_response_sizes net2 t)).
    { unfold get_command_response_sizes. apply same_bind; [apply same_all|intros _]. apply same_bind; [apply same_u32|].
      intros n. destruct (n =? 16); cbn [negb]; alike. }
    destruct (S r1 r2 s) as (x1 & x2 & s' & a & E1 & E2). rewrite E1, E2. repeat eexists.
  - assert (S : same (act_get_signaled net1 t z) (act_get_signaled net2 t z)) by (unfold act_get_signaled; alike).
    destruct (S r1 r2 s) as (x1 & x2 & s' & a & E1 & E2). rewrite E1, E2. repeat eexists.
  - apply U. unfold set_firmware_hash. alike.
  - apply U. unfold set_firmware_svn. alike.
  - repeat eexists.
  - apply U. unfold session_end, end_both. alike.
  - apply U. unfold stop_simulator, end_both. alike.
Qed.
End Peer.

(** ** C115 *)

(** The same for a peer that answers: whatever it sends on either port when
    something is written to it or a port is shut down, however writes and
    shutdowns end, and whatever error or end of stream follows the bytes it sent.
    The pieces in which its bytes arrive change no result of any call, nothing in
    what the peer is sent (its state may be all it was sent), and nothing in what
    is left unread. *)
Theorem c115_peer P (p : peer P) R1 R2 (cut1 : cuts R1) (cut2 : cuts R2) t r1 r2 s calls :
  let '(w1, rs1) := calls_over (answering_net cut1 p) t (r1, s) calls in
  let '(w2, rs2) := calls_over (answering_net cut2 p) t (r2, s) calls in
  rs1 = rs2 /\ snd w1 = snd w2.
Proof.
  revert t r1 r2 s. induction calls as [|x calls IH]; intros t r1 r2 s; cbn [calls_over]; [split; reflexivity|].
  destruct x as [o|c cmd handles a].
  - destruct (same_perform p cut1 cut2 t o r1 r2 s) as (t' & x1 & x2 & s' & a & E1 & E2). rewrite E1, E2.
    specialize (IH t' x1 x2 s'). destruct (calls_over _ t' _ calls), (calls_over _ t' _ calls). destruct IH as [-> H]. auto.
  - unfold run_command_with_handles. destruct (build_command c cmd handles a) as [bytes|e|].
    2,3: specialize (IH t r1 r2 s); destruct (calls_over _ t _ calls), (calls_over _ t _ calls); destruct IH as [-> H]; auto.
    cbn [transact tcp_connection].
    destruct (same_transact p cut1 cut2 t r1 r2 s bytes (repeat x00 RESP_BUFFER_SIZE)) as (x1 & x2 & s' & rsp & o & E1 & E2).
    rewrite E1, E2. specialize (IH t x1 x2 s').
    destruct o; destruct (calls_over _ t _ calls), (calls_over _ t _ calls); destruct IH as [-> H]; auto.
Qed.

(** A peer that writes down what it is sent, answers a handshake, and anything
    else with two bytes only, after which the connection is reset. *)
Definition notes_down : peer (list (bool * list byte)) := {|
  takes := fun s h buf =>
    (s ++ [(h, buf)],
     (if (length buf =? 8)%nat then set_port h [x00; x00; x00; x05; x00; x00; x00; x09; x00; x00; x00; x00] ([], [])
      else set_port h [x00; x00] ([], [])),
     Ok (length buf));
  shuts := fun s h => (s, ([], []), Ok tt);
  stops := fun s h => (s, Some (System 104))
|}.
Example c115_peer_example :
  let slow : cuts unit := fun r _ _ _ => (r, 1%nat) in
  let fast : cuts nat := fun r _ n _ => (S r, n) in
  let calls := [Call (Handshake 1); Call (Signal PowerOn); Call (Handshake 2)] in
  let sent := [(true, [x00; x00; x00; x0f; x00; x00; x00; x01]); (false, [x00; x00; x00; x01]);
               (true, [x00; x00; x00; x0f; x00; x00; x00; x02])] in
  let results := [Called (Ok (Versions 5 9)); Called (Err (System 104)); Called (Ok (Versions 5 9))] in
  calls_over (answering_net slow notes_down) (port_ends 0) (tt, ([], ([], []))) calls = ((tt, (sent, ([], []))), results)
  /\ calls_over (answering_net fast notes_down) (port_ends 0) (O, ([], ([], []))) calls = ((5%nat, (sent, ([], []))), results).
Proof. cbv zeta. split; vm_compute; reflexivity. Qed.
