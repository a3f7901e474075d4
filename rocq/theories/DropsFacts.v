(** C91: streams are opened, used and closed in that order, and none is left
    open.  C92: every call makes a bounded number of system calls. *)
From Coq Require Import ZArith NArith List Lia Bool.
From Coq Require Import Init.Byte.
From Verif Require Import Prelude Tcp TcpSpec Drops DropsSpec.
Import ListNotations.
Open Scope Z_scope.

Lemma lives_app {H} (a b c : list H) l1 l2 : lives a l1 b -> lives b l2 c -> lives a (l1 ++ l2) c.
Proof. induction 1; intros K; cbn [app]; [exact K|constructor; auto ..]. Qed.
Lemma lives_all_used {H} (o : list H) l :
  Forall (fun e => e = Elsewhere \/ exists h, e = Used h /\ List.In h o) l -> lives o l o.
Proof. induction 1 as [|e l [->|(h & -> & K)] _ IH]; constructor; assumption. Qed.

Lemma used_or_elsewhere {H} (hs : list H) l : Forall (fun e => exists h, e = Used h /\ List.In h hs) l ->
  Forall (fun e => e = Elsewhere \/ exists h, e = Used h /\ List.In h hs) l.
Proof. apply Forall_impl. auto. Qed.

Section Uses.
Context {W H C : Type} (sys : world W H C).
Local Notation log := (list (call H)).
(** [m] makes at most [n] calls, all with the handles [hs] or elsewhere. *)
Definition uses {A} (hs : list H) (n : nat) (m : io (W * log) A) : Prop :=
  forall w l, exists l', snd (fst (m (w, l))) = l ++ l'
    /\ Forall (fun e => exists h, e = Used h /\ List.In h hs) l' /\ (length l' <= n)%nat.

Lemma uses_bind {A B} hs n1 n2 (m : io (W * log) A) (f : A -> io (W * log) B) :
  uses hs n1 m -> (forall a, uses hs n2 (f a)) -> uses hs (n1 + n2) (m >>= f).
Proof.
  intros Hm Hf w l. destruct (Hm w l) as (l1 & E1 & F1 & L1). unfold io_bind.
  destruct (m (w, l)) as [[w1 k1] [a|e|]]; cbn [fst snd] in *; subst k1.
  - destruct (Hf a w1 (l ++ l1)) as (l2 & E2 & F2 & L2). exists (l1 ++ l2).
    rewrite app_assoc, app_length. split; [exact E2|split; [apply Forall_app; auto|lia]].
  - exists l1. repeat split; auto; lia.
  - exists l1. repeat split; auto; lia.
Qed.
Lemma uses_weaken {A} hs n n' (m : io (W * log) A) : uses hs n m -> (n <= n')%nat -> uses hs n' m.
Proof. intros U L w l. destruct (U w l) as (l' & E & F & K). exists l'. repeat split; auto; lia. Qed.
Lemma uses_ret {A} hs (a : A) : uses hs 0 (io_ret a).
Proof. intros w l. exists []. rewrite app_nil_r. repeat split; auto. Qed.
Lemma uses_err {A} hs e : uses hs 0 (@io_err (W * log) A e).
Proof. intros w l. exists []. rewrite app_nil_r. repeat split; auto. Qed.
Lemma uses_write hs h buf : List.In h hs -> uses hs 1 (fun w => write (traced sys) w h buf).
Proof.
  intros K w l. exists [Used h]. cbn [write traced fst snd]. destruct (write sys w h buf) as [w' r]. cbn [fst snd].
  split; [reflexivity|split; [|cbn; lia]]. constructor; [eauto|constructor].
Qed.
Lemma uses_shutdown hs h : List.In h hs -> uses hs 1 (fun w => shutdown (traced sys) w h).
Proof.
  intros K w l. exists [Used h]. cbn [shutdown traced fst snd]. destruct (shutdown sys w h) as [w' r]. cbn [fst snd].
  split; [reflexivity|split; [|cbn; lia]]. constructor; [eauto|constructor].
Qed.
Lemma uses_write_loop hs fuel : forall h buf, List.In h hs -> uses hs fuel (write_loop (traced sys) fuel h buf).
Proof.
  induction fuel as [|fuel IH]; intros h buf K w l.
  - exists []. rewrite app_nil_r. destruct buf; repeat split; auto.
  - destruct buf as [|b buf].
    { exists []. rewrite app_nil_r. repeat split; auto. cbn [length]. lia. }
    cbn [write_loop]. destruct (uses_write hs h (b :: buf) K w l) as (l1 & E1 & F1 & L1).
    destruct (write (traced sys) (w, l) h (b :: buf)) as [[w1 k1] [n|e|]]; cbn [fst snd] in E1; subst k1;
      [|exists l1; repeat split; auto; lia..].
    destruct n as [|n]; [exists l1; repeat split; auto; lia|].
    destruct (length (b :: buf) <? S n)%nat; [exists l1; repeat split; auto; lia|].
    destruct (IH h (skipn (S n) (b :: buf)) K w1 (l ++ l1)) as (l2 & E2 & F2 & L2). exists (l1 ++ l2).
    rewrite app_assoc, app_length. split; [exact E2|split; [apply Forall_app; auto|lia]].
Qed.
Lemma uses_write_all hs h buf n : List.In h hs -> length buf = n -> uses hs n (write_all (traced sys) h buf).
Proof. intros K <-. apply uses_write_loop, K. Qed.
Lemma uses_write_whole hs h buf : List.In h hs -> uses hs 1 (write_whole (traced sys) h buf).
Proof.
  intros K. unfold write_whole. apply (uses_weaken hs (1 + 0)); [|lia].
  apply uses_bind; [apply uses_write, K|]. intros n. destruct (_ =? _)%nat; [apply uses_ret|apply uses_err].
Qed.
Lemma read_loop_uses hs fuel : forall h n w l, List.In h hs ->
  exists l', snd (fst (fst (read_loop (traced sys) fuel h n (w, l)))) = l ++ l'
    /\ Forall (fun e => exists h, e = Used h /\ List.In h hs) l' /\ (length l' <= fuel)%nat.
Proof.
  induction fuel as [|fuel IH]; intros h n w l K.
  - exists []. rewrite app_nil_r. destruct n; repeat split; auto.
  - destruct n as [|n].
    { exists []. rewrite app_nil_r. repeat split; auto. cbn [length]. lia. }
    cbn [read_loop]. cbn [read traced fst snd]. destruct (read sys w h (S n)) as [w1 r].
    assert (F1 : Forall (fun e => exists h, e = Used h /\ List.In h hs) [Used h])
      by (constructor; [eauto|constructor]).
    destruct r as [bs|e|]; [|exists [Used h]; repeat split; auto; cbn; lia..].
    destruct bs as [|b bs]; [exists [Used h]; repeat split; auto; cbn; lia|].
    destruct (S n <? length (b :: bs))%nat; [exists [Used h]; repeat split; auto; cbn; lia|].
    destruct (IH h (S n - length (b :: bs))%nat w1 (l ++ [Used h]) K) as (l2 & E2 & F2 & L2).
    destruct (read_loop (traced sys) fuel h (S n - length (b :: bs)) (w1, l ++ [Used h])) as [[w2 rest] r2].
    cbn [fst snd] in *. exists ([Used h] ++ l2). rewrite E2, app_assoc.
    split; [reflexivity|split; [apply Forall_app; auto|rewrite app_length; cbn [length]; lia]].
Qed.
Lemma uses_read_bytes hs h n : List.In h hs -> uses hs n (read_bytes (traced sys) h n).
Proof.
  intros K w l. destruct (read_loop_uses hs n h n w l K) as (l' & E & F & L). exists l'.
  unfold read_bytes, read_exact. destruct (read_loop (traced sys) n h n (w, l)) as [[w1 bs] r]. exact (conj E (conj F L)).
Qed.
Lemma uses_read_u32 hs h : List.In h hs -> uses hs 4 (read_u32 (traced sys) h).
Proof.
  intros K. unfold read_u32. apply (uses_weaken hs (4 + 0)); [|lia].
  apply uses_bind; [apply uses_read_bytes, K|]. intros a. apply uses_ret.
Qed.
Lemma uses_end hs h : List.In h hs -> uses hs 4 (check_response_end (traced sys) h).
Proof.
  intros K. unfold check_response_end. apply (uses_weaken hs (4 + 0)); [|lia].
  apply uses_bind; [apply uses_read_u32, K|]. intros n. destruct (_ =? _); [apply uses_ret|apply uses_err].
Qed.
Lemma uses_transact hs c command response w l : List.In (tpm_tcp c) hs ->
  exists l', snd (fst (fst (tcp_transact (traced sys) c (w, l) command response))) = l ++ l'
    /\ Forall (fun e => exists h, e = Used h /\ List.In h hs) l'
    /\ (length l' <= 1 + 4 + length response + 4)%nat.
Proof.
  intros K. unfold tcp_transact. destruct (2 ^ 32 <=? _).
  { exists []. rewrite app_nil_r. repeat split; auto. cbn [length]. lia. }
  set (frame := u32_bytes SendCommand ++ _).
  destruct (uses_bind hs 1 4 _ (fun _ => read_u32 (traced sys) (tpm_tcp c))
              (uses_write_whole hs (tpm_tcp c) frame K) (fun _ => uses_read_u32 hs _ K) w l) as (l1 & E1 & F1 & L1).
  destruct ((write_whole (traced sys) (tpm_tcp c) frame ;; read_u32 (traced sys) (tpm_tcp c)) (w, l)) as [[w1 k1] [len|e|]];
    cbn [fst snd] in E1; subst k1; [|exists l1; repeat split; auto; lia..].
  destruct (Z.ltb_spec (Z.of_nat (length response)) len) as [J|J]; [exists l1; repeat split; auto; lia|].
  destruct (read_loop_uses hs (Z.to_nat len) (tpm_tcp c) (Z.to_nat len) w1 (l ++ l1) K) as (l2 & E2 & F2 & L2).
  unfold read_exact. destruct (read_loop _ _ _ _ _) as [[[w2 k2] bs] r]. cbn [fst snd] in E2. subst k2.
  assert (B : (length (l1 ++ l2) <= 1 + 4 + length response)%nat) by (rewrite app_length; lia).
  assert (F : Forall (fun e => exists h, e = Used h /\ List.In h hs) (l1 ++ l2)) by (apply Forall_app; auto).
  destruct r as [|e|]; cbn [fst snd]; [|exists (l1 ++ l2); rewrite app_assoc; repeat split; auto; lia..].
  destruct (uses_end hs _ K w2 ((l ++ l1) ++ l2)) as (l3 & E3 & F3 & L3).
  destruct (check_response_end _ _ _) as [[w3 k3] r3]. cbn [fst snd] in *. subst k3.
  exists ((l1 ++ l2) ++ l3). rewrite !app_assoc. split; [reflexivity|].
  rewrite <- app_assoc. rewrite (app_assoc l1). split; [apply Forall_app; auto|rewrite app_length; lia].
Qed.

Lemma be4_length z : length (u32_bytes z) = 4%nat.
Proof. reflexivity. Qed.
Ltac step := first
  [ apply uses_bind; [|intros ?]
  | apply uses_write_all; [assumption|reflexivity]
  | apply uses_write_whole; assumption
  | apply uses_read_bytes; assumption
  | apply uses_read_u32; assumption
  | apply uses_end; assumption
  | apply uses_shutdown; assumption
  | apply uses_ret | apply uses_err ].
Ltac seq n := apply (uses_weaken _ n); [repeat step|cbn [most_calls]; lia].
Lemma uses_perform c o w l :
  exists l', snd (snd (fst (perform (traced sys) c o (w, l)))) = l ++ l'
    /\ Forall (fun e => exists h, e = Used h /\ List.In h [tpm_tcp c; plat_tcp c]) l'
    /\ (length l' <= most_calls o)%nat.
Proof.
  assert (T : List.In (tpm_tcp c) [tpm_tcp c; plat_tcp c]) by (left; reflexivity).
  assert (P : List.In (plat_tcp c) [tpm_tcp c; plat_tcp c]) by (right; left; reflexivity).
  assert (K : forall (m : io (W * log) unit), uses [tpm_tcp c; plat_tcp c] (most_calls o) m ->
    exists l', snd (fst (unit_answer (m (w, l)))) = l ++ l'
    /\ Forall (fun e => exists h, e = Used h /\ List.In h [tpm_tcp c; plat_tcp c]) l'
    /\ (length l' <= most_calls o)%nat).
  { intros m U. exact (U w l). }
  assert (S : forall s, uses [tpm_tcp c; plat_tcp c] 8 (platform_signal (traced sys) c s)).
  { intros s. unfold platform_signal. apply (uses_weaken _ (4 + 4)); [repeat step|lia]. }
  assert (B : forall code, uses [tpm_tcp c; plat_tcp c] 10 (end_both (traced sys) c code)).
  { intros s. unfold end_both. apply (uses_weaken _ (4 + (1 + (4 + 1)))); [repeat step|lia]. }
  destruct o as [command response|data|v|z|s| | | |z|z|z|z| | ]; cbn [perform fst snd].
  - destruct (uses_transact [tpm_tcp c; plat_tcp c] c command response w l T) as (l' & E & F & L). exists l'.
    destruct (tcp_transact _ _ _ _ _) as [[w1 r1] r]. cbn [fst snd] in *. auto.
  - apply K. unfold hcrtm_sequence. seq (4 + (4 + (1 + (4 + (4 + 4)))))%nat.
  - assert (U : uses [tpm_tcp c; plat_tcp c] (most_calls (Handshake v)) (remote_handshake (traced sys) c v)).
    { unfold remote_handshake. seq (1 + (8 + (4 + 0)))%nat. }
    destruct (U w l) as (l' & E & F). exists l'. destruct (remote_handshake _ _ _ _) as [w1 r]. auto.
  - apply K. unfold set_alternative_result. seq (1 + 4)%nat.
  - apply K. exact (S s).
  - apply K. unfold reinit. apply (uses_weaken _ (8 + (8 + (8 + 8)))%nat); [|cbn [most_calls]; lia].
    repeat (apply uses_bind; [apply S|intros _]). apply S.
  - apply K. unfold test_failure_mode. seq (4 + 4)%nat.
  - assert (U : uses [tpm_tcp c; plat_tcp c] (most_calls ResponseSizes) (get_command_response_sizes (traced sys) c)).
    { unfold get_command_response_sizes. apply (uses_weaken _ (4 + (4 + (16 + (4 + 0))))%nat); [|cbn [most_calls]; lia].
      step; [step|]. step; [step|]. destruct (negb _).
      - apply (uses_weaken _ 0); [apply uses_err|lia].
      - repeat step. }
    destruct (U w l) as (l' & E & F). exists l'. destruct (get_command_response_sizes _ _ _) as [w1 r]. auto.
  - assert (U : uses [tpm_tcp c; plat_tcp c] (most_calls (ActSignaled z)) (act_get_signaled (traced sys) c z)).
    { unfold act_get_signaled. seq (1 + (4 + (4 + 0)))%nat. }
    destruct (U w l) as (l' & E & F). exists l'. destruct (act_get_signaled _ _ _ _) as [w1 r]. auto.
  - apply K. unfold set_firmware_hash. seq (1 + 4)%nat.
  - apply K. unfold set_firmware_svn. seq (1 + 4)%nat.
  - exists []. rewrite app_nil_r. repeat split; auto.
  - apply K. exact (B SessionEnd).
  - apply K. exact (B Stop).
Qed.
Lemma perform_handles {W1 C1} (sys1 : world W1 H C1) c o w : let c' := fst (fst (perform sys1 c o w)) in
  tpm_tcp c' = tpm_tcp c /\ plat_tcp c' = plat_tcp c.
Proof.
  destruct o; cbn [perform fst snd]; auto. destruct (tcp_transact _ _ _ _ _) as [[? ?] ?]. auto.
Qed.
Lemma use_all_handles os : forall c w l, let '(c', (w', l')) := use_all (traced sys) c os (w, l) in
  tpm_tcp c' = tpm_tcp c /\ plat_tcp c' = plat_tcp c
  /\ exists seen, l' = l ++ seen
     /\ Forall (fun e => exists h, e = Used h /\ List.In h [tpm_tcp c; plat_tcp c]) seen
     /\ (length seen <= fold_right plus 0 (map most_calls os))%nat.
Proof.
  induction os as [|o os IH]; intros c w l.
  { cbn. repeat split; auto. exists []. rewrite app_nil_r. auto. }
  cbn [use_all]. destruct (uses_perform c o w l) as (l1 & E1 & F1 & L1).
  pose proof (perform_handles (traced sys) c o (w, l)) as Hh. cbn zeta in Hh.
  destruct (perform (traced sys) c o (w, l)) as [[c1 [w1 k1]] r]. cbn [fst snd] in *. subst k1. destruct Hh as [T P].
  specialize (IH c1 w1 (l ++ l1)). destruct (use_all (traced sys) c1 os (w1, l ++ l1)) as [c2 [w2 k2]].
  destruct IH as (T2 & P2 & l2 & E2 & F2 & L2). rewrite T, P in *. repeat split; auto.
  exists (l1 ++ l2). rewrite E2, app_assoc. split; [reflexivity|]. split; [apply Forall_app; auto|].
  rewrite app_length. cbn [map fold_right]. lia.
Qed.
End Uses.

Section Opening.
Context {W H C : Type} (sys : world W H C) (close : W -> H -> W).
Local Notation log := (list (call H)).
(** [m] makes at most [n] calls, and only the streams of its result stay open. *)
Definition opens {A} (n : nat) (keeps : A -> list H) (m : io (W * log) A) : Prop :=
  forall w l, let '((w', k), r) := m (w, l) in exists l', k = l ++ l' /\ (length l' <= n)%nat
    /\ lives [] l' (match r with Ok a => keeps a | _ => [] end).
Definition streams (c : tcp H) : list H := [plat_tcp c; tpm_tcp c].

Lemma opens_bind {A B} n1 n2 (keeps : B -> list H) (m : io (W * log) A) (f : A -> io (W * log) B) :
  opens n1 (fun _ => []) m -> (forall a, opens n2 keeps (f a)) -> opens (n1 + n2) keeps (m >>= f).
Proof.
  intros Hm Hf w l. specialize (Hm w l). unfold io_bind. destruct (m (w, l)) as [[w1 k1] [a|e|]];
    destruct Hm as (l1 & -> & L1 & K1); [|exists l1; repeat split; auto; lia..].
  specialize (Hf a w1 (l ++ l1)). destruct (f a (w1, l ++ l1)) as [[w2 k2] r]. destruct Hf as (l2 & -> & L2 & K2).
  exists (l1 ++ l2). rewrite app_assoc. split; [reflexivity|split; [rewrite app_length; lia|]].
  apply (lives_app _ [] _ _ _ K1 K2).
Qed.
Lemma opens_retry {A} n (keeps : A -> list H) (f : io (W * log) A) : opens n keeps f ->
  forall fuel attempts, opens (n + fuel * (1 + n)) keeps (retry_loop (traced sys) fuel attempts f).
Proof.
  intros Hf. induction fuel as [|fuel IH]; intros attempts w l; cbn [retry_loop];
    specialize (Hf w l); destruct (f (w, l)) as [[w1 k1] [a|e|]]; destruct Hf as (l1 & -> & L1 & K1).
  1-3: try destruct (3 <? attempts); exists l1; repeat split; auto; lia.
  - exists l1; repeat split; auto; lia.
  - destruct (3 <? attempts); [exists l1; repeat split; auto; lia|].
    cbn [sleep_one_second traced fst snd]. specialize (IH (attempts + 1) (sleep_one_second sys w1) ((l ++ l1) ++ [Elsewhere])).
    destruct (retry_loop _ _ _ _ _) as [[w2 k2] r]. destruct IH as (l2 & -> & L2 & K2).
    exists (l1 ++ Elsewhere :: l2). rewrite <- !app_assoc. split; [reflexivity|].
    split; [rewrite app_length; cbn [length]; lia|]. apply (lives_app _ [] _ _ _ K1). constructor. exact K2.
  - exists l1; repeat split; auto; lia.
Qed.
Lemma retry_limit {A} (f : io (W * log) A) w : retry_loop (traced sys) 4 1 f w = retry_loop (traced sys) 3 1 f w.
Proof.
  cbn [retry_loop]. repeat (destruct (f _) as [? [?|?|]]; [reflexivity| |reflexivity];
    match goal with |- context [3 <? ?x] => let b := eval vm_compute in (3 <? x) in change (3 <? x) with b end; cbn iota).
  reflexivity.
Qed.
Lemma connect_opens ip tp pp : opens 3 streams (connect_closing (traced sys) (traced_close close) ip tp pp).
Proof.
  intros w l. unfold connect_closing, io_bind. cbn [tcp_connect traced fst snd].
  set (p1 := match tp with Some p => p | None => _ end). set (p2 := match pp with Some p => p | None => _ end).
  destruct (tcp_connect sys w ip p1) as [w1 [t|e|]]; cbn [fst snd].
  2,3: exists [Elsewhere]; repeat split; [cbn; lia|repeat constructor].
  destruct (tcp_connect sys w1 ip p2) as [w2 [p|e|]]; cbn [fst snd traced_close].
  - exists [Opened t; Opened p]. rewrite <- app_assoc. repeat split; [cbn; lia|repeat constructor].
  - exists [Opened t; Elsewhere; Closed t]. rewrite <- !app_assoc. repeat split; [cbn; lia|].
    constructor. constructor. apply (lives_closed t [] []). constructor.
  - exists [Opened t; Elsewhere; Closed t]. rewrite <- !app_assoc. repeat split; [cbn; lia|].
    constructor. constructor. apply (lives_closed t [] []). constructor.
Qed.
Lemma retries_open ip tp pp : opens 15 streams (connect_with_retries_closing (traced sys) (traced_close close) ip tp pp).
Proof.
  intros w l. unfold connect_with_retries_closing. rewrite retry_limit.
  exact (opens_retry 3 streams _ (connect_opens ip tp pp) 3 1 w l).
Qed.
Lemma port_opens path : opens 7 (fun _ => []) (read_port (traced sys) path).
Proof.
  unfold read_port. change 7%nat with (7 + 0)%nat. apply opens_bind.
  - intros w l. rewrite retry_limit. refine (opens_retry 1 _ _ _ 3 1 w l). intros w' l'.
    cbn [read_to_string traced fst snd]. destruct (read_to_string sys w' path) as [w1 r].
    exists [Elsewhere]. repeat split; [cbn; lia|]. destruct r; repeat constructor.
  - intros text w l. destruct (parse_u16 _); exists []; rewrite app_nil_r; repeat split; auto; constructor.
Qed.
Lemma new_opens bin args cwd ip :
  opens 30 (fun s => streams (conn s)) (simulator_new_closing (traced sys) (traced_close close) bin args cwd ip).
Proof.
  unfold simulator_new_closing. change 30%nat with (1 + (7 + (7 + (15 + 0))))%nat.
  apply opens_bind.
  { intros w l. cbn [spawn traced fst snd]. destruct (spawn sys w bin args cwd) as [w1 r].
    exists [Elsewhere]. repeat split; [cbn; lia|]. destruct r; repeat constructor. }
  intros ch. apply opens_bind; [apply port_opens|]. intros p1. apply opens_bind; [apply port_opens|]. intros p2.
  intros w l. pose proof (retries_open ip (Some p1) (Some p2) w l) as R. unfold io_bind.
  destruct (connect_with_retries_closing _ _ _ _ _ _) as [[w1 k1] [c|e|]]; exact R.
Qed.
Lemma drop_lives c (w : W) l o : lives (H := H) o l (streams c) ->
  lives o (snd (tcp_drop (traced_close close) c (w, l))) [].
Proof.
  intros L. cbn [tcp_drop traced_close fst snd]. rewrite <- app_assoc. apply (lives_app _ _ _ _ _ L). cbn [app streams].
  apply (lives_closed (tpm_tcp c) [plat_tcp c] []). apply (lives_closed (plat_tcp c) [] []). constructor.
Qed.
Lemma simulator_drop_uses s w l : exists l', snd (simulator_drop (traced sys) s (w, l)) = l ++ l'
  /\ Forall (fun e => e = Elsewhere \/ exists h, e = Used h /\ List.In h [tpm_tcp (conn s); plat_tcp (conn s)]) l'
  /\ (length l' <= 11)%nat.
Proof.
  destruct (uses_perform sys (conn s) StopSimulator w l) as (l1 & E1 & F0 & L1).
  pose proof (used_or_elsewhere _ _ F0) as F1.
  cbn [perform fst snd unit_answer most_calls] in E1, L1. unfold simulator_drop, stop_nicely.
  destruct (stop_simulator (traced sys) (conn s) (w, l)) as [[w1 k1] r]. cbn [fst snd] in E1. subst k1.
  destruct r as [u|e|]; cbn [fst snd]; [exists l1; repeat split; auto; lia| |exists l1; repeat split; auto; lia].
  unfold simulator_stop. cbn [kill traced fst snd]. destruct (kill sys w1 (child s)) as [w2 r2]. cbn [fst snd].
  exists (l1 ++ [Elsewhere]). rewrite app_assoc. split; [reflexivity|]. split; [|rewrite app_length; cbn [length]; lia].
  apply Forall_app. split; [exact F1|]. repeat constructor.
Qed.
Lemma swapped (t p : H) l : Forall (fun e => e = Elsewhere \/ exists h, e = Used h /\ List.In h [t; p]) l -> lives [p; t] l [p; t].
Proof.
  intros F. apply lives_all_used. eapply Forall_impl; [|exact F]. intros e [K|(h & -> & K)]; [left; exact K|].
  right. exists h. split; [reflexivity|]. destruct K as [<-|[<-|[]]]; cbn; auto.
Qed.
End Opening.

(** ** C91 *)
(** Connecting: whatever the system answers, a failure leaves nothing open, a
    success exactly the two streams of the connection. *)
Theorem c91_connect : forall (W H C : Type) (sys : world W H C) close ip tpm_port plat_port (w : W),
  let '((_, calls), r) := connect_with_retries_closing (traced sys) (traced_close close) ip tpm_port plat_port (w, []) in
  lives [] calls (match r with Ok c => [plat_tcp c; tpm_tcp c] | _ => [] end).
Proof.
  intros W H C sys close ip tp pp w. pose proof (retries_open sys close ip tp pp w []) as R.
  destruct (connect_with_retries_closing _ _ _ _ _ _) as [[w1 k] r]. destruct R as (l' & -> & _ & R). exact R.
Qed.
(** A connection from first to last: whatever operations are tried and however
    they end, each stream is used only while open and none is left open. *)
Theorem c91_connection : forall (W H C : Type) (sys : world W H C) close ip tpm_port plat_port os (w : W),
  lives [] (snd (with_connection (traced sys) (traced_close close) ip tpm_port plat_port os (w, []))) [].
Proof.
  intros W H C sys close ip tp pp os w. unfold with_connection. pose proof (retries_open sys close ip tp pp w []) as R.
  destruct (connect_with_retries_closing _ _ _ _ _ _) as [[w1 k] r]. destruct R as (l' & -> & _ & R). cbn [app].
  destruct r as [c|e|]; [|exact R..].
  pose proof (use_all_handles sys os c w1 l') as U. destruct (use_all (traced sys) c os (w1, l')) as [c2 [w2 l2]].
  destruct U as (T & P & seen & -> & F & _). apply drop_lives. apply (lives_app _ _ _ _ _ R). unfold streams.
  rewrite T, P. apply swapped, used_or_elsewhere, F.
Qed.
(** The same for a simulator that is started, used and dropped. *)
Theorem c91_simulator : forall (W H C : Type) (sys : world W H C) close bin args cwd ip os (w : W),
  lives [] (snd (with_simulator (traced sys) (traced_close close) bin args cwd ip os (w, []))) [].
Proof.
  intros W H C sys close bin args cwd ip os w. unfold with_simulator. pose proof (new_opens sys close bin args cwd ip w []) as R.
  destruct (simulator_new_closing _ _ _ _ _ _ _) as [[w1 k] r]. destruct R as (l' & -> & _ & R). cbn [app].
  destruct r as [s|e|]; [|exact R..].
  pose proof (use_all_handles sys os (conn s) w1 l') as U.
  destruct (use_all (traced sys) (conn s) os (w1, l')) as [c2 [w2 l2]]. destruct U as (T & P & seen & -> & F & _).
  unfold simulator_dropped. cbn [conn].
  destruct (simulator_drop_uses sys close {| child := child s; conn := c2 |} w2 (l' ++ seen)) as (l3 & E3 & F3 & _).
  destruct (simulator_drop _ _ _) as [w3 k3]. cbn [fst snd conn] in E3, F3. subst k3.
  apply drop_lives. apply (lives_app _ (streams (conn s))).
  - apply (lives_app _ _ _ _ _ R). apply swapped, used_or_elsewhere, F.
  - unfold streams. rewrite T, P in *. apply swapped, F3.
Qed.
(** Apart from the closing these are the functions of the other claims. *)
Theorem c91_same : forall (W H C : Type) (sys : world W H C) ip tpm_port plat_port bin args cwd (w : W),
  let close := fun (w : W) (_ : H) => w in
  connect_with_retries_closing sys close ip tpm_port plat_port w = connect_with_retries sys ip tpm_port plat_port w
  /\ simulator_new_closing sys close bin args cwd ip w = simulator_new sys bin args cwd ip w
  /\ forall s, simulator_dropped sys close s w = simulator_drop sys s w.
Proof.
  intros W H C sys ip tp pp bin args cwd w close. repeat split.
Qed.
(** A system that refuses every second connection at first: handles are
    numbers, the state counts connections. *)
Definition flaky : world nat nat unit := {|
  tcp_connect := fun w _ _ => (S w, if (w =? 1)%nat || (w =? 2)%nat then Err (System 111) else Ok w);
  write := fun w _ buf => (w, Ok (if (length buf <=? 4)%nat then Nat.min 1 (length buf) else length buf));
  read := fun w _ _ => (w, Ok [x00]);
  shutdown := fun w _ => (w, Ok tt);
  sleep_one_second := fun w => w;
  read_to_string := fun w _ => (w, Err (System 2));
  spawn := fun w _ _ _ => (w, Err (System 2));
  kill := fun w _ => (w, Ok tt)
|}.
Example c91_example :
  snd (with_connection (traced flaky) (traced_close (fun w _ => w)) [] None None [Signal PowerOn; Locality 3] (0%nat, []))
  = [Opened 0%nat; Elsewhere; Closed 0%nat; Elsewhere; Elsewhere; Elsewhere; Opened 3%nat; Opened 4%nat]
    ++ repeat (Used 4%nat) 8 ++ [Closed 3%nat; Closed 4%nat].
Proof. vm_compute. reflexivity. Qed.
(** Streams left open, used too late or closed twice would be noticed. *)
Example c91_leak : ~ lives [] [Opened 0%nat; Elsewhere] []
  /\ ~ lives [] [Opened 0%nat; Closed 0%nat; Used 0%nat] []
  /\ ~ lives [] [Opened 0%nat; Closed 0%nat; Closed 0%nat] [].
Proof.
  assert (E : forall (h h' : nat) o1 o2, [h] = o1 ++ h' :: o2 -> o1 = [] /\ o2 = []).
  { intros h h' [|x [|y o1]] o2 K; cbn in K; inversion K; auto. }
  repeat split; intros K.
  - inversion K as [|? ? ? ? K1| | |]; subst. inversion K1 as [| | | |? ? ? K2]; subst. inversion K2.
  - inversion K as [|? ? ? ? K1| | |]; subst. inversion K1 as [| | |h o1 o2 l o' K2 E1 E2|]; subst.
    destruct (E _ _ _ _ (eq_sym E1)) as [-> ->]. inversion K2 as [| |? ? ? ? I| |]; subst. destruct I.
  - inversion K as [|? ? ? ? K1| | |]; subst. inversion K1 as [| | |h o1 o2 l o' K2 E1 E2|]; subst.
    destruct (E _ _ _ _ (eq_sym E1)) as [-> ->]. inversion K2 as [| | |h o1 o2 l o' K3 E3|]; subst.
    apply app_eq_nil in E3. destruct E3 as [_ E3]. discriminate E3.
Qed.

(** ** C92 *)
(** Whatever the network answers, an operation makes at most a fixed number of
    system calls, and only on the two streams of its connection. *)
Theorem c92_operation : forall (W H C : Type) (sys : world W H C) c o (w : W) (l : list (call H)),
  let '((_, (_, l')), _) := perform (traced sys) c o (w, l) in
  exists calls, l' = l ++ calls /\ (length calls <= most_calls o)%nat
    /\ Forall (fun e => e = Used (tpm_tcp c) \/ e = Used (plat_tcp c)) calls.
Proof.
  intros W H C sys c o w l. destruct (uses_perform sys c o w l) as (l' & E & F & L).
  destruct (perform (traced sys) c o (w, l)) as [[c1 [w1 l1]] r]. cbn [fst snd] in E. exists l'. repeat split; auto.
  eapply Forall_impl; [|exact F]. intros e (h & -> & [<-|[<-|[]]]); auto.
Qed.
(** Connecting, starting and dropping, with the streams closed again. *)
Theorem c92_around : forall (W H C : Type) (sys : world W H C) close (w : W),
  (forall ip tpm_port plat_port, (length (snd (fst
     (connect_with_retries_closing (traced sys) (traced_close close) ip tpm_port plat_port (w, [])))) <= 15)%nat)
  /\ (forall bin args cwd ip, (length (snd (fst
     (simulator_new_closing (traced sys) (traced_close close) bin args cwd ip (w, [])))) <= 30)%nat)
  /\ (forall s, (length (snd (simulator_dropped (traced sys) (traced_close close) s (w, []))) <= 13)%nat).
Proof.
  intros W H C sys close w. repeat split.
  - intros ip tp pp. pose proof (retries_open sys close ip tp pp w []) as R.
    destruct (connect_with_retries_closing _ _ _ _ _ _) as [[w1 k] r]. destruct R as (l' & -> & L & _). exact L.
  - intros bin args cwd ip. pose proof (new_opens sys close bin args cwd ip w []) as R.
    destruct (simulator_new_closing _ _ _ _ _ _ _) as [[w1 k] r]. destruct R as (l' & -> & L & _). exact L.
  - intros s. unfold simulator_dropped. destruct (simulator_drop_uses sys close s w []) as (l' & E & _ & L).
    destruct (simulator_drop _ _ _) as [w1 k]. cbn [fst snd app] in E. subst k.
    cbn [tcp_drop traced_close fst snd]. rewrite !app_length. cbn [length]. lia.
Qed.
(** A whole history makes no more calls than its operations may. *)
Theorem c92_history : forall (W H C : Type) (sys : world W H C) c os (w : W),
  (length (snd (snd (use_all (traced sys) c os (w, [])))) <= fold_right plus 0 (map most_calls os))%nat.
Proof.
  intros W H C sys c os w. pose proof (use_all_handles sys os c w []) as U.
  destruct (use_all (traced sys) c os (w, [])) as [c2 [w2 l2]]. destruct U as (_ & _ & seen & -> & _ & L). exact L.
Qed.
(** The bounds are reached. *)
Example c92_reached : let c := {| tpm_tcp := 3; plat_tcp := 4; locality := 0 |}%nat in
  forallb (fun o => (length (snd (snd (fst (perform (traced flaky) c o (0%nat, []))))) =? most_calls o)%nat)
    [Transact [x80] []; Hcrtm [x01]; Handshake 1; AlternativeResult 1; Signal PowerOn; Reinit; FailureMode;
     ActSignaled 1; FirmwareHash 1; FirmwareSvn 1; Locality 1; EndSession; StopSimulator] = true.
Proof. vm_compute. reflexivity. Qed.
