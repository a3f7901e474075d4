(** Starting a simulator while it starts up (C96): [TcpSimulator::new] runs
    beside the process that it started, which writes its port files and begins
    to listen at times of its own. *)
From Coq Require Import String ZArith NArith List Lia Bool Arith.
From Coq Require Import Init.Byte.
From Verif Require Import Prelude Client Tcp TcpSpec TcpProofs SimulatorProofs TcpFacts.
Import ListNotations.
Open Scope Z_scope.

(** ** Specification: what happens beside the caller *)

(** A schedule: at every moment, what each file holds (if it is there) and who
    listens.  A connection is named after its port. *)
Record surroundings := {
  content : nat -> list byte -> option (list byte);
  listening : nat -> list byte -> Z -> bool }.
(** Every system call of the caller takes one moment, a pause [second] of
    them. *)
Definition beside (s : surroundings) (second : nat) : world nat Z unit := {|
  tcp_connect := fun t ip port => (S t, if listening s t ip port then Ok port else Err (System 111));
  write := fun t _ buf => (S t, Ok (length buf));
  read := fun t _ _ => (S t, Ok []);
  shutdown := fun t _ => (S t, Ok tt);
  sleep_one_second := fun t => (t + second)%nat;
  read_to_string := fun t path => (S t, match content s t path with Some text => Ok text | None => Err (System 2) end);
  spawn := fun t _ _ _ => (S t, Ok tt);
  kill := fun t _ => (S t, Ok tt) |}.
(** A file that is not there until it is there with all its text. *)
Definition appears_whole (s : surroundings) (path text : list byte) : Prop :=
  forall t, content s t path = None \/ content s t path = Some text.
(** The simulator is up from [t0] on: files written, listening on both ports. *)
Definition up (s : surroundings) (cwd ip text1 text2 : list byte) (port1 port2 : Z) (t0 : nat) : Prop :=
  forall t, (t0 <= t)%nat ->
    content s t (file_in cwd (list_byte_of_string "command.port")) = Some text1
    /\ content s t (file_in cwd (list_byte_of_string "platform.port")) = Some text2
    /\ listening s t ip port1 = true /\ listening s t ip port2 = true.

(** ** Proofs *)
Section Beside.
Context (s : surroundings) (second : nat).
Notation sys := (beside s second).

(** What is tried takes time, and works from [t0] on. *)
Lemma retry_ready {A} (f : io nat A) (a : A) t0 :
  (forall t, (t < fst (f t))%nat /\ (snd (f t) = Ok a \/ exists e, snd (f t) = Err e)) ->
  (forall t, (t0 <= t)%nat -> snd (f t) = Ok a) ->
  forall fuel n t, 4 - n <= Z.of_nat fuel -> 1 <= n <= 4 ->
    (t0 <= t + Z.to_nat (4 - n) * (second + 1))%nat ->
    exists t', retry_loop sys fuel n f t = (t', Ok a) /\ (t < t')%nat.
Proof.
  intros Hf Hr. induction fuel as [|fuel IH]; intros n t Ef Hn Ht; cbn [retry_loop].
  - specialize (Hr t). destruct (Hf t) as [L _]. destruct (f t) as [t' r]. cbn [fst snd] in *.
    rewrite Hr by (replace n with 4 in Ht by lia; cbn in Ht; lia). exists t'. auto.
  - destruct (Hf t) as [L O]. pose proof (Hr t) as Hr'. destruct (f t) as [t' r]. cbn [fst snd] in *.
    destruct O as [->|[e ->]]; [exists t'; auto|].
    destruct (Z.ltb_spec 3 n).
    { discriminate Hr'. replace n with 4 in Ht by lia. cbn in Ht. lia. }
    cbn [sleep_one_second beside].
    destruct (IH (n + 1) (t' + second)%nat) as (t'' & E & L'); [lia|lia| |exists t''; split; [exact E|lia]].
    assert (Z.to_nat (4 - n) = S (Z.to_nat (4 - (n + 1)))) as Q by lia. rewrite Q in Ht. nia.
Qed.
(** A success is one of the first attempt that succeeds. *)
Lemma retry_first {A} (f : io nat A) (a : A) :
  (forall t b, snd (f t) = Ok b -> b = a) ->
  forall fuel n t t' b, retry_loop sys fuel n f t = (t', Ok b) -> b = a.
Proof.
  intros Hf. induction fuel as [|fuel IH]; intros n t t' b E; cbn [retry_loop] in E;
    specialize (Hf t); destruct (f t) as [t1 r]; cbn [snd] in Hf; destruct r as [x|e|]; try discriminate.
  - injection E as _ ->. apply Hf. reflexivity.
  - destruct (3 <? n); discriminate.
  - injection E as _ ->. apply Hf. reflexivity.
  - destruct (3 <? n); [discriminate|]. exact (IH _ _ _ _ E).
Qed.
Lemma read_port_ready path text port t0 t :
  port_text text port -> appears_whole s path text ->
  (forall t, (t0 <= t)%nat -> content s t path = Some text) ->
  (t0 <= t + 3 * (second + 1))%nat ->
  exists t', read_port sys path t = (t', Ok port) /\ (t < t')%nat.
Proof.
  intros P Wh R L. destruct (retry_ready (fun w => read_to_string sys w path) text t0) with (fuel := 4%nat) (n := 1) (t := t)
    as (t' & E & Lt); try lia.
  - intros u. cbn [read_to_string beside fst snd]. split; [lia|]. destruct (Wh u) as [-> | ->]; eauto.
  - intros u Hu. cbn [read_to_string beside snd]. rewrite R by exact Hu. reflexivity.
  - exists t'. split; [|exact Lt]. unfold read_port, io_bind.
    rewrite E. apply port_spec in P. rewrite P. reflexivity.
Qed.
Lemma read_port_whole path text port t t' p :
  port_text text port -> appears_whole s path text ->
  read_port sys path t = (t', Ok p) -> p = port.
Proof.
  intros P Wh E. unfold read_port, io_bind in E.
  destruct (retry_loop sys 4 1 (fun w => read_to_string sys w path) t) as [t1 [x|e|]] eqn:E1; try discriminate.
  assert (x = text).
  { refine (retry_first (fun w => read_to_string sys w path) text _ 4 1 t t1 x E1). intros u b. cbn [read_to_string beside snd].
    destruct (Wh u) as [-> | ->]; [discriminate|]. intros Eb. injection Eb as <-. reflexivity. }
  subst x. apply port_spec in P. rewrite P in E. injection E as _ <-. reflexivity.
Qed.
Lemma connect_ready ip p1 p2 t0 t :
  (forall t, (t0 <= t)%nat -> listening s t ip p1 = true /\ listening s t ip p2 = true) ->
  (t0 <= t + 3 * (second + 1))%nat ->
  exists t', connect_with_retries sys ip (Some p1) (Some p2) t = (t', Ok {| tpm_tcp := p1; plat_tcp := p2; locality := 0 |}).
Proof.
  intros R L. set (f := connect sys ip (Some p1) (Some p2)).
  assert (S1 : forall u, snd (f u) = Ok {| tpm_tcp := p1; plat_tcp := p2; locality := 0 |} \/ exists e, snd (f u) = Err e).
  { intros u. unfold f, connect, io_bind. cbn [tcp_connect beside]. destruct (listening s u ip p1); [|right; eexists; reflexivity].
    destruct (listening s (S u) ip p2); [|right; eexists; reflexivity]. left. reflexivity. }
  assert (T1 : forall u, (u < fst (f u))%nat).
  { intros u. unfold f, connect, io_bind. cbn [tcp_connect beside]. destruct (listening s u ip p1); [|cbn; lia].
    destruct (listening s (S u) ip p2); cbn; lia. }
  destruct (retry_ready f {| tpm_tcp := p1; plat_tcp := p2; locality := 0 |} t0) with (fuel := 4%nat) (n := 1) (t := t)
    as (t' & E & _); try lia.
  - intros u. split; [apply T1|apply S1].
  - intros u Hu. unfold f, connect, io_bind. cbn [tcp_connect beside].
    rewrite (proj1 (R u Hu)), (proj2 (R (S u) ltac:(lia))). reflexivity.
  - exists t'. unfold connect_with_retries. fold f.
    exact E.
Qed.
Lemma connect_ports ip p1 p2 t t' c :
  connect_with_retries sys ip (Some p1) (Some p2) t = (t', Ok c) -> c = {| tpm_tcp := p1; plat_tcp := p2; locality := 0 |}.
Proof.
  intros E. refine (retry_first (connect sys ip (Some p1) (Some p2)) _ _ 4 1 t t' c E).
  intros u b. unfold connect, io_bind. cbn [tcp_connect beside]. destruct (listening s u ip p1); [|discriminate].
  destruct (listening s (S u) ip p2); [|discriminate]. cbn. intros Eb. injection Eb as <-. reflexivity.
Qed.
End Beside.

(** ** C96 *)

(** If the simulator's files appear whole and it is up by the time of the last
    attempt (after three pauses), it is found, on every schedule: however late
    each file and each port is, and whatever time calls and pauses take. *)
Theorem c96_waits_partial : forall s second bin args cwd ip text1 text2 port1 port2 t t0,
  port_text text1 port1 -> port_text text2 port2 ->
  appears_whole s (file_in cwd (list_byte_of_string "command.port")) text1 ->
  appears_whole s (file_in cwd (list_byte_of_string "platform.port")) text2 ->
  up s cwd ip text1 text2 port1 port2 t0 ->
  (t0 <= t + 1 + 3 * (second + 1))%nat ->
  snd (simulator_new (beside s second) bin args cwd ip t)
  = Ok {| child := tt; conn := {| tpm_tcp := port1; plat_tcp := port2; locality := 0 |} |}.
Proof.
  intros s second bin args cwd ip text1 text2 port1 port2 t t0 P1 P2 W1 W2 U L.
  unfold simulator_new. unfold io_bind at 1. cbn [spawn beside].
  rewrite <- join_spec in W1, W2.
  destruct (read_port_ready s second (join cwd command_port) text1 port1 t0 (S t) P1 W1) as (t1 & E1 & L1);
    [intros u Hu; rewrite join_spec; apply (U u Hu)|lia|].
  destruct (read_port_ready s second (join cwd platform_port) text2 port2 t0 t1 P2 W2) as (t2 & E2 & L2);
    [intros u Hu; rewrite join_spec; apply (U u Hu)|lia|].
  destruct (connect_ready s second ip port1 port2 t0 t2) as (t3 & E3); [intros u Hu; split; apply (U u Hu)|lia|].
  unfold io_bind. rewrite E1, E2, E3. reflexivity.
Qed.

(** And a success is a connection to the ports of that simulator, whether or
    not it was up in time. *)
Theorem c96_ports_partial : forall s second bin args cwd ip text1 text2 port1 port2 t t' sim,
  port_text text1 port1 -> port_text text2 port2 ->
  appears_whole s (file_in cwd (list_byte_of_string "command.port")) text1 ->
  appears_whole s (file_in cwd (list_byte_of_string "platform.port")) text2 ->
  simulator_new (beside s second) bin args cwd ip t = (t', Ok sim) ->
  tpm_tcp (conn sim) = port1 /\ plat_tcp (conn sim) = port2.
Proof.
  intros s second bin args cwd ip text1 text2 port1 port2 t t' sim P1 P2 W1 W2 E.
  unfold simulator_new in E. unfold io_bind at 1 in E. cbn [spawn beside] in E.
  rewrite <- join_spec in W1, W2.
  unfold io_bind in E.
  destruct (read_port (beside s second) (join cwd command_port) (S t)) as [t1 [p1|e|]] eqn:E1; try discriminate.
  destruct (read_port (beside s second) (join cwd platform_port) t1) as [t2 [p2|e|]] eqn:E2; try discriminate.
  destruct (connect_with_retries (beside s second) ip (Some p1) (Some p2) t2) as [t3 [c|e|]] eqn:E3; try discriminate.
  apply connect_ports in E3. apply (read_port_whole s second _ _ _ _ _ _ P1 W1) in E1.
  apply (read_port_whole s second _ _ _ _ _ _ P2 W2) in E2. injection E as _ <-. subst. split; reflexivity.
Qed.

(** The bound is exact: if its file is not there by then, the start fails, and
    the simulator has been left running (C60). *)
Theorem c96_gives_up : forall s second bin args cwd ip t,
  (forall u, (u <= t + 1 + 3 * (second + 1))%nat -> content s u (file_in cwd (list_byte_of_string "command.port")) = None) ->
  snd (simulator_new (beside s second) bin args cwd ip t) = Err (System 2).
Proof.
  intros s second bin args cwd ip t A.
  change (list_byte_of_string "command.port") with command_port in *. rewrite <- join_spec in A.
  unfold simulator_new, read_port, io_bind. cbn [spawn retry_loop beside read_to_string sleep_one_second].
  rewrite A by lia. cbn [Z.ltb Z.compare Pos.compare Pos.compare_cont Z.add Pos.add Pos.succ].
  rewrite A by lia. cbn [Z.ltb Z.compare Pos.compare Pos.compare_cont Z.add Pos.add Pos.succ].
  rewrite A by lia. cbn [Z.ltb Z.compare Pos.compare Pos.compare_cont Z.add Pos.add Pos.succ].
  rewrite A by lia. reflexivity.
Qed.
Example c96_gives_up_case :
  let never := {| content := fun _ _ => None; listening := fun _ _ _ => true |} in
  snd (simulator_new (beside never 5) [x62] [] [x2f] [x69] 0%nat) = Err (System 2)
  /\ fst (simulator_new (beside never 5) [x62] [] [x2f] [x69] 0%nat) = 20%nat.
Proof. vm_compute. auto. Qed.

(** A file is seen half written: the port is cut short. *)
Theorem c96_half_written : forall s second path digits1 digits2 t,
  digits1 <> [] -> Forall is_digit (digits1 ++ digits2) -> decimal (digits1 ++ digits2) <= 65535 ->
  content s t path = Some digits1 ->
  snd (read_port (beside s second) path t) = Ok (decimal (digits1 ++ digits2) / 10 ^ Z.of_nat (length digits2)).
Proof.
  intros s second path digits1 digits2 t N F B Ec.
  apply Forall_app in F. destruct F as [F1 F2].
  assert (App : forall a b, decimal (a ++ b) = decimal a * 10 ^ Z.of_nat (length b) + decimal b).
  { induction a as [|x a IH]; intros b; cbn [app decimal]; [lia|]. rewrite IH, app_length, Nat2Z.inj_add, Z.pow_add_r by lia. ring. }
  assert (Rg : forall b, Forall is_digit b -> 0 <= decimal b < 10 ^ Z.of_nat (length b)).
  { induction b as [|x b IH]; intros Fb; cbn [decimal length]; [cbn; lia|].
    pose proof (IH (Forall_inv_tail Fb)). pose proof (Forall_inv Fb) as Dx. unfold is_digit in Dx.
    rewrite Nat2Z.inj_succ, Z.pow_succ_r by lia. nia. }
  pose proof (Rg _ F1). pose proof (Rg _ F2). rewrite App in *.
  assert (0 < 10 ^ Z.of_nat (length digits2)) by (apply Z.pow_pos_nonneg; lia).
  rewrite Z.div_add_l, Z.div_small, Z.add_0_r by lia.
  destruct (c59_text nat Z unit (beside s second) path t (S t) digits1) as [Q _].
  { cbn [read_to_string beside]. rewrite Ec. reflexivity. }
  rewrite (Q (decimal digits1)); [reflexivity|].
  exists [], [], digits1, []. cbn. rewrite app_nil_r. repeat split; auto. nia.
Qed.

(** Three schedules on which the simulator is up in time, and the start fails or
    finds another port: a file left over from an earlier run, a file seen after
    it was created and before it was written, and one seen half written. *)
Definition in_tmp (first : option (list byte)) : surroundings := {|
  content := fun t path => if (length path =? 15)%nat
                           then if (t <? 3)%nat then first else Some (list_byte_of_string "2321")
                           else Some (list_byte_of_string "2322");
  listening := fun t _ port => true |}.
Theorem c96_waits_refuted :
  let start first := snd (simulator_new (beside (in_tmp (Some (list_byte_of_string first))) 100)
                            [x62] [] (list_byte_of_string "/t") [x69] 1%nat) in
  (forall first, up (in_tmp first) (list_byte_of_string "/t") [x69]
                   (list_byte_of_string "2321") (list_byte_of_string "2322") 2321 2322 3)
  /\ omap (fun sim => tpm_tcp (conn sim)) (start "4000"%string) = Ok 4000
  /\ start ""%string = Err InvalidData
  /\ omap (fun sim => tpm_tcp (conn sim)) (start "23"%string) = Ok 23.
Proof.
  cbn zeta. split; [|split; [vm_compute; reflexivity|split; vm_compute; reflexivity]].
  intros first t Ht. unfold in_tmp. cbn [content listening].
  change (length (list_byte_of_string "/t" ++ list_byte_of_string "/command.port") =? 15)%nat with true.
  change (length (list_byte_of_string "/t" ++ list_byte_of_string "/platform.port") =? 15)%nat with false.
  cbn iota. replace (t <? 3)%nat with false by (symmetry; apply Nat.ltb_ge; exact Ht). auto.
Qed.
(** The same simulator is found when its file appears whole. *)
Example c96_waits_case :
  appears_whole (in_tmp None) (list_byte_of_string "/t/command.port") (list_byte_of_string "2321")
  /\ appears_whole (in_tmp None) (list_byte_of_string "/t/platform.port") (list_byte_of_string "2322")
  /\ snd (simulator_new (beside (in_tmp None) 100) [x62] [] (list_byte_of_string "/t") [x69] 1%nat)
     = Ok {| child := tt; conn := {| tpm_tcp := 2321; plat_tcp := 2322; locality := 0 |} |}.
Proof.
  split; [|split; [|vm_compute; reflexivity]].
  - intros t. unfold in_tmp. cbn [content]. change (length (list_byte_of_string "/t/command.port") =? 15)%nat with true.
    cbn iota. destruct (t <? 3)%nat; auto.
  - intros t. right. reflexivity.
Qed.
Example c96_half_written_case :
  snd (read_port (beside (in_tmp (Some (list_byte_of_string "23"))) 1) (list_byte_of_string "/t/command.port") 1%nat) = Ok 23
  /\ decimal (list_byte_of_string "2321") / 10 ^ 2 = 23.
Proof. vm_compute. auto. Qed.
