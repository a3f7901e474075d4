(** Several users of all of a simulator (C102). *)
From Coq Require Import String ZArith NArith List Lia Bool.
From Coq Require Import Init.Byte.
From Verif Require Import Prelude Types Marshal WireSpec Catalogue Errors Tpm2b Client ClientSpec ClientProofs ClientFacts
  Tcp TcpSpec TcpProofs RemoteFacts Controls ControlsFacts Crowd CrowdProofs.
From Verif Require Clients ClientsFacts.
Import ListNotations.
Open Scope Z_scope.

(** ** C102 *)
(** The calls that can be stopped before each system call are those of the
    connection and of the client: run without a stop they give, in every
    world, what those give. *)
Theorem c102_program W H C (sys : world W H C) (c : tcp H) :
  (forall o w, let '(w', r) := run_talk sys c (operation_t (locality c) o) w in
     perform sys c o w = (match o with Locality l => set_locality c l | _ => c end, w', r))
  /\ (forall x cmd handles a w,
        run_talk sys c (command_t (locality c) x cmd handles a) w
        = run_command_with_handles FromTss (tcp_connection sys c) w x cmd handles a).
Proof.
  split.
  - intros o w.
    assert (U : forall m m', is sys c m m' ->
      (let '(w', r) := run_talk sys c (shown (fun _ : unit => Done) m) w in
       (c, fst (unit_answer (m' w)), snd (unit_answer (m' w))) = (c, w', r))).
    { intros m m' M. rewrite (run_shown sys c _ m m' M). reflexivity. }
    destruct o as [command response|data|v|z|g| | | |z|z|z|l'| |]; cbn [operation_t perform];
      [|refine (U _ (hcrtm_sequence sys c data) _)| |refine (U _ (set_alternative_result sys c z) _)
       |refine (U _ (platform_signal sys c g) _)|refine (U _ (reinit sys c) _)|refine (U _ (test_failure_mode sys c) _)
       | | |refine (U _ (set_firmware_hash sys c z) _)|refine (U _ (set_firmware_svn sys c z) _)|
       |refine (U _ (session_end sys c) _)|refine (U _ (stop_simulator sys c) _)];
      try solve [unfold hcrtm_sequence, set_alternative_result, platform_signal, reinit, test_failure_mode, set_firmware_hash,
        set_firmware_svn, session_end, stop_simulator, end_both, hcrtm_t, alternative_t, reinit_t, signal_t, failure_t, firmware_hash_t, firmware_svn_t, end_both_t; same_call].
    + rewrite run_next, run_transact. destruct (tcp_transact sys c w command response) as [[w' rsp'] r]. reflexivity.
    + rewrite (run_shown sys c _ (handshake_t v) (remote_handshake sys c v)); [|unfold handshake_t, remote_handshake; same_call].
      destruct (remote_handshake sys c v w). reflexivity.
    + rewrite (run_shown sys c _ sizes_t (get_command_response_sizes sys c)); [|unfold sizes_t, get_command_response_sizes; same_call].
      destruct (get_command_response_sizes sys c w). reflexivity.
    + rewrite (run_shown sys c _ (act_t z) (act_get_signaled sys c z)); [|unfold act_t, act_get_signaled; same_call].
      destruct (act_get_signaled sys c z w). reflexivity.
    + reflexivity.
  - intros x cmd handles a w. unfold command_t, run_command_with_handles.
    destruct (build_command x cmd handles a) as [bytes|e|]; try reflexivity.
    rewrite run_next, run_transact. cbn [transact tcp_connection].
    destruct (tcp_transact sys c w bytes (repeat x00 RESP_BUFFER_SIZE)) as [[w' rsp'] [n|e|]]; reflexivity.
Qed.

(** What a call asks of the machine, request by request, is what it means there
    (Controls.v): made without a break it has that effect and that result. *)
Theorem c102_plan S (f : S -> request -> S * list byte) l s :
  (forall o, run_plan f (operation_plan l o) s = at_hand (answering f) l o s)
  /\ (forall c cmd handles a,
        run_plan f (command_plan l c cmd handles a) s
        = run_command_with_handles FromTss (machine_connection (answering f) l) s c cmd handles a).
Proof.
  split.
  - intros o. destruct o; cbn [operation_plan at_hand told fold_right asking run_plan]; unfold done, io_bind, ask, tell, answering;
      repeat match goal with |- context [f ?s ?q] => destruct (f s q) as [? ?]; cbn [fst snd run_plan] end; try reflexivity.
    destruct (length response <? length l0)%nat; reflexivity.
  - intros c cmd handles a. unfold command_plan, run_command_with_handles.
    destruct (build_command c cmd handles a) as [bytes|e|]; try reflexivity.
    cbn [asking run_plan transact machine_connection at_hand]. unfold io_bind, ask, answering.
    destruct (f s (AskCommand l bytes)) as [s' r]. cbn [run_plan]. rewrite repeat_length.
    destruct (RESP_BUFFER_SIZE <? length r)%nat; reflexivity.
Qed.

(** ** Everybody *)
Definition start_ok (x : Z * list call) : Prop := 0 <= fst x < 256 /\ Forall (fun c => call_ok c /\ stays c) (snd x).
Definition arrived {S} (s : S) (starts : list (Z * list call)) : crowd S :=
  {| shared := s; users := map (fun x => newcomer (fst x) (snd x)) starts |}.
Definition seats (starts : list (Z * list call)) : list sitter := map (fun x => seated (fst x) (snd x)) starts.
Definition actor (m : act) : nat := match m with Acts i _ | Attends i _ => i end.
Definition any_sound (x : user) (z : sitter) : Prop := exists n, sound n x z.
Lemma arrived_sound {S} (s : S) starts : Forall start_ok starts -> Forall2 any_sound (users (arrived s starts)) (seats starts).
Proof.
  intros F. unfold arrived, seats. cbn [users]. induction F as [|[l cs] starts [Hl Hs] _ IH]; cbn [map]; constructor; [|exact IH].
  exists (whole_call * length cs)%nat. unfold sound, newcomer, seated. cbn [set_level calls have sits_at wants knows fst snd].
  split; [exact Hl|]. split; [exact Hs|]. split; [reflexivity|]. split; [reflexivity|]. split; [reflexivity|].
  apply F_rest; cbn [in_call plans out inc calls]; try reflexivity.
Qed.
Section Everybody.
Context {S : Type} (f : S -> request -> S * list byte) (Hf : polite f).
Lemma acts_sound y zs m : Forall2 any_sound (users y) zs ->
  exists more, (more = [] \/ more = [actor m]) /\ shared (acts (answering f) y m) = fst (turns f more (shared y, zs))
    /\ Forall2 any_sound (users (acts (answering f) y m)) (snd (turns f more (shared y, zs))).
Proof.
  intros F.
  destruct (nth_error (users y) (actor m)) as [x|] eqn:N.
  2:{ assert (E : acts (answering f) y m = y) by (destruct m; cbn [actor acts] in *; now rewrite N). rewrite E. exists []. auto 6. }
  destruct (ClientsFacts.Forall2_nth any_sound _ x _ _ F N) as (z & Nz & n & So).
  assert (Put : forall x' z', any_sound x' z' -> Forall2 any_sound (Clients.put (actor m) x' (users y)) (Clients.put (actor m) z' zs))
    by (intros; apply ClientsFacts.Forall2_put; assumption).
  destruct m as [i piece|i h]; cbn [actor acts] in *; rewrite N; cbn [shared users].
  - destruct (user_step f piece n x z So) as (n' & z' & T & So' & _). specialize (Put _ z' (ex_intro _ n' So')).
    destruct T as [->|T].
    + exists []. split; [auto|]. split; [reflexivity|]. cbn [turns fold_left snd]. now rewrite (ClientsFacts.put_same _ z zs Nz) in Put.
    + exists [i]. split; [auto|]. cbn [turns fold_left]. rewrite (T _ _ _ Nz). auto.
  - destruct (machine_step f Hf h (shared y) n x z So) as (n' & z' & T & So' & _). specialize (Put _ z' (ex_intro _ n' So')).
    destruct T as [[-> T]|T].
    + exists []. split; [auto|]. split; [exact T|]. cbn [turns fold_left snd]. now rewrite (ClientsFacts.put_same _ z zs Nz) in Put.
    + exists [i]. split; [auto|]. cbn [turns fold_left]. rewrite (T _ _ Nz). auto.
Qed.
Lemma acted_sound ms : forall y zs, Forall2 any_sound (users y) zs ->
  exists orders, Forall2 (fun m o => o = [] \/ o = [actor m]) ms orders /\
    forall k, shared (acted (answering f) (firstn k ms) y) = fst (turns f (concat (firstn k orders)) (shared y, zs))
      /\ Forall2 any_sound (users (acted (answering f) (firstn k ms) y)) (snd (turns f (concat (firstn k orders)) (shared y, zs))).
Proof.
  induction ms as [|m ms IH]; intros y zs F.
  - exists []. split; [constructor|]. intros k. rewrite !firstn_nil. auto.
  - destruct (acts_sound y zs m F) as (o1 & O1 & T1 & F1).
    destruct (IH _ _ F1) as (os & Os & Hk). exists (o1 :: os). split; [constructor; assumption|].
    intros [|k]; [auto|]. cbn [firstn concat acted fold_left]. destruct (Hk k) as [T2 F2].
    rewrite T1 in T2, F2. rewrite <- surjective_pairing in T2, F2. unfold turns. rewrite fold_left_app. split; assumption.
Qed.
(** One user among others. *)
Lemma act_cost y zs m i x z n : Forall2 any_sound (users y) zs -> nth_error (users y) i = Some x -> sound n x z ->
  exists n' x' z', nth_error (users (acts (answering f) y m)) i = Some x' /\ sound n' x' z'
    /\ ((n' < n)%nat
        \/ (n' = n /\ z' = z /\ x' = x /\ (forall h, m = Attends i h -> port h (out x) = [])
            /\ (forall p, m = Acts i p -> (in_call x = None /\ calls x = []) \/ out x <> ([], [])))).
Proof.
  intros F N So. destruct (Nat.eq_dec (actor m) i) as [<-|J].
  - destruct m as [i piece|i h]; cbn [actor acts] in *; rewrite N; cbn [users];
      rewrite (ClientsFacts.nth_put_cases i i _ x _ N), Nat.eqb_refl.
    + destruct (user_step f piece n x z So) as (n' & z' & _ & So' & C). exists n', (user_moves piece x), z'.
      split; [reflexivity|]. split; [exact So'|]. destruct C as [C|(-> & -> & E & C)]; [left; exact C|right].
      repeat (split; [reflexivity || assumption|]). split; [discriminate|]. intros p _. exact C.
    + destruct (machine_step f Hf h (shared y) n x z So) as (n' & z' & _ & So' & C). exists n', (snd (attended f h (shared y) x)), z'.
      split; [reflexivity|]. split; [exact So'|]. destruct C as [C|(-> & -> & E & C)]; [left; exact C|right].
      repeat (split; [reflexivity || assumption|]). split; [|discriminate]. intros h' X. now injection X as <-.
  - exists n, x, z. assert (E : nth_error (users (acts (answering f) y m)) i = Some x).
    { destruct m as [j piece|j h]; cbn [actor acts] in *; (destruct (nth_error (users y) j) as [xj|] eqn:Nj; cbn [users]; [|exact N]);
        rewrite (ClientsFacts.nth_put_cases j i _ xj _ Nj); (destruct (Nat.eqb_spec i j); [congruence|exact N]). }
    split; [exact E|]. split; [exact So|]. right. repeat (split; [reflexivity|]). split; [intros h ->|intros p ->]; cbn [actor] in J; congruence.
Qed.
Lemma round_cost i : forall ms y zs x z n, Forall2 any_sound (users y) zs ->
  nth_error (users y) i = Some x -> sound n x z ->
  exists n' x' z', nth_error (users (acted (answering f) ms y)) i = Some x' /\ sound n' x' z'
    /\ ((n' < n)%nat
        \/ (n' = n /\ z' = z /\ x' = x /\ (forall h, List.In (Attends i h) ms -> port h (out x) = [])
            /\ (forall p, List.In (Acts i p) ms -> (in_call x = None /\ calls x = []) \/ out x <> ([], [])))).
Proof.
  induction ms as [|m ms IH]; intros y zs x z n F N So.
  - exists n, x, z. split; [exact N|]. split; [exact So|]. right. repeat (split; [reflexivity|]). split; [intros h []|intros p []].
  - destruct (acts_sound y zs m F) as (o & _ & _ & F1).
    destruct (act_cost y zs m i x z n F N So) as (n1 & x1 & z1 & N1 & So1 & C1).
    destruct (IH _ _ x1 z1 n1 F1 N1 So1) as (n2 & x2 & z2 & N2 & So2 & C2).
    exists n2, x2, z2. split; [exact N2|]. split; [exact So2|].
    destruct C1 as [C1|(-> & -> & -> & S1 & M1)]; destruct C2 as [C2|(-> & -> & -> & S2 & M2)]; try (left; lia).
    right. repeat (split; [reflexivity|]). split.
    + intros h [->|I]; auto.
    + intros p [->|I]; eauto.
Qed.
Lemma rounds_cost i : forall rounds y zs x z n, Forall2 any_sound (users y) zs ->
  nth_error (users y) i = Some x -> sound n x z ->
  Forall (fun ms => List.In (Attends i true) ms /\ List.In (Attends i false) ms /\ exists p, List.In (Acts i p) ms) rounds ->
  (n < length rounds)%nat ->
  exists n' x' z', nth_error (users (acted (answering f) (concat rounds) y)) i = Some x' /\ sound n' x' z'
    /\ in_call x' = None /\ calls x' = [].
Proof.
  induction rounds as [|ms rounds IH]; intros y zs x z n F N So R L; [cbn in L; lia|].
  inversion R as [|? ? [Ht [Hp (p & Hm)]] R']; subst. cbn [concat acted]. unfold acted. rewrite fold_left_app.
  destruct (round_cost i ms y zs x z n F N So) as (n1 & x1 & z1 & N1 & So1 & C1).
  destruct (acted_sound ms y zs F) as (os & Os & Hk). destruct (Hk (length ms)) as [_ F1]. rewrite firstn_all in F1.
  cbn [length] in L. destruct C1 as [C1|(-> & -> & -> & S1 & M1)]; [apply (IH _ _ x1 z1 n1 F1 N1 So1 R'); lia|].
  assert (Idle : in_call x = None /\ calls x = []).
  { destruct (M1 p Hm) as [Z|Z]; [exact Z|]. exfalso. apply Z. destruct (out x) as [o1 o2].
    pose proof (S1 true Ht). pose proof (S1 false Hp). cbn [port fst snd] in *. congruence. }
  clear M1 S1 L IH Hk. revert N1 F1. generalize (snd (turns f (concat (firstn (length ms) os)) (shared y, zs))) as zs1.
  fold (acted (answering f) ms y). generalize (acted (answering f) ms y) as y1. clear - Hf So Idle.
  intros y1 zs1 N1 F1. fold (acted (answering f) (concat rounds) y1).
  assert (Stay : forall ms y zs, Forall2 any_sound (users y) zs -> nth_error (users y) i = Some x ->
            exists zs', Forall2 any_sound (users (acted (answering f) ms y)) zs' /\ nth_error (users (acted (answering f) ms y)) i = Some x).
  { clear - Hf So Idle. induction ms as [|m ms IH]; intros y zs F N; [eauto|]. cbn [acted fold_left].
    destruct (acts_sound y zs m F) as (o & _ & _ & F1). apply (IH _ _ F1).
    destruct So as (_ & _ & _ & _ & _ & Fo). destruct Idle as [D Cs].
    assert (O : out x = ([], [])) by (destruct Fo; congruence).
    destruct (Nat.eq_dec (actor m) i) as [<-|J].
    - destruct m as [j piece|j h]; cbn [actor acts] in *; rewrite N; cbn [users];
        rewrite (ClientsFacts.nth_put_cases j j _ x _ N), Nat.eqb_refl; f_equal.
      + unfold user_moves. now rewrite D, Cs.
      + pose proof (attended_nothing f h (shared y) x) as A. rewrite O, port_same in A. specialize (A eq_refl).
        apply (f_equal snd) in A. exact A.
    - destruct m as [j piece|j h]; cbn [actor acts] in *; (destruct (nth_error (users y) j) as [xj|] eqn:Nj; cbn [users]; [|exact N]);
        rewrite (ClientsFacts.nth_put_cases j i _ xj _ Nj); (destruct (Nat.eqb_spec i j); [congruence|exact N]). }
  destruct (Stay (concat rounds) y1 zs1 F1 N1) as (zs' & _ & N'). exists n, x, z. tauto.
Qed.
End Everybody.
Definition tally (x : user) : nat :=
  length (have x) + length (calls x) + match in_call x with None => 0 | Some _ => 1 end.
Lemma moved_tally piece x : tally (user_moves piece x) = tally x.
Proof.
  unfold tally, user_moves. destruct (in_call x) as [[r|h b k|h n k|h k]|] eqn:D.
  - cbn [have calls in_call]. rewrite app_length. cbn [length]. lia.
  - reflexivity.
  - destruct (port h (inc x)); [now rewrite D|reflexivity].
  - reflexivity.
  - destruct (calls x) as [|c rest] eqn:Cx; [now rewrite D, Cx|]. cbn [have calls in_call length]. lia.
Qed.
Lemma acted_tally {S} (f : machine S) i : forall ms y x, nth_error (users y) i = Some x ->
  exists x', nth_error (users (acted f ms y)) i = Some x' /\ tally x' = tally x.
Proof.
  induction ms as [|m ms IH]; intros y x N; [eauto|]. cbn [acted fold_left].
  assert (E : exists x', nth_error (users (acts f y m)) i = Some x' /\ tally x' = tally x).
  { destruct m as [j piece|j h]; cbn [acts]; (destruct (nth_error (users y) j) as [xj|] eqn:Nj; cbn [users]; [|eauto]);
      rewrite (ClientsFacts.nth_put_cases j i _ xj _ Nj); (destruct (Nat.eqb_spec i j) as [->|]; [|eauto]);
      rewrite N in Nj; injection Nj as <-; eexists; (split; [reflexivity|]); [apply moved_tally|reflexivity]. }
  destruct E as (x' & N' & T). destruct (IH _ _ N') as (x'' & N'' & T'). exists x''. split; [exact N''|congruence].
Qed.
Lemma sound_level x z : any_sound x z -> level_with x z.
Proof.
  intros (n & _ & _ & El & Ec & Eh & Fo). split; [exact El|]. split; [exact Ec|]. split; [exact Eh|].
  destruct Fo; split; congruence.
Qed.

(** Turns by request and turns by call. *)
Definition coarse (z1 z : sitter) : Prop :=
  Forall one_request (wants z1) /\
  match plans z1 with
  | None => sits_at z = sits_at z1 /\ wants z = wants z1 /\ knows z = knows z1 /\ plans z = None
  | Some (Return r) => sits_at z = sits_at z1 /\ wants z = wants z1 /\ knows z = knows z1 ++ [r] /\ plans z = None
  | Some (Request q k) =>
      exists c, wants z = c :: wants z1 /\ call_plan (sits_at z) c = Request q k /\ one_request c
        /\ level_after (sits_at z) c = sits_at z1 /\ knows z = knows z1 /\ plans z = None
  end.
Lemma asks_once c l q k : one_request c -> call_plan l c = Request q k -> forall r, exists a, k r = Return a.
Proof.
  intros O E r. destruct c as [o|c cmd handles a]; cbn [call_plan] in E.
  - destruct o; cbn [one_request] in O; try contradiction; cbn [operation_plan told fold_right asking after] in E; try discriminate;
      apply (f_equal (fun p => match p with Request _ k => k r | Return a => Return a end)) in E; cbn beta iota in E; rewrite <- E; eexists; reflexivity.
  - unfold command_plan in E. destruct (build_command c cmd handles a); cbn [asking after] in E; try discriminate.
    apply (f_equal (fun p => match p with Request _ k => k r | Return a => Return a end)) in E; cbn beta iota in E; rewrite <- E; eexists; reflexivity.
Qed.
Lemma whole_enough {S} (f : S -> request -> S * list byte) order : forall s zs1 zs, Forall2 coarse zs1 zs ->
  exists o' zs', whole_turns f o' (s, zs) = (fst (turns f order (s, zs1)), zs') /\ Forall2 coarse (snd (turns f order (s, zs1))) zs'.
Proof.
  induction order as [|i order IH]; intros s zs1 zs F; [exists [], zs; auto|].
  assert (One : exists o' zs', whole_turns f o' (s, zs) = (fst (turn f (s, zs1) i), zs') /\ Forall2 coarse (snd (turn f (s, zs1) i)) zs').
  { unfold turn. cbn [fst snd]. destruct (nth_error zs1 i) as [z1|] eqn:N1; [|exists [], zs; auto].
    destruct (ClientsFacts.Forall2_nth coarse _ z1 _ _ F N1) as (z & Nz & Ho & Co).
    assert (Stay : forall z1', coarse z1' z -> Forall2 coarse (Clients.put i z1' zs1) zs).
    { intros z1' H. rewrite <- (ClientsFacts.put_same _ z zs Nz). now apply ClientsFacts.Forall2_put. }
    assert (Whole : forall c rest s' r, plans z = None -> wants z = c :: rest -> run_plan f (call_plan (sits_at z) c) s = (s', r) ->
      whole_turns f [i] (s, zs) = (s', Clients.put i {| sits_at := level_after (sits_at z) c; wants := rest; plans := None; knows := knows z ++ [r] |} zs)).
    { intros c rest s' r P W Rn. cbn [whole_turns fold_left]. unfold whole_turn. cbn [fst snd]. now rewrite Nz, P, W, Rn. }
    destruct (plans z1) as [[r|q k]|] eqn:P1.
    - exists [], zs. split; [reflexivity|]. apply Stay. split; [exact Ho|]. cbn [plans sits_at wants knows]. exact Co.
    - destruct Co as (c & W & E & O & Lv & K & P). destruct (f s q) as [s' r] eqn:Ef.
      destruct (asks_once c _ q k O E r) as [a Ea]. exists [i]. eexists. split.
      + apply (Whole c (wants z1) s' a P W). rewrite E. cbn [run_plan]. rewrite Ef, Ea. reflexivity.
      + cbn [fst snd]. apply ClientsFacts.Forall2_put; [exact F|]. split; [exact Ho|]. cbn [plans sits_at wants knows]. rewrite Ea.
        split; [exact Lv|]. split; [reflexivity|]. split; [now rewrite K|reflexivity].
    - destruct Co as (Lv & W & K & P). destruct (wants z1) as [|c rest] eqn:W1; [exists [], zs; auto|].
      inversion Ho as [|? ? O Ho']; subst. destruct (call_plan (sits_at z1) c) as [a|q k] eqn:E.
      + exists [i]. eexists. split.
        * apply (Whole c rest s a P W). rewrite Lv, E. reflexivity.
        * cbn [fst snd]. apply ClientsFacts.Forall2_put; [exact F|]. split; [exact Ho'|]. cbn [plans sits_at wants knows].
          rewrite Lv, K. auto.
      + exists [], zs. split; [reflexivity|]. cbn [fst snd]. apply Stay. split; [exact Ho'|]. cbn [plans sits_at wants knows].
        exists c. rewrite Lv. auto 8. }
  destruct One as (o1 & zs' & E & F'). cbn [turns fold_left]. destruct (turn f (s, zs1) i) as [s1 zs1']. cbn [fst snd] in E, F'.
  destruct (IH s1 zs1' zs' F') as (o2 & zs'' & E2 & F2). exists (o1 ++ o2), zs''.
  unfold whole_turns in E, E2 |- *. rewrite fold_left_app, E. auto.
Qed.

(** Whatever users and machine do, in whatever order and pieces: every move
    either does nothing the others could tell, or is one turn at the machine of
    the user that moved or was attended to, in which it begins or ends a call or
    makes one request.  After each of the moves the machine is where it would
    be after these turns, and each user is at the same point of its session,
    with the same results. *)
Theorem c102_requests S (f : S -> request -> S * list byte) s starts ms :
  polite f -> Forall start_ok starts ->
  exists orders, Forall2 (fun m o => o = [] \/ o = [actor m]) ms orders /\
    forall k, let y := acted (answering f) (firstn k ms) (arrived s starts) in
      let z := turns f (concat (firstn k orders)) (s, seats starts) in
      shared y = fst z /\ Forall2 level_with (users y) (snd z).
Proof.
  intros Hf Hs. destruct (acted_sound f Hf ms (arrived s starts) (seats starts) (arrived_sound s starts Hs)) as (os & Os & Hk).
  exists os. split; [exact Os|]. intros k. destruct (Hk k) as [T F]. cbv zeta. split; [exact T|].
  cbn [arrived shared] in F. revert F. generalize (snd (turns f (concat (firstn k os)) (s, seats starts))).
  generalize (users (acted (answering f) (firstn k ms) (arrived s starts))). clear. intros xs zs F.
  induction F; constructor; [now apply sound_level|assumption].
Qed.
(** All get through: a user with [n] calls is through after [16426 n + 1] rounds
    at the latest, if it moves and each of its ports is attended to at least
    once in every round, at whatever moments, and whatever the others do. *)
Theorem c102_through S (f : S -> request -> S * list byte) s starts i l cs rounds :
  polite f -> Forall start_ok starts -> nth_error starts i = Some (l, cs) ->
  Forall (fun ms => List.In (Attends i true) ms /\ List.In (Attends i false) ms /\ exists p, List.In (Acts i p) ms) rounds ->
  16426 * Z.of_nat (length cs) < Z.of_nat (length rounds) ->
  exists x, nth_error (users (acted (answering f) (concat rounds) (arrived s starts))) i = Some x
    /\ calls x = [] /\ in_call x = None /\ length (have x) = length cs /\ out x = ([], []) /\ inc x = ([], []).
Proof.
  intros Hf Hs Ni R L. pose proof (arrived_sound s starts Hs) as F.
  assert (N : nth_error (users (arrived s starts)) i = Some (newcomer l cs)).
  { unfold arrived. cbn [users]. rewrite (map_nth_error _ i starts Ni). reflexivity. }
  assert (So : sound (whole_call * length cs) (newcomer l cs) (seated l cs)).
  { apply nth_error_In in Ni. rewrite Forall_forall in Hs. destruct (Hs _ Ni) as [Hl Hc]. cbn [fst snd] in Hl, Hc.
    unfold sound. cbn [newcomer seated set_level calls have sits_at wants knows]. repeat (split; [assumption || reflexivity|]).
    apply F_rest; reflexivity. }
  destruct (rounds_cost f Hf i rounds (arrived s starts) _ _ _ _ F N So R) as (n' & x & z & Nx & So' & D & Cx).
  { unfold whole_call, leg, RESP_BUFFER_SIZE. lia. }
  exists x. repeat (split; [assumption|]). split; [|destruct So' as (_ & _ & _ & _ & _ & Fo); destruct Fo; split; congruence].
  pose proof (acted_tally (answering f) i (concat rounds) (arrived s starts) _ N) as (x' & N' & T). rewrite Nx in N'. injection N' as <-.
  unfold tally in T. rewrite D, Cx in T. cbn [newcomer have calls in_call length] in T. lia.
Qed.

(** Calls that ask only once take effect as a whole, so if nobody makes others,
    users that are through got what they had got had they made their calls one
    by one, in one order for all. *)
Theorem c102_calls S (f : S -> request -> S * list byte) s starts ms :
  polite f -> Forall start_ok starts -> Forall (fun x => Forall one_request (snd x)) starts ->
  let y := acted (answering f) ms (arrived s starts) in
  Forall (fun x => calls x = [] /\ in_call x = None) (users y) ->
  exists order zs, whole_turns f order (s, seats starts) = (shared y, zs)
    /\ Forall (fun z => wants z = []) zs /\ map knows zs = map have (users y).
Proof.
  intros Hf Hs Ho. cbv zeta. intros D.
  destruct (c102_requests S f s starts ms Hf Hs) as (os & _ & Hk). specialize (Hk (length ms)). cbv zeta in Hk.
  rewrite firstn_all in Hk. destruct Hk as [T F]. set (order := concat (firstn (length ms) os)) in *.
  destruct (whole_enough f order s (seats starts) (seats starts)) as (o' & zs & E & G).
  { unfold seats. clear - Ho. induction Ho as [|[l cs] starts H _ IH]; cbn [map]; constructor; [|exact IH].
    split; [exact H|]. cbn [seated plans]. auto. }
  exists o', zs. rewrite <- T in E. split; [exact E|]. clear E T.
  revert D G. generalize (users (acted (answering f) ms (arrived s starts))) as xs, (snd (turns f order (s, seats starts))) as zs1, F.
  clear. intros xs zs1 F. revert zs. induction F as [|x z1 xs zs1 (E1 & E2 & E3 & E4) F IH]; intros zs D G; inversion G as [|? z ? zs' Gz G']; subst.
  - split; constructor.
  - inversion D as [|? ? [D1 D2] D']; subst. destruct (IH _ D' G') as [I1 I2]. destruct Gz as (_ & Gz). rewrite (proj1 E4 D2) in Gz.
    destruct Gz as (G1 & G2 & G3 & G4). split; [constructor; [congruence|exact I1]|]. cbn [map]. rewrite I2. f_equal. congruence.
Qed.
(** Others are not one step.  A machine that keeps a list of what it was asked;
    one user calls [reinit], another one sends a command: the command can come
    while the power is off, and then no order of whole calls gives that list. *)
Definition recorder (s : list request) (q : request) : list request * list byte :=
  (s ++ [q], match q with
             | AskCommand _ _ => [x80; x01; x00; x00; x00; x0a; x00; x00; x01; x01]
             | AskHandshake _ => repeat x00 8 | AskSizes => repeat x00 16 | AskAct _ => repeat x00 4 | _ => []
             end).
Theorem c102_torn :
  let starts := [(0, [Call Reinit]); (3, [Call (Transact [x80] (repeat x00 RESP_BUFFER_SIZE))])] in
  polite recorder /\ Forall start_ok starts /\
  exists ms, let y := acted (answering recorder) ms (arrived [] starts) in
    map have (users y) = [[Called (Ok Done)]; [Called (Ok (Payload [x80; x01; x00; x00; x00; x0a; x00; x00; x01; x01]))]]
    /\ shared y = [AskSignal NvOff; AskSignal PowerOff; AskCommand 3 [x80]; AskSignal PowerOn; AskSignal NvOn]
    /\ forall order, fst (whole_turns recorder order ([], seats starts)) <> shared y.
Proof.
  cbv zeta. split.
  { intros s q. destruct q; cbn; try reflexivity. lia. }
  split.
  { repeat constructor; cbn [fst snd]; try lia; try discriminate. }
  set (starts := [(0, [Call Reinit]); (3, [Call (Transact [x80] (repeat x00 RESP_BUFFER_SIZE))])]).
  exists (concat (repeat [Acts 0 9; Attends 0 false] 5) ++ concat (repeat [Acts 1 9; Attends 1 true] 8)
          ++ concat (repeat [Acts 0 9; Attends 0 false] 9))%nat.
  split; [vm_compute; reflexivity|]. split; [vm_compute; reflexivity|].
  intros order.
  assert (R : List.In (whole_turns recorder order ([], seats starts))
    (map (fun o => whole_turns recorder o ([], seats starts)) [[]; [0]; [1]; [0; 1]; [1; 0]]%nat)).
  { induction order as [|i order IH] using rev_ind; [left; reflexivity|].
    assert (E : whole_turns recorder (order ++ [i]) ([], seats starts)
      = whole_turn recorder (whole_turns recorder order ([], seats starts)) i) by (unfold whole_turns; now rewrite fold_left_app).
    rewrite E. clear E. revert IH. generalize (whole_turns recorder order ([], seats starts)) as z. intros z I.
    cbn [map List.In] in I. destruct i as [|[|i]].
    - destruct I as [<-|[<-|[<-|[<-|[<-|[]]]]]]; vm_compute; auto 8.
    - destruct I as [<-|[<-|[<-|[<-|[<-|[]]]]]]; vm_compute; auto 8.
    - destruct I as [<-|[<-|[<-|[<-|[<-|[]]]]]]; destruct i; vm_compute; auto 8. }
  intros E. cbn [map List.In] in R. destruct R as [R|[R|[R|[R|[R|[]]]]]]; rewrite <- R in E; vm_compute in E; discriminate E.
Qed.

(** *** The hypotheses can be met *)
(** Three users, all kinds of calls, everything overlapping, answers in pieces of
    different sizes. *)
Example c102_overlap :
  let random := RunCommand GetRandom (VStruct [VInt 2]) VUnit area0 in
  let starts := [(0, [Call Reinit; Call (Locality 4); random]); (0, [Call (Hcrtm [xaa; xbb]); Call ResponseSizes]);
                 (1, [Call (Handshake 7); Call (ActSignaled 9); Call (FirmwareSvn 5)])] in
  let round := [Acts 0 3; Acts 1 1; Attends 2 true; Acts 2 5; Attends 1 true; Attends 0 false; Attends 1 false; Attends 2 false; Attends 0 true] in
  let y := acted (answering recorder) (concat (repeat round 60)) (arrived [] starts) in
  polite recorder /\ Forall start_ok starts
  /\ Forall (fun x => calls x = [] /\ in_call x = None) (users y)
  /\ map have (users y) = [[Called (Ok Done); Called (Ok Done); Ran (Err (FromTss 0x101))];
                           [Called (Ok Done); Called (Ok (Sizes 0 0 0 0))];
                           [Called (Ok (Versions 0 0)); Called (Ok (Number 0)); Called (Ok Done)]]
  /\ length (shared y) = 12%nat.
Proof.
  cbv zeta. split; [exact (proj1 c102_torn)|]. split.
  { repeat constructor; cbn [fst snd]; try lia; try discriminate. }
  split; [vm_compute; repeat constructor|].
  split; [vm_compute; reflexivity|]. vm_compute. reflexivity.
Qed.
