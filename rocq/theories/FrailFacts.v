(** Calls over ports that break (C111). *)
From Coq Require Import String ZArith NArith List Lia Bool.
From Coq Require Import Init.Byte.
From Verif Require Import Prelude Types Marshal WireSpec Catalogue Errors Tpm2b Client ClientSpec ClientProofs ClientFacts
  Tcp TcpSpec TcpProofs RemoteFacts Controls ControlsFacts Crowd CrowdProofs CrowdFacts GoneSpec Frail FrailProofs.
From Verif Require Clients ClientsFacts GoneFacts CutFacts.
Import ListNotations.
Open Scope Z_scope.

Local Notation outs h x := (port h (out (person x))).
Local Notation incs h x := (port h (inc (person x))).
Definition doer (m : deed) : nat := match m with Goes i _ _ | Takes i _ | Tears i _ _ _ => i end.
Lemma of_user_app i a b : of_user i (a ++ b) = of_user i a ++ of_user i b.
Proof. unfold of_user. now rewrite filter_app, map_app. Qed.
Lemma taken_split {S} (f : S -> request -> S * list byte) : forall a b y,
  all_taken f (a ++ b) y = all_taken f a y ++ all_taken f b (done_deeds (answering f) a y).
Proof.
  induction a as [|m a IH]; intros b y; [reflexivity|]. cbn [app all_taken done_deeds fold_left]. rewrite IH. apply app_assoc.
Qed.

Section Moves.
Context {S : Type} (f : S -> request -> S * list byte) (Hf : polite f) (i : nat) (l : Z) (cs : list call).
Definition step_of (s : S) (m : deed) (x : guest) : guest :=
  match m with
  | Goes _ piece o => guest_moves piece o x
  | Takes _ h => snd (guest_attended (answering f) h s x)
  | Tears _ h a b => guest_torn h a b x
  end.
Definition log_of (s : S) (m : deed) (x : guest) : trace := match m with Takes _ h => took f h s x | _ => [] end.
Lemma step_guest y m x : nth_error (guests y) i = Some x ->
  if (doer m =? i)%nat
  then nth_error (guests (deeds (answering f) y m)) i = Some (step_of (host y) m x) /\ of_user i (takes_at f y m) = log_of (host y) m x
  else nth_error (guests (deeds (answering f) y m)) i = Some x /\ of_user i (takes_at f y m) = [].
Proof.
  intros N. destruct (Nat.eqb_spec (doer m) i) as [E|E].
  - destruct m as [j piece o|j h|j h a b]; cbn [doer] in E; subst j; cbn [deeds takes_at step_of log_of]; rewrite N; cbn [guests];
      rewrite (ClientsFacts.nth_put_cases i i _ x _ N), Nat.eqb_refl; (split; [reflexivity|]); try reflexivity.
    unfold took. destruct (front h (outs h x)) as [[q rest]|]; [|reflexivity].
    unfold of_user. cbn [filter fst]. rewrite Nat.eqb_refl. reflexivity.
  - split.
    + destruct m as [j piece o|j h|j h a b]; cbn [doer deeds] in *; (destruct (nth_error (guests y) j) as [xj|] eqn:Nj; cbn [guests]; [|exact N]);
        rewrite (ClientsFacts.nth_put_cases j i _ xj _ Nj); (destruct (Nat.eqb_spec i j); [congruence|exact N]).
    + destruct m as [j piece o|j h|j h a b]; cbn [doer takes_at] in *; try reflexivity.
      destruct (nth_error (guests y) j) as [xj|]; [|reflexivity]. destruct (front h (outs h xj)) as [[q rest]|]; [|reflexivity].
      unfold of_user. cbn [filter fst]. apply Nat.eqb_neq in E. rewrite E. reflexivity.
Qed.
Lemma fin_step s m x : fin x -> fin (step_of s m x).
Proof.
  intros [F1 F2]. destruct m as [j piece o|j h|j h a b]; cbn [step_of].
  - unfold guest_moves, user_moves. rewrite F2, F1. split; assumption.
  - unfold guest_attended. split; assumption.
  - split; assumption.
Qed.
Lemma step_inv s m n x log : inv n l cs x log ->
  exists n', (n' <= n)%nat /\ inv n' l cs (step_of s m x) (log ++ log_of s m x)
    /\ (n' = n -> (forall h, blocked h (step_of s m x) <-> blocked h x)
         /\ match m with Goes _ _ _ => fin x \/ exists h, blocked h x | Takes _ h => ~ blocked h x | Tears _ _ _ _ => True end).
Proof.
  intros I. destruct m as [j piece o|j h|j h a b]; cbn [step_of log_of]; rewrite ?app_nil_r.
  - destruct (goes_step piece o n l cs x log I) as (n' & L & I' & _ & G). exists n'. split; [exact L|]. split; [exact I'|].
    intros E. destruct (G E) as [-> G']. split; [intros h; reflexivity|exact G'].
  - destruct (takes_step f Hf h s n l cs x log I) as (n' & L & I' & G). exists n'. split; [exact L|]. split; [exact I'|].
    intros E. destruct (G E). auto.
  - destruct (tears_step h a b n l cs x log I) as (n' & L & I' & G). exists n'. split; [exact L|]. split; [exact I'|].
    intros E. auto.
Qed.
Lemma moves_inv : forall ms y n x log, nth_error (guests y) i = Some x -> inv n l cs x log ->
  exists x' n', nth_error (guests (done_deeds (answering f) ms y)) i = Some x' /\ (n' <= n)%nat
    /\ inv n' l cs x' (log ++ of_user i (all_taken f ms y)) /\ (fin x -> fin x')
    /\ (n' = n -> (forall h, blocked h x' <-> blocked h x) /\
          Forall (fun m => match m with
                           | Goes j _ _ => j = i -> fin x' \/ exists h, blocked h x
                           | Takes j h => j = i -> ~ blocked h x
                           | Tears _ _ _ _ => True
                           end) ms).
Proof.
  induction ms as [|m ms IH]; intros y n x log N I; cbn [done_deeds fold_left all_taken].
  - exists x, n. cbn [of_user filter map]. unfold of_user. cbn [filter map]. rewrite app_nil_r. repeat (split; [assumption || lia|]). split; [auto|].
    intros _. split; [intros; reflexivity|constructor].
  - rewrite of_user_app, app_assoc. pose proof (step_guest y m x N) as G. destruct (Nat.eqb_spec (doer m) i) as [E|E]; destruct G as [N1 L1].
    + destruct (step_inv (host y) m n x log I) as (n1 & Le1 & I1 & B1). rewrite <- L1 in I1.
      destruct (IH _ n1 _ _ N1 I1) as (x' & n' & N' & Le' & I' & F' & B'). exists x', n'. split; [exact N'|]. split; [lia|]. split; [exact I'|].
      split; [intros F; apply F', fin_step, F|]. intros En. assert (En1 : n1 = n) by lia. destruct (B1 En1) as [Bb Bm].
      destruct B' as [Bb' Bf]; [lia|]. split; [intros h; now rewrite Bb', Bb|]. constructor.
      * destruct m as [j piece o|j h|]; [| |exact Logic.I].
        -- intros _. destruct Bm as [F|B]; [left; apply F', fin_step, F|auto].
        -- intros _. exact Bm.
      * eapply Forall_impl; [|exact Bf]. intros [j piece o|j h|]; [| |auto].
        -- intros H J. destruct (H J) as [H1|(h & H1)]; [auto|]. right. exists h. now apply Bb.
        -- intros H J B. apply (H J). now apply Bb.
    + rewrite L1, app_nil_r. destruct (IH _ n x log N1 I) as (x' & n' & N' & Le' & I' & F' & B'). exists x', n'.
      split; [exact N'|]. split; [lia|]. split; [exact I'|]. split; [exact F'|]. intros En. destruct (B' En) as [Bb Bf].
      split; [exact Bb|]. constructor; [|exact Bf]. destruct m as [j piece o|j h|]; cbn [doer] in E; [| |exact Logic.I]; intros J; contradiction.
Qed.
Lemma rounds_inv : forall rounds y n x log, nth_error (guests y) i = Some x -> inv n l cs x log ->
  Forall (fun ms => List.In (Takes i true) ms /\ List.In (Takes i false) ms /\ exists p o, List.In (Goes i p o) ms) rounds ->
  (n < length rounds)%nat ->
  exists x' n', nth_error (guests (done_deeds (answering f) (concat rounds) y)) i = Some x'
    /\ inv n' l cs x' (log ++ of_user i (all_taken f (concat rounds) y)) /\ fin x'.
Proof.
  induction rounds as [|ms rounds IH]; intros y n x log N I R L; [cbn in L; lia|].
  inversion R as [|? ? (A1 & A2 & p & o & A3) R']; subst. cbn [concat length] in *.
  destruct (moves_inv ms y n x log N I) as (x1 & n1 & N1 & Le1 & I1 & _ & B1).
  rewrite taken_split, of_user_app, app_assoc. unfold done_deeds. rewrite fold_left_app.
  destruct (Nat.eq_dec n1 n) as [E|E].
  - destruct (B1 E) as [_ Fo]. rewrite Forall_forall in Fo.
    assert (F : fin x1).
    { destruct (Fo _ A3 eq_refl) as [F|([] & B)]; [exact F| |]; exfalso; [apply (Fo _ A1 eq_refl B)|apply (Fo _ A2 eq_refl B)]. }
    destruct (moves_inv (concat rounds) _ n1 x1 _ N1 I1) as (x2 & n2 & N2 & _ & I2 & F2 & _).
    exists x2, n2. auto.
  - apply (IH _ n1 x1 _ N1 I1 R'). lia.
Qed.

(** After the port broke. *)
Section Late.
Context (h : bool) (k : nat).
Definition asks (c : call) (j : nat) : Prop := exists q kk, call_plan (level_of l (firstn j cs)) c = Request q kk.
Definition refused (x : guest) : Prop :=
  is_torn h x = true
  /\ (forall j c r, (k <= j)%nat -> nth_error cs j = Some c -> nth_error (have (person x)) j = Some r -> call_port c = h -> asks c j -> failed r)
  /\ ((k <= length (have (person x)))%nat -> incs h x = [] /\
      forall p c, in_call (person x) = Some p -> nth_error cs (length (have (person x))) = Some c -> call_port c = h ->
        asks c (length (have (person x))) -> exists d, doomed err_result h d p).
Lemma inc_goes piece o x : incs h x = [] -> is_torn h x = true -> incs h (guest_moves piece o x) = [].
Proof.
  intros I T. destruct x as [u t]. cbn [person] in I. unfold guest_moves. cbn [person torn].
  assert (U : port h (inc (user_moves piece u)) = []).
  { unfold user_moves. destruct (in_call u) as [[a|h' bytes kk|h' n kk|h' kk]|]; try exact I.
    - destruct (port h' (inc u)) eqn:E; [exact I|]. cbv zeta. unfold proceeds. cbn [inc].
      either_port h' h; [congruence|]. rewrite (port_set_other h'). exact I.
    - destruct (calls u); exact I. }
  destruct (in_call u) as [[a|h' bytes kk|h' n kk|h' kk]|]; try exact U.
  - destruct (is_torn h' _); [exact I|exact U].
  - destruct (port h' (inc u)); [destruct (is_torn h' _)|]; try exact I; exact U.
Qed.
Lemma pass_out piece o x : is_torn h x = true -> outs h (guest_moves piece o x) = outs h x.
Proof.
  intros T. destruct x as [u t]. unfold guest_moves. cbn [person torn].
  assert (U : (forall b kk, in_call u <> Some (Writes h b kk)) -> port h (out (user_moves piece u)) = port h (out u)).
  { intros NW. unfold user_moves. destruct (in_call u) as [[a|h' bytes kk|h' n kk|h' kk]|]; try reflexivity.
    - unfold proceeds. cbn [out]. either_port h' h; [now elim (NW bytes kk)|]. apply port_set_other.
    - destruct (port h' (inc u)); reflexivity.
    - destruct (calls u); reflexivity. }
  destruct (in_call u) as [[a|h' bytes kk|h' n kk|h' kk]|]; try (apply U; congruence).
  - destruct (is_torn h' _) eqn:T'; [reflexivity|]. apply U. congruence.
  - destruct (port h' (inc u)); [destruct (is_torn h' _)|]; try reflexivity; apply U; congruence.
Qed.
Lemma told_have n x log : inv n l cs x log -> in_call (person x) = None -> incs h x = [].
Proof. intros (cs1 & es & _ & _ & _ & _ & M) D. rewrite D in M. destruct M as (_ & _ & Id & _). apply Id. Qed.
Lemma refused_goes piece o n x log : inv n l cs x log -> refused x -> refused (guest_moves piece o x).
Proof.
  intros Inv (T & R1 & R2).
  destruct (goes_step piece o n l cs x log Inv) as (n' & _ & Inv' & Et & _).
  assert (T' : is_torn h (guest_moves piece o x) = true) by (unfold is_torn; rewrite Et; exact T).
  destruct (in_call (person x)) as [p|] eqn:D.
  - destruct p as [a|h' bytes kk|h' m kk|h' kk].
    + assert (E : guest_moves piece o x = {| person := {| set_level := set_level (person x); calls := calls (person x); in_call := None;
          have := have (person x) ++ [a]; out := out (person x); inc := inc (person x) |}; torn := torn x |})
        by (unfold guest_moves, user_moves; rewrite D; reflexivity).
      assert (I0 : incs h (guest_moves piece o x) = []) by (eapply told_have; [exact Inv'|rewrite E; reflexivity]).
      split; [exact T'|]. rewrite E in *. cbn [person have in_call] in *. split.
      * intros j c r Kj Nc Nr Pc As. destruct (Nat.lt_ge_cases j (length (have (person x)))) as [Lj|Lj].
        -- rewrite nth_error_app1 in Nr by exact Lj. eauto.
        -- rewrite nth_error_app2 in Nr by exact Lj. destruct (j - length (have (person x)))%nat as [|d] eqn:Ed; [|destruct d; discriminate Nr].
           injection Nr as <-. assert (Ej : j = length (have (person x))) by lia. subst j.
           destruct (R2 Kj) as [_ R3]. destruct (R3 _ c eq_refl Nc Pc As) as [d Dd]. inversion Dd; subst. now apply err_failed.
      * intros _. split; [exact I0|]. discriminate.
    + assert (E : exists o', guest_moves piece o x = {| person := proceeds (person x) (kk o') (out (person (guest_moves piece o x))) (inc (person x)); torn := torn x |}
         /\ (h' = h -> (exists e, o' = Err e) \/ exists m, (m <= length bytes)%nat /\ o' = Ok m)).
      { unfold guest_moves. rewrite D. destruct (is_torn h' x) eqn:T2.
        - eexists. split; [reflexivity|]. intros _. destruct o as [m|e]; [right; eexists; split; [|reflexivity]; lia|left; eauto].
        - unfold user_moves. rewrite D. eexists. split; [reflexivity|]. congruence. }
      destruct E as (o' & E & Ho). split; [exact T'|]. rewrite E. unfold proceeds. cbn [person have in_call inc]. split; [exact R1|].
      intros Kl. destruct (R2 Kl) as [I0 R3]. split; [exact I0|]. intros p c Ep Nc Pc As. injection Ep as <-.
      destruct (R3 _ c eq_refl Nc Pc As) as [d Dd]. inversion Dd as [|d' bytes' k' D1 D2 E1 E2|]; subst. exists d'.
      destruct (Ho eq_refl) as [(e & ->)|(m & Lm & ->)]; auto.
    + destruct (list_eq_dec Byte.byte_eq_dec (port h' (inc (person x))) []) as [Ei|Ei].
      * destruct (is_torn h' x) eqn:T2.
        -- assert (E : exists o', guest_moves piece o x = {| person := proceeds (person x) (kk o') (out (person x)) (inc (person x)); torn := torn x |}
             /\ ((exists e, o' = Err e) \/ o' = Ok [])).
           { unfold guest_moves. rewrite D, Ei, T2. eexists. split; [reflexivity|]. destruct o; eauto. }
           destruct E as (o' & E & Ho). split; [exact T'|]. rewrite E. unfold proceeds. cbn [person have in_call inc]. split; [exact R1|].
           intros Kl. destruct (R2 Kl) as [I0 R3]. split; [exact I0|]. intros p c Ep Nc Pc As. injection Ep as <-.
           destruct (R3 _ c eq_refl Nc Pc As) as [d Dd]. inversion Dd as [| |d' n2 k' D1 D2 E1 E2]; subst. exists d'.
           destruct Ho as [(e & ->)| ->]; auto.
        -- assert (E : guest_moves piece o x = x).
           { unfold guest_moves. rewrite D, Ei, T2. unfold user_moves. rewrite D, Ei. destruct x; reflexivity. }
           rewrite E. split; [exact T|]. split; [exact R1|]. rewrite D. exact R2.
      * assert (E : exists o' i', guest_moves piece o x = {| person := proceeds (person x) (kk o') (out (person x)) i'; torn := torn x |}).
        { unfold guest_moves. rewrite D. unfold user_moves. rewrite D. destruct (port h' (inc (person x))) as [|b0 s0]; [congruence|].
          do 2 eexists. reflexivity. }
        destruct E as (o' & i' & E). split; [exact T'|]. split; [rewrite E; exact R1|]. intros Kl.
        assert (Kl' : (k <= length (have (person x)))%nat) by (rewrite E in Kl; exact Kl). destruct (R2 Kl') as [I0 R3].
        split; [apply inc_goes; assumption|]. rewrite E. unfold proceeds. cbn [person have in_call].
        intros p c Ep Nc Pc As. destruct (R3 _ c eq_refl Nc Pc As) as [d Dd]. inversion Dd; subst. congruence.
    + assert (E : guest_moves piece o x = {| person := proceeds (person x) (kk (Ok tt)) (out (person x)) (inc (person x)); torn := torn x |})
        by (unfold guest_moves, user_moves; rewrite D; reflexivity).
      split; [exact T'|]. rewrite E. unfold proceeds. cbn [person have in_call inc]. split; [exact R1|].
      intros Kl. destruct (R2 Kl) as [I0 R3]. split; [exact I0|]. intros p c Ep Nc Pc As.
      destruct (R3 _ c eq_refl Nc Pc As) as [d Dd]. inversion Dd.
  - pose proof (told_have _ _ _ Inv D) as I0.
    destruct Inv as (cs1 & es & Tl & Ti & Hl & Hc & M). rewrite D in M. destruct M as (Ecs & El & Id & Ba & N).
    pose proof (told_length _ _ _ _ _ Tl) as Ll.
    destruct (calls (person x)) as [|c0 rest] eqn:Cu.
    + assert (E : guest_moves piece o x = x).
      { unfold guest_moves, user_moves. rewrite D, Cu. destruct x; reflexivity. }
      rewrite E. split; [exact T|]. split; [exact R1|]. rewrite D. exact R2.
    + assert (E : guest_moves piece o x = {| person := {| set_level := level_after (set_level (person x)) c0; calls := rest;
          in_call := Some (call_t (set_level (person x)) c0); have := have (person x); out := out (person x); inc := inc (person x) |}; torn := torn x |})
        by (unfold guest_moves, user_moves; rewrite D, Cu; reflexivity).
      split; [exact T'|]. rewrite E. cbn [person have in_call inc]. split; [exact R1|]. intros Kl. split; [exact I0|].
      intros p c Ep Nc Pc (q & kk & As). injection Ep as <-. rewrite <- Ll in Nc, As.
      rewrite Ecs, nth_error_app2, Nat.sub_diag in Nc by lia. injection Nc as <-.
      rewrite Ecs, firstn_app_exact' in As by reflexivity.
      inversion Hc as [|? ? [Hok Hst] _]; subst.
      assert (Im : implements (call_plan (level_of l cs1) c0) (call_t (level_of l cs1) c0)) by (apply call_implemented; [rewrite <- El; exact Hl|exact Hok|exact Hst]).
      rewrite As in Im. destruct Im as (Sp & Ne & kp & Ep & _).
      pose proof (brittle_call (level_of l cs1) c0 Hst) as Br. rewrite Ep in Br. rewrite El, Ep.
      inversion Br as [| |bytes' k' Bk D1 D2 E1]. exists (Datatypes.S soon). apply D_writes; assumption.
Qed.
Lemma refused_step s m n x log : inv n l cs x log -> refused x -> refused (step_of s m x).
Proof.
  intros Inv R. destruct m as [j piece o|j h'|j h' a b]; cbn [step_of].
  - eapply refused_goes; eassumption.
  - destruct (front h' (outs h' x)) as [[q rest]|] eqn:F; [|rewrite (attended_none f h' s x F); exact R].
    rewrite (attended_some f h' s x q rest F). cbn [snd]. destruct R as (T & R1 & R2). split; [exact T|]. split; [exact R1|].
    intros Kl. destruct (R2 Kl) as [I0 R3]. split; [|exact R3]. cbn [person inc].
    destruct (is_torn h' x) eqn:T'; [exact I0|]. either_port h' h; [congruence|]. now rewrite (port_set_other h').
  - rewrite guest_torn_out. destruct R as (T & R1 & R2). split; [exact (torn_stays h' b x h T)|]. split; [exact R1|].
    intros Kl. destruct (R2 Kl) as [I0 R3]. split; [|exact R3]. unfold with_out, with_torn. cbn [person inc].
    either_port h' h; [rewrite port_set, I0; apply firstn_nil|now rewrite (port_set_other h')].
Qed.
Lemma pend_step s m x : is_torn h x = true -> tidy x ->
  is_torn h (step_of s m x) = true /\ (length (at_port h (log_of s m x)) + length (pend h (step_of s m x)) <= length (pend h x))%nat.
Proof.
  intros T Ti. destruct m as [j piece o|j h'|j h' a b]; cbn [step_of log_of].
  - split.
    + assert (E : torn (guest_moves piece o x) = torn x).
      { unfold guest_moves. destruct (in_call (person x)) as [[?|h1 ? ?|h1 ? ?|? ?]|]; try reflexivity.
        - destruct (is_torn h1 x); reflexivity.
        - destruct (port h1 (inc (person x))); [destruct (is_torn h1 x)|]; reflexivity. }
      unfold is_torn in *. now rewrite E.
    + cbn [at_port filter length]. unfold pend. rewrite pass_out by exact T. cbn. lia.
  - unfold took. destruct (front h' (outs h' x)) as [[q rest]|] eqn:F.
    2:{ rewrite (attended_none f h' s x F). split; [exact T|]. cbn. lia. }
    rewrite (attended_some f h' s x q rest F). cbn [snd]. split; [exact T|]. pose proof (Ti _ _ _ F) as ->.
    assert (Pq : port_of q = h') by (apply speak_port; now apply c81_understood in F).
    unfold at_port. cbn [filter fst]. rewrite to_port_of, Pq. unfold pend. cbn [person out]. either_port h' h.
    + rewrite port_set, F, Bool.eqb_reflx. destruct h'; cbn; lia.
    + rewrite (port_set_other h'), eqb_other. cbn [length]. lia.
  - rewrite guest_torn_out. split; [exact (torn_stays h' b x h T)|]. cbn [at_port filter length].
    unfold pend, with_out, with_torn. cbn [person out]. cbn [at_port filter length].
    change (length (at_port h [])) with 0%nat. cbn [plus]. either_port h' h.
    + rewrite port_set. destruct (front h' (firstn a (outs h' x))) as [[q rest]|] eqn:F; [|cbn; lia].
      destruct (front_less h' a (outs h' x)) as (q' & rest' & F1 & F2); [congruence|]. rewrite F1. cbn. lia.
    + rewrite (port_set_other h'). lia.
Qed.
Lemma moves_late : forall ms y n x log, nth_error (guests y) i = Some x -> inv n l cs x log -> refused x ->
  exists x' n', nth_error (guests (done_deeds (answering f) ms y)) i = Some x' /\ inv n' l cs x' (log ++ of_user i (all_taken f ms y)) /\ refused x'
    /\ (length (at_port h (of_user i (all_taken f ms y))) + length (pend h x') <= length (pend h x))%nat.
Proof.
  induction ms as [|m ms IH]; intros y n x log N I R; cbn [done_deeds fold_left all_taken].
  - exists x, n. unfold of_user. cbn [filter map at_port length]. rewrite app_nil_r. repeat (split; [assumption|]). cbn. lia.
  - rewrite of_user_app, app_assoc. pose proof (step_guest y m x N) as G. destruct (Nat.eqb_spec (doer m) i) as [E|E]; destruct G as [N1 L1].
    + destruct (step_inv (host y) m n x log I) as (n1 & Le1 & I1 & B1). rewrite <- L1 in I1.
      pose proof (refused_step (host y) m n x log I R) as R'.
      destruct (pend_step (host y) m x (proj1 R)) as [_ P]; [destruct I as (? & ? & _ & Ti & _); exact Ti|].
      destruct (IH _ n1 _ _ N1 I1 R') as (x' & n' & N' & I' & R2 & P2). exists x', n'. repeat (split; [assumption|]).
      rewrite at_port_app, app_length, L1. lia.
    + rewrite L1, app_nil_r. destruct (IH _ n x log N1 I R) as (x' & n' & N' & I' & R2 & P2). exists x', n'. auto.
Qed.
End Late.
End Moves.
Lemma guest_start {S} (s : S) starts i l cs : Forall start_ok starts -> nth_error starts i = Some (l, cs) ->
  nth_error (guests (opened s starts)) i = Some (guest_new (l, cs)) /\ inv (whole_call * length cs) l cs (guest_new (l, cs)) [].
Proof.
  intros Hs Ni. split.
  { unfold opened. cbn [guests]. rewrite (map_nth_error _ i starts Ni). reflexivity. }
  apply nth_error_In in Ni. rewrite Forall_forall in Hs. destruct (Hs _ Ni) as [Hl Hc]. cbn [fst snd] in Hl, Hc.
  exists [], []. unfold guest_new, newcomer. cbn [person have set_level calls in_call fst snd].
  split; [constructor|]. split; [intros h q rest; cbn [person out]; destruct h; discriminate|]. split; [exact Hl|]. split; [exact Hc|].
  split; [reflexivity|]. split; [reflexivity|]. split; [intros []; split; reflexivity|]. split; [|lia].
  intros []; reflexivity.
Qed.
(** What was taken, among all that was asked. *)
Definition only_taken (l : list item) : trace := flat_map (fun e => match snd e with Some r => [(fst e, r)] | None => [] end) l.
Lemma only_taken_app a b : only_taken (a ++ b) = only_taken a ++ only_taken b.
Proof. apply flat_map_app. Qed.
Lemma only_taken_answered tr : only_taken (answered tr) = tr.
Proof. induction tr as [|[q r] tr IH]; [reflexivity|]. cbn. now rewrite <- IH at 2. Qed.
Lemma only_taken_owing qs : only_taken (owing qs) = [].
Proof. induction qs; [reflexivity|exact IHqs]. Qed.
Lemma only_taken_ledger h es : only_taken (filt h (ledger es)) = at_port h (concat (map fst es)).
Proof.
  induction es as [|[part owed] es IH]; [reflexivity|]. change (ledger ((part, owed) :: es)) with (items (part, owed) ++ ledger es).
  rewrite filt_app, only_taken_app, IH. cbn [map fst concat]. rewrite at_port_app. f_equal.
  unfold items. cbn [fst snd]. fold (answered part). rewrite filt_app, only_taken_app, filt_answered, only_taken_answered.
  destruct owed as [q|]; [|apply app_nil_r]. cbn [filt filter fst]. destruct (to_port h q); apply app_nil_r.
Qed.
Lemma balanced_taken x es log h : balanced x es log -> at_port h log = at_port h (concat (map fst es)).
Proof.
  intros B. rewrite <- only_taken_ledger, (B h), only_taken_app, only_taken_answered, only_taken_owing. now rewrite app_nil_r.
Qed.
Lemma told_made br l cs es rs : told_of br l cs es rs -> made br l cs (map fst es) rs.
Proof. induction 1; cbn [map fst]; [constructor|eapply made_whole; eauto|eapply made_failed; eauto]. Qed.

Lemma torn_start S (f : S -> request -> S * list byte) s starts i l cs ms h a b x :
  polite f -> Forall start_ok starts -> nth_error starts i = Some (l, cs) ->
  nth_error (guests (done_deeds (answering f) ms (opened s starts))) i = Some x ->
  exists n, inv n l cs (guest_torn h a b x) (of_user i (all_taken f ms (opened s starts)))
    /\ refused l cs h (length (have (person x)) + match in_call (person x) with Some _ => 1 | None => 0 end) (guest_torn h a b x).
Proof.
  intros Hf Hs Ni Nx. destruct (guest_start s starts i l cs Hs Ni) as [N I].
  destruct (moves_inv f Hf i l cs ms _ _ _ _ N I) as (x0 & n & Nx0 & _ & I0 & _). rewrite Nx in Nx0. injection Nx0 as <-. cbn [app] in I0.
  destruct (tears_step h a b n l cs x _ I0) as (n' & _ & I1 & _). exists n'. split; [exact I1|].
  destruct I0 as (cs1 & es & T & _ & _ & _ & M). pose proof (told_length _ _ _ _ _ T) as Ll.
  split; [destruct h; reflexivity|]. unfold guest_torn. cbn [person have in_call inc]. split.
  - intros j c r Kj _ Nr. assert (nth_error (have (person x)) j <> None) as L by congruence. apply nth_error_Some in L. lia.
  - intros Kl. destruct (in_call (person x)); [lia|]. destruct M as (_ & _ & Id & _). split; [|discriminate].
    rewrite port_set. rewrite (proj1 (Id h)). apply firstn_nil.
Qed.

(** ** C111 *)
(** The machine has done what it took, and nothing else: it is where these
    requests alone, in this order, leave it, and gave their answers. *)
Theorem c111_machine S (f : S -> request -> S * list byte) s starts ms :
  let es := all_taken f ms (opened s starts) in
  served f s (map (fun e => fst (snd e)) es) = (host (done_deeds (answering f) ms (opened s starts)), map snd es).
Proof.
  cbv zeta. change s with (host (opened s starts)) at 1. generalize (opened s starts) as y. clear.
  induction ms as [|m ms IH]; intros y; [reflexivity|]. cbn [all_taken done_deeds fold_left]. specialize (IH (deeds (answering f) y m)).
  destruct m as [i p o|i h|i h a b]; cbn [takes_at app map served] in *.
  - assert (E : host (deeds (answering f) y (Goes i p o)) = host y) by (cbn [deeds]; destruct (nth_error (guests y) i); reflexivity).
    rewrite E in IH. exact IH.
  - cbn [deeds] in *. destruct (nth_error (guests y) i) as [x|]; [|exact IH].
    destruct (front h (outs h x)) as [[q rest]|] eqn:F.
    + rewrite (attended_some f h (host y) x q rest F) in *. cbn [fst snd app map served host] in *. destruct (f (host y) q) as [s' r].
      cbn [fst snd] in *. rewrite IH. reflexivity.
    + rewrite (attended_none f h (host y) x F) in *. cbn [fst snd app map served host] in *. exact IH.
  - assert (E : host (deeds (answering f) y (Tears i h a b)) = host y) by (cbn [deeds]; destruct (nth_error (guests y) i); reflexivity).
    rewrite E in IH. exact IH.
Qed.
(** At every moment, whatever breaks and whatever the others do: a user's calls
    that are over were, one after the other and each at its locality, asked in
    full, with their result, or - only if the call's port is broken - up to
    some request, with an error; and of the call that the user is in the
    beginning was asked.  On each port the machine took just these requests,
    each once and in this order. *)
Theorem c111_sessions S (f : S -> request -> S * list byte) s starts i l cs ms :
  polite f -> Forall start_ok starts -> nth_error starts i = Some (l, cs) ->
  exists x parts part, nth_error (guests (done_deeds (answering f) ms (opened s starts))) i = Some x
    /\ made (fun h => is_torn h x) l (firstn (length (have (person x))) cs) parts (have (person x))
    /\ match in_call (person x) with
       | None => part = []
       | Some _ => exists c rest, nth_error cs (length (have (person x))) = Some c
           /\ walked (call_plan (level_of l (firstn (length (have (person x))) cs)) c) part rest
       end
    /\ forall h, at_port h (of_user i (all_taken f ms (opened s starts))) = at_port h (concat parts ++ part).
Proof.
  intros Hf Hs Ni. destruct (guest_start s starts i l cs Hs Ni) as [N I].
  destruct (moves_inv f Hf i l cs ms _ _ _ _ N I) as (x & n & Nx & _ & (cs1 & es & T & _ & _ & _ & M) & _). cbn [app] in M.
  pose proof (told_length _ _ _ _ _ T) as Ll.
  destruct (in_call (person x)) as [p|] eqn:D.
  - destruct M as (c & pl & part & owed & b & -> & _ & W & _ & _ & _ & _ & Ba & _).
    exists x, (map fst es), part. split; [exact Nx|]. rewrite D, <- Ll, firstn_app_exact' by reflexivity.
    split; [apply told_made; exact T|]. split.
    + exists c, pl. split; [rewrite nth_error_app2, Nat.sub_diag by lia; reflexivity|exact W].
    + intros h. rewrite (balanced_taken _ _ _ h Ba), map_app, concat_app. cbn. now rewrite app_nil_r.
  - destruct M as (-> & _ & _ & Ba & _). exists x, (map fst es), []. split; [exact Nx|]. rewrite D, <- Ll, firstn_app_exact' by reflexivity.
    split; [apply told_made; exact T|]. split; [reflexivity|]. intros h. rewrite app_nil_r. exact (balanced_taken _ _ _ h Ba).
Qed.
(** After a port of a user broke, whatever happens, at most one more request of
    this user is taken there. *)
Theorem c111_late S (f : S -> request -> S * list byte) s starts i l cs ms h a b late :
  polite f -> Forall start_ok starts -> nth_error starts i = Some (l, cs) ->
  exists last, at_port h (of_user i (all_taken f (ms ++ Tears i h a b :: late) (opened s starts)))
      = at_port h (of_user i (all_taken f ms (opened s starts))) ++ last
    /\ (length last <= 1)%nat.
Proof.
  intros Hf Hs Ni. destruct (guest_start s starts i l cs Hs Ni) as [N I].
  destruct (moves_inv f Hf i l cs ms _ _ _ _ N I) as (x & n & Nx & _ & _ & _).
  destruct (torn_start S f s starts i l cs ms h a b x Hf Hs Ni Nx) as (n' & I' & R').
  set (y := done_deeds (answering f) ms (opened s starts)) in *.
  rewrite taken_split, of_user_app, at_port_app. fold y. cbn [all_taken takes_at app]. eexists. split; [reflexivity|].
  pose proof (step_guest f i y (Tears i h a b) x Nx) as G. cbn [doer] in G. rewrite Nat.eqb_refl in G. destruct G as [N1 _].
  cbn [step_of] in N1.
  destruct (moves_late f Hf i l cs h _ late _ _ _ _ N1 I' R') as (x2 & n2 & _ & _ & _ & P).
  assert (P1 : (length (pend h (guest_torn h a b x)) <= 1)%nat) by (unfold pend; destruct (front _ _) as [[? ?]|]; cbn; lia).
  lia.
Qed.
(** Every call that the user begins on that port afterwards and that asks
    anything ends with an error. *)
Theorem c111_refused S (f : S -> request -> S * list byte) s starts i l cs ms h a b late x x' j c r :
  polite f -> Forall start_ok starts -> nth_error starts i = Some (l, cs) ->
  nth_error (guests (done_deeds (answering f) ms (opened s starts))) i = Some x ->
  nth_error (guests (done_deeds (answering f) (ms ++ Tears i h a b :: late) (opened s starts))) i = Some x' ->
  (length (have (person x)) + match in_call (person x) with Some _ => 1 | None => 0 end <= j)%nat ->
  nth_error cs j = Some c -> nth_error (have (person x')) j = Some r ->
  call_port c = h -> (exists q k, call_plan (level_of l (firstn j cs)) c = Request q k) ->
  failed r.
Proof.
  intros Hf Hs Ni Nx Nx' Lj Nc Nr Pc As.
  destruct (torn_start S f s starts i l cs ms h a b x Hf Hs Ni Nx) as (n' & I' & R').
  set (y := done_deeds (answering f) ms (opened s starts)) in *.
  pose proof (step_guest f i y (Tears i h a b) x Nx) as G. cbn [doer] in G. rewrite Nat.eqb_refl in G. destruct G as [N1 _].
  cbn [step_of] in N1.
  destruct (moves_late f Hf i l cs h _ late _ _ _ _ N1 I' R') as (x2 & _ & N2 & _ & (_ & R2 & _) & _).
  unfold done_deeds in Nx', N2, y. rewrite fold_left_app in Nx'. cbn [fold_left] in Nx'. fold y in Nx'. rewrite Nx' in N2. injection N2 as <-.
  exact (R2 j c r Lj Nc Nr Pc As).
Qed.
(** All get through: a user with [n] calls is through after [16426 n + 1] rounds
    at the latest, if it moves and each of its ports is attended to at least
    once in every round, at whatever moments, and whatever breaks and the others
    do. *)
Theorem c111_through S (f : S -> request -> S * list byte) s starts i l cs rounds :
  polite f -> Forall start_ok starts -> nth_error starts i = Some (l, cs) ->
  Forall (fun ms => List.In (Takes i true) ms /\ List.In (Takes i false) ms /\ exists p o, List.In (Goes i p o) ms) rounds ->
  16426 * Z.of_nat (length cs) < Z.of_nat (length rounds) ->
  exists x, nth_error (guests (done_deeds (answering f) (concat rounds) (opened s starts))) i = Some x
    /\ calls (person x) = [] /\ in_call (person x) = None /\ length (have (person x)) = length cs.
Proof.
  intros Hf Hs Ni R L. destruct (guest_start s starts i l cs Hs Ni) as [N I].
  destruct (rounds_inv f Hf i l cs rounds _ _ _ _ N I R) as (x & n & Nx & (cs1 & es & T & _ & _ & _ & M) & F1 & F2).
  { unfold whole_call, leg, RESP_BUFFER_SIZE. lia. }
  exists x. repeat (split; [assumption|]). rewrite F2, F1 in M. destruct M as (-> & _). rewrite app_nil_r.
  symmetry. eapply told_length, T.
Qed.

(** *** The hypotheses can be met *)
(** The platform port of a user breaks in [reinit], just after the second
    request was sent and with nothing lost of it: the machine still takes it,
    and no more on this port.  The call fails, so does the next one there, and
    the command after them gets through.  *)
Example c111_example :
  let starts := [(3, [Call Reinit; Call (Signal PowerOn); Call (Transact [x80] (repeat x00 RESP_BUFFER_SIZE))])] in
  let before := concat (repeat [Goes 0 9 (Claims 0); Takes 0 false] 4) ++ [Goes 0 9 (Claims 0)] in
  let late := concat (repeat [Goes 0 9 (Claims 4); Takes 0 true; Takes 0 false] 20) in
  let y := done_deeds (answering recorder) (before ++ Tears 0 false 4 4 :: late) (opened [] starts) in
  polite recorder /\ Forall start_ok starts
  /\ map (fun x => (match have (person x) with
                    | [Called (Err _); Called (Err _); Called (Ok (Payload r))] => Some r
                    | _ => None
                    end, torn x)) (guests y)
     = [(Some [x80; x01; x00; x00; x00; x0a; x00; x00; x01; x01], (false, true))]
  /\ host y = [AskSignal NvOff; AskSignal PowerOff; AskCommand 3 [x80]].
Proof.
  cbv zeta. split; [exact (proj1 c102_torn)|]. split; [repeat constructor; cbn [fst snd]; try lia; try discriminate|].
  split; vm_compute; reflexivity.
Qed.
