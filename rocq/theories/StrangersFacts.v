(** Users of a simulator among strangers (C103). *)
From Coq Require Import String ZArith NArith List Lia Bool.
From Coq Require Import Init.Byte.
From Verif Require Import Prelude Types Client ClientSpec Tcp TcpSpec Controls ControlsFacts Crowd CrowdProofs CrowdFacts Strangers.
From Verif Require Clients ClientsFacts.
Import ListNotations.
Open Scope Z_scope.

(** A square with users and [n] strangers. *)
Definition gathered {S} (s : S) (starts : list (Z * list call)) (n : nat) : square S :=
  {| people := arrived s starts; strangers := repeat ([], []) n |}.
(** What one event can be at the machine. *)
Definition amounts_to (e : event) (o : list entry) : Prop :=
  match e with
  | By m => o = [] \/ o = [Turn (actor m)]
  | Throws _ _ _ => o = []
  | Heeds j h => o = [] \/ exists q, o = [Asked j h q]
  end.

Lemma port_set h h' b p : port h (set_port h' b p) = if Bool.eqb h h' then b else port h p.
Proof. destruct h, h'; reflexivity. Qed.
Lemma asked_app j h a b : asked j h (a ++ b) = asked j h a ++ asked j h b.
Proof. unfold asked. apply flat_map_app. Qed.
Lemma thrown_cons j h e es : thrown j h (e :: es) = thrown j h [e] ++ thrown j h es.
Proof. unfold thrown. cbn [flat_map]. now rewrite app_nil_r. Qed.
Lemma entered_turns {S} (f : S -> request -> S * list byte) o z : entered f (map Turn o) z = turns f o z.
Proof. revert z. induction o as [|i o IH]; intros z; [reflexivity|]. cbn [map entered fold_left enter]. apply IH. Qed.

Section Square.
Context {S : Type} (f : S -> request -> S * list byte) (Hf : polite f).
Definition kept (y y' : square S) (es : list event) (o : list entry) : Prop :=
  forall j h p, nth_error (strangers y) j = Some p ->
    exists p', nth_error (strangers y') j = Some p' /\ Forall (speakable h) (asked j h o)
      /\ port h p ++ thrown j h es = flat_map spelled (asked j h o) ++ port h p'.
Lemma kept_same y y' es o : strangers y' = strangers y -> (forall j h, thrown j h es = []) -> (forall j h, asked j h o = []) -> kept y y' es o.
Proof.
  intros E Et Ea j h p N. exists p. rewrite E, Et, Ea, app_nil_r. split; [exact N|]. split; [constructor|reflexivity].
Qed.
Lemma kept_trans y1 y2 y3 es1 es2 o1 o2 : kept y1 y2 es1 o1 -> kept y2 y3 es2 o2 ->
  (forall j h, thrown j h (es1 ++ es2) = thrown j h es1 ++ thrown j h es2) -> kept y1 y3 (es1 ++ es2) (o1 ++ o2).
Proof.
  intros K1 K2 T j h p N. destruct (K1 j h p N) as (p1 & N1 & S1 & E1). destruct (K2 j h p1 N1) as (p2 & N2 & S2 & E2).
  exists p2. split; [exact N2|]. rewrite asked_app. split; [apply Forall_app; auto|].
  rewrite T, app_assoc, E1, <- app_assoc, E2, flat_map_app, app_assoc. reflexivity.
Qed.
Lemma happens_sound y zs e : Forall2 any_sound (users (people y)) zs ->
  exists o, amounts_to e o
    /\ shared (people (happens (answering f) y e)) = fst (entered f o (shared (people y), zs))
    /\ Forall2 any_sound (users (people (happens (answering f) y e))) (snd (entered f o (shared (people y), zs)))
    /\ kept y (happens (answering f) y e) [e] o.
Proof.
  intros F. destruct e as [m|j h bytes|j h]; cbn [happens].
  - destruct (acts_sound f Hf (people y) zs m F) as (o & O & T & F').
    exists (map Turn o). rewrite entered_turns. cbn [people].
    split; [destruct O as [->| ->]; cbn [map amounts_to]; auto|]. split; [exact T|]. split; [exact F'|].
    apply kept_same; [reflexivity|reflexivity|]. intros j h. destruct O as [->| ->]; reflexivity.
  - exists []. split; [reflexivity|]. cbn [entered fold_left fst snd].
    destruct (nth_error (strangers y) j) as [p|] eqn:N; cbn [people].
    + split; [reflexivity|]. split; [exact F|]. intros j' h' p' N'. cbn [strangers].
      rewrite (ClientsFacts.nth_put_cases j j' _ p _ N). unfold thrown. cbn [flat_map asked]. rewrite app_nil_r.
      destruct (Nat.eqb_spec j' j) as [->|J]; cbn [andb].
      * rewrite N in N'. injection N' as <-. eexists. split; [reflexivity|]. split; [constructor|]. rewrite port_set.
        destruct (Bool.eqb_spec h' h) as [->|Hh]; [reflexivity|]. now rewrite app_nil_r.
      * exists p'. split; [exact N'|]. split; [constructor|]. now rewrite app_nil_r.
    + split; [reflexivity|]. split; [exact F|]. intros j' h' p' N'. exists p'. split; [exact N'|]. split; [constructor|].
      unfold thrown. cbn [flat_map asked]. destruct (Nat.eqb_spec j' j) as [->|J]; [congruence|]. cbn [andb]. now rewrite !app_nil_r.
  - destruct (nth_error (strangers y) j) as [p|] eqn:N.
    2:{ exists []. split; [left; reflexivity|]. split; [reflexivity|]. split; [exact F|]. apply kept_same; reflexivity. }
    cbn [work got unit_ due]. destruct (front h (port h p)) as [[q rest]|] eqn:Fr.
    + pose proof (proj1 (c81_understood h (port h p) q rest) Fr) as [Sp Eb].
      exists [Asked j h q]. split; [right; eauto|]. unfold answering at 1 2 3. cbn [entered fold_left enter fst snd].
      destruct (f (shared (people y)) q) as [s' r] eqn:Ef. cbn [people shared users unit_ got fst]. split; [reflexivity|]. split; [exact F|].
      intros j' h' p' N'. unfold answering. rewrite Ef. cbn [strangers got].
      rewrite (ClientsFacts.nth_put_cases j j' _ p _ N). unfold thrown, asked. cbn [flat_map]. rewrite !app_nil_r.
      destruct (Nat.eqb_spec j' j) as [->|J]; cbn [andb].
      * rewrite N in N'. injection N' as <-. eexists. split; [reflexivity|]. rewrite port_set.
        destruct (Bool.eqb_spec h' h) as [->|Hh].
        -- split; [repeat constructor; exact Sp|]. cbn [flat_map]. now rewrite app_nil_r.
        -- split; [constructor|reflexivity].
      * exists p'. split; [exact N'|]. split; [constructor|reflexivity].
    + exists []. split; [left; reflexivity|]. cbn [people shared users unit_ got entered fold_left fst snd]. split; [reflexivity|].
      split; [exact F|]. apply kept_same; try reflexivity. cbn [strangers]. now apply ClientsFacts.put_same.
Qed.
Lemma happened_sound es : forall y zs, Forall2 any_sound (users (people y)) zs ->
  exists orders, Forall2 amounts_to es orders /\
    forall k, let y' := happened (answering f) (firstn k es) y in
      let z := entered f (concat (firstn k orders)) (shared (people y), zs) in
      shared (people y') = fst z /\ Forall2 any_sound (users (people y')) (snd z) /\ kept y y' (firstn k es) (concat (firstn k orders)).
Proof.
  induction es as [|e es IH]; intros y zs F.
  - exists []. split; [constructor|]. intros k. rewrite !firstn_nil. cbn zeta. split; [reflexivity|]. split; [exact F|].
    apply kept_same; reflexivity.
  - destruct (happens_sound y zs e F) as (o1 & O1 & T1 & F1 & K1).
    destruct (IH _ _ F1) as (os & Os & Hk). exists (o1 :: os). split; [constructor; assumption|].
    intros [|k]; cbn zeta.
    { split; [reflexivity|]. split; [exact F|]. apply kept_same; reflexivity. }
    cbn [firstn concat happened fold_left]. destruct (Hk k) as (T2 & F2 & K2). cbn zeta in T2, F2.
    rewrite T1 in T2, F2. rewrite <- surjective_pairing in T2, F2. unfold entered. rewrite fold_left_app.
    split; [exact T2|]. split; [exact F2|]. apply (kept_trans _ _ _ [e] (firstn k es) _ _ K1 K2).
    intros j h. cbn [app]. apply thrown_cons.
Qed.
Lemma event_cost y zs e i x z n : Forall2 any_sound (users (people y)) zs -> nth_error (users (people y)) i = Some x -> sound n x z ->
  exists n' x' z', nth_error (users (people (happens (answering f) y e))) i = Some x' /\ sound n' x' z'
    /\ ((n' < n)%nat
        \/ (n' = n /\ z' = z /\ x' = x /\ (forall h, e = By (Attends i h) -> port h (out x) = [])
            /\ (forall p, e = By (Acts i p) -> (in_call x = None /\ calls x = []) \/ out x <> ([], [])))).
Proof.
  intros F N So.
  assert (Same : forall e' : event, (forall m, e' <> By m) -> users (people (happens (answering f) y e')) = users (people y)).
  { intros [m|j h bytes|j h] E; [now destruct (E m)| |]; cbn [happens]; destruct (nth_error (strangers y) j); reflexivity. }
  destruct e as [m|j h bytes|j h].
  - destruct (act_cost f Hf (people y) zs m i x z n F N So) as (n' & x' & z' & N' & So' & C).
    exists n', x', z'. split; [exact N'|]. split; [exact So'|]. destruct C as [C|(E1 & E2 & E3 & C1 & C2)]; [left; exact C|right].
    repeat (split; [assumption|]). split; [intros h [= E]; now apply C1|intros p [= E]; now apply (C2 p)].
  - rewrite Same by discriminate. exists n, x, z. repeat (split; [assumption|]). right. repeat (split; [reflexivity|]). split; discriminate.
  - rewrite Same by discriminate. exists n, x, z. repeat (split; [assumption|]). right. repeat (split; [reflexivity|]). split; discriminate.
Qed.
Lemma spell_cost i : forall es y zs x z n, Forall2 any_sound (users (people y)) zs ->
  nth_error (users (people y)) i = Some x -> sound n x z ->
  exists n' x' z', nth_error (users (people (happened (answering f) es y))) i = Some x' /\ sound n' x' z'
    /\ ((n' < n)%nat
        \/ (n' = n /\ z' = z /\ x' = x /\ (forall h, List.In (By (Attends i h)) es -> port h (out x) = [])
            /\ (forall p, List.In (By (Acts i p)) es -> (in_call x = None /\ calls x = []) \/ out x <> ([], [])))).
Proof.
  induction es as [|e es IH]; intros y zs x z n F N So.
  - exists n, x, z. split; [exact N|]. split; [exact So|]. right. repeat (split; [reflexivity|]). split; [intros h []|intros p []].
  - destruct (happens_sound y zs e F) as (o & _ & _ & F1 & _).
    destruct (event_cost y zs e i x z n F N So) as (n1 & x1 & z1 & N1 & So1 & C1).
    destruct (IH _ _ x1 z1 n1 F1 N1 So1) as (n2 & x2 & z2 & N2 & So2 & C2).
    exists n2, x2, z2. split; [exact N2|]. split; [exact So2|].
    destruct C1 as [C1|(-> & -> & -> & S1 & M1)]; destruct C2 as [C2|(-> & -> & -> & S2 & M2)]; try (left; lia).
    right. repeat (split; [reflexivity|]). split.
    + intros h [->|I]; auto.
    + intros p [->|I]; eauto.
Qed.
(** A user that is through stays as it is, and is left alone. *)
Lemma idle_stays i x z n : sound n x z -> in_call x = None -> calls x = [] -> forall es y zs,
  Forall2 any_sound (users (people y)) zs -> nth_error (users (people y)) i = Some x ->
  nth_error (users (people (happened (answering f) es y))) i = Some x.
Proof.
  intros So D Cs. induction es as [|e es IH]; intros y zs F N; [exact N|]. cbn [happened fold_left].
  destruct (happens_sound y zs e F) as (o & _ & _ & F1 & _). apply (IH _ _ F1). clear IH F1.
  destruct So as (_ & _ & _ & _ & _ & Fo). assert (O : out x = ([], [])) by (destruct Fo; congruence).
  destruct e as [m|j h bytes|j h]; cbn [happens]; [|destruct (nth_error (strangers y) j); exact N..].
  cbn [people]. destruct (Nat.eq_dec (actor m) i) as [<-|J].
  - destruct m as [j piece|j h]; cbn [actor acts] in *; rewrite N; cbn [users];
      rewrite (ClientsFacts.nth_put_cases j j _ x _ N), Nat.eqb_refl; f_equal.
    + unfold user_moves. now rewrite D, Cs.
    + pose proof (attended_nothing f h (shared (people y)) x) as A. rewrite O, port_same in A. specialize (A eq_refl).
      apply (f_equal snd) in A. exact A.
  - destruct m as [j piece|j h]; cbn [actor acts] in *; (destruct (nth_error (users (people y)) j) as [xj|] eqn:Nj; cbn [users]; [|exact N]);
      rewrite (ClientsFacts.nth_put_cases j i _ xj _ Nj); (destruct (Nat.eqb_spec i j); [congruence|exact N]).
Qed.
Lemma spells_cost i : forall rounds y zs x z n, Forall2 any_sound (users (people y)) zs ->
  nth_error (users (people y)) i = Some x -> sound n x z ->
  Forall (fun es => List.In (By (Attends i true)) es /\ List.In (By (Attends i false)) es /\ exists p, List.In (By (Acts i p)) es) rounds ->
  (n < length rounds)%nat ->
  exists n' x' z', nth_error (users (people (happened (answering f) (concat rounds) y))) i = Some x' /\ sound n' x' z'
    /\ in_call x' = None /\ calls x' = [].
Proof.
  induction rounds as [|es rounds IH]; intros y zs x z n F N So R L; [cbn in L; lia|].
  inversion R as [|? ? [Ht [Hp (p & Hm)]] R']; subst. cbn [concat happened]. unfold happened. rewrite fold_left_app.
  destruct (spell_cost i es y zs x z n F N So) as (n1 & x1 & z1 & N1 & So1 & C1).
  destruct (happened_sound es y zs F) as (os & Os & Hk). destruct (Hk (length es)) as (_ & F1 & _). cbn zeta in F1. rewrite firstn_all in F1.
  cbn [length] in L. destruct C1 as [C1|(-> & -> & -> & S1 & M1)]; [apply (IH _ _ x1 z1 n1 F1 N1 So1 R'); lia|].
  assert (Idle : in_call x = None /\ calls x = []).
  { destruct (M1 p Hm) as [Z|Z]; [exact Z|]. exfalso. apply Z. destruct (out x) as [o1 o2].
    pose proof (S1 true Ht). pose proof (S1 false Hp). cbn [port fst snd] in *. congruence. }
  destruct Idle as [D Cs]. exists n, x, z. split; [|tauto].
  exact (idle_stays i x z n So D Cs (concat rounds) _ _ F1 N1).
Qed.
End Square.
Lemma happened_tally {S} (f : machine S) i : forall es y x, nth_error (users (people y)) i = Some x ->
  exists x', nth_error (users (people (happened f es y))) i = Some x' /\ tally x' = tally x.
Proof.
  induction es as [|e es IH]; intros y x N; [eauto|]. cbn [happened fold_left].
  assert (E : exists x', nth_error (users (people (happens f y e))) i = Some x' /\ tally x' = tally x).
  { destruct e as [m|j h bytes|j h]; cbn [happens].
    - apply (acted_tally f i [m] (people y) x N).
    - destruct (nth_error (strangers y) j); eauto.
    - destruct (nth_error (strangers y) j); eauto. }
  destruct E as (x' & N' & T). destruct (IH _ _ N') as (x'' & N'' & T'). exists x''. split; [exact N''|congruence].
Qed.

(** ** C103 *)
(** Whatever users do and strangers send, in whatever order and pieces: every
    event amounts, at the machine, to nothing, to one turn of the user that moved
    or was attended to, or to one request of the stranger that was heeded.  After
    each of the events the machine is where these leave it and each user is at
    the same point of its session, with the same results, as at the machine
    itself.  The requests of a stranger are spelled out, one after the other, by
    the bytes that this stranger itself sent on that port: none is made up of
    bytes of others, nothing is skipped, and what is left has not been taken. *)
Theorem c103_strangers S (f : S -> request -> S * list byte) s starts n es :
  polite f -> Forall start_ok starts ->
  exists orders, Forall2 amounts_to es orders /\
    forall k, let y := happened (answering f) (firstn k es) (gathered s starts n) in
      let o := concat (firstn k orders) in
      let z := entered f o (s, seats starts) in
      shared (people y) = fst z /\ Forall2 level_with (users (people y)) (snd z)
      /\ forall j h, (j < n)%nat -> exists p, nth_error (strangers y) j = Some p
           /\ Forall (speakable h) (asked j h o)
           /\ thrown j h (firstn k es) = flat_map spelled (asked j h o) ++ port h p.
Proof.
  intros Hf Hs. destruct (happened_sound f Hf es (gathered s starts n) (seats starts) (arrived_sound s starts Hs)) as (os & Os & Hk).
  exists os. split; [exact Os|]. intros k. destruct (Hk k) as (T & F & K). cbn zeta in T, F |- *. split; [exact T|]. split.
  - cbn [gathered people arrived shared] in F. revert F. generalize (snd (entered f (concat (firstn k os)) (s, seats starts))).
    generalize (users (people (happened (answering f) (firstn k es) (gathered s starts n)))). clear. intros xs zs F.
    induction F; constructor; [now apply sound_level|assumption].
  - intros j h J. assert (N : nth_error (strangers (gathered s starts n)) j = Some ([], [])) by (apply nth_error_repeat; exact J).
    destruct (K j h _ N) as (p & Np & Sp & E). exists p. split; [exact Np|]. split; [exact Sp|].
    rewrite <- E. destruct h; reflexivity.
Qed.
(** And strangers hold nobody up: a user with [n] calls is through after
    [16426 n + 1] rounds in which it moves and each of its ports is attended to,
    whatever the others and the strangers do. *)
Theorem c103_through S (f : S -> request -> S * list byte) s starts n i l cs rounds :
  polite f -> Forall start_ok starts -> nth_error starts i = Some (l, cs) ->
  Forall (fun es => List.In (By (Attends i true)) es /\ List.In (By (Attends i false)) es /\ exists p, List.In (By (Acts i p)) es) rounds ->
  16426 * Z.of_nat (length cs) < Z.of_nat (length rounds) ->
  exists x, nth_error (users (people (happened (answering f) (concat rounds) (gathered s starts n)))) i = Some x
    /\ calls x = [] /\ in_call x = None /\ length (have x) = length cs /\ out x = ([], []) /\ inc x = ([], []).
Proof.
  intros Hf Hs Ni R L. pose proof (arrived_sound s starts Hs) as F.
  assert (N : nth_error (users (people (gathered s starts n))) i = Some (newcomer l cs)).
  { unfold gathered, arrived. cbn [people users]. rewrite (map_nth_error _ i starts Ni). reflexivity. }
  assert (So : sound (whole_call * length cs) (newcomer l cs) (seated l cs)).
  { apply nth_error_In in Ni. rewrite Forall_forall in Hs. destruct (Hs _ Ni) as [Hl Hc]. cbn [fst snd] in Hl, Hc.
    unfold sound. cbn [newcomer seated set_level calls have sits_at wants knows]. repeat (split; [assumption || reflexivity|]).
    apply F_rest; reflexivity. }
  destruct (spells_cost f Hf i rounds (gathered s starts n) _ _ _ _ F N So R) as (n' & x & z & Nx & So' & D & Cx).
  { unfold whole_call, leg, RESP_BUFFER_SIZE. lia. }
  exists x. repeat (split; [assumption|]). split; [|destruct So' as (_ & _ & _ & _ & _ & Fo); destruct Fo; split; congruence].
  pose proof (happened_tally (answering f) i (concat rounds) (gathered s starts n) _ N) as (x' & N' & T). rewrite Nx in N'. injection N' as <-.
  unfold tally in T. rewrite D, Cx in T. cbn [newcomer have calls in_call length] in T. lia.
Qed.
(** A user sends a command in the midst of a stranger's bytes: the first half of
    one, a power-off on the other port, the second half and rubbish. *)
Example c103_example :
  let starts := [(3, [Call (Transact [x80] (repeat x00 RESP_BUFFER_SIZE))])] in
  let user := [By (Acts 0 9); By (Attends 0 true)] in
  let es := [Throws 0 true [x00; x00; x00; x08; x00; x00; x00]; By (Acts 0 9); Heeds 0 true; By (Acts 0 9);
             Throws 0 false [x00; x00; x00; x02]; Heeds 0 false; By (Attends 0 true);
             Throws 0 true [x00; x02; xaa; xbb; xff; xff; xff; xff; xff]; By (Acts 0 9); Heeds 0 true; Heeds 0 true]
            ++ concat (repeat user 9) in
  let y := happened (answering recorder) es (gathered [] starts 1) in
  polite recorder /\ Forall start_ok starts
  /\ shared (people y) = [AskSignal PowerOff; AskCommand 3 [x80]; AskCommand 0 [xaa; xbb]]
  /\ map have (users (people y)) = [[Called (Ok (Payload [x80; x01; x00; x00; x00; x0a; x00; x00; x01; x01]))]]
  /\ strangers y = [([xff; xff; xff; xff; xff], [])].
Proof.
  cbv zeta. split; [intros s q; destruct q; cbn; try reflexivity; lia|].
  split; [repeat constructor; cbn [fst snd]; try lia; try discriminate|].
  split; [vm_compute; reflexivity|]. split; vm_compute; reflexivity.
Qed.
