(** Proofs about retries, port files and starting and stopping the simulator. *)
From Coq Require Import ZArith NArith List Lia Bool.
From Coq Require Import Init.Byte.
From Verif Require Import Prelude Client ClientSpec Tcp TcpSpec TcpProofs.
Import ListNotations.
Open Scope Z_scope.

(** ** Retries *)
Lemma retry_spec {W H C A} (sys : world W H C) (f : io W A) : forall fuel n w, (4 <= n + fuel)%nat -> (1 <= n <= 4)%nat ->
  exists k, (n + k <= 4)%nat
    /\ retry_loop sys fuel (Z.of_nat n) f w = attempt sys f k w
    /\ (forall j, (j < k)%nat -> failed (snd (attempt sys f j w)))
    /\ (failed (snd (attempt sys f k w)) -> (n + k = 4)%nat).
Proof.
  assert (Shift : forall j w, attempt sys f (S j) w = attempt sys f j (sleep_one_second sys (fst (f w)))).
  { induction j as [|j IH]; intros w; [reflexivity|]. cbn [attempt] in *. rewrite IH. reflexivity. }
  induction fuel as [|fuel IH]; intros n w Hn Hp.
  - exists 0%nat. assert (n = 4)%nat by lia. subst n. cbn [retry_loop attempt].
    destruct (f w) as [w' [a|e|]]; (split; [lia|]); (split; [reflexivity|]); (split; [intros j Hj; lia|]);
      intros _; reflexivity.
  - cbn [retry_loop]. destruct (f w) as [w' [a|e|]] eqn:E.
    1,3: exists 0%nat; cbn [attempt]; rewrite E; (split; [lia|]); (split; [reflexivity|]);
      (split; [intros j Hj; lia|]); intros [e D]; discriminate D.
    destruct (Z.ltb_spec 3 (Z.of_nat n)) as [Big|Small].
    { exists 0%nat. cbn [attempt]. rewrite E. split; [lia|]. split; [reflexivity|]. split; [intros j Hj; lia|]. lia. }
    destruct (IH (S n) (sleep_one_second sys w') ltac:(lia) ltac:(lia)) as (k & Hk & R & F & L).
    exists (S k). rewrite Shift, E. cbn [fst]. split; [lia|]. split.
    { rewrite <- R. f_equal. lia. }
    split.
    + intros [|j] Hj; [cbn [attempt]; rewrite E; exists e; reflexivity|].
      rewrite Shift, E. apply F. lia.
    + intros Fk. specialize (L Fk). lia.
Qed.

(** ** Port files *)
Lemma starts_with_spec p : forall s, starts_with s p = true <-> exists rest, s = p ++ rest.
Proof.
  induction p as [|c p IH]; intros s.
  - split; [intros _; exists s; reflexivity|destruct s; reflexivity].
  - destruct s as [|b s].
    + split; [discriminate|intros [rest D]; discriminate].
    + cbn [starts_with]. rewrite andb_true_iff, IH. split.
      * intros [Eb [rest ->]]. apply Byte.byte_dec_bl in Eb. subst. exists rest. reflexivity.
      * intros [rest D]. injection D as -> ->. split; [apply Byte.byte_dec_lb; reflexivity|exists rest; reflexivity].
Qed.

(** No character is a prefix of another. *)
Definition prefix_free (cs : list (list byte)) : bool :=
  forallb (fun c => forallb (fun d => negb (starts_with d c) || Nat.eqb (length c) (length d)) cs) cs
  && forallb (fun c => negb (Nat.eqb (length c) 0)) cs.
Lemma prefix_free_spec cs c d s : prefix_free cs = true -> List.In c cs -> List.In d cs ->
  starts_with s c = true -> starts_with s d = true -> c = d.
Proof.
  unfold prefix_free. rewrite andb_true_iff. intros [P _] Ic Id Sc Sd.
  rewrite forallb_forall in P.
  assert (Aux : forall c d, List.In c cs -> List.In d cs -> starts_with s c = true -> starts_with s d = true ->
    (length c <= length d)%nat -> c = d).
  { clear c d Ic Id Sc Sd. intros c d Ic Id Sc Sd Hl.
    apply starts_with_spec in Sc. destruct Sc as [r1 ->].
    apply starts_with_spec in Sd. destruct Sd as [r2 Ed].
    assert (Ecd : d = c ++ firstn (length d - length c) r1).
    { pose proof (f_equal (firstn (length d)) Ed) as Q. rewrite firstn_app_exact in Q.
      rewrite firstn_app, (firstn_all2 c Hl) in Q. symmetry. exact Q. }
    specialize (P c Ic). rewrite forallb_forall in P. specialize (P d Id).
    assert (Sw : starts_with d c = true) by (apply starts_with_spec; eexists; exact Ecd).
    rewrite Sw in P. cbn in P. apply Nat.eqb_eq in P. rewrite P, Nat.sub_diag, firstn_O, app_nil_r in Ecd. auto. }
  destruct (Nat.le_ge_cases (length c) (length d)); [apply Aux; assumption|symmetry; apply Aux; assumption].
Qed.
Lemma prefix_free_nonempty cs c : prefix_free cs = true -> List.In c cs -> c <> [].
Proof.
  unfold prefix_free. rewrite andb_true_iff. intros [_ N] I ->. rewrite forallb_forall in N.
  specialize (N [] I). discriminate.
Qed.

Section Strip.
Variable cs : list (list byte).
Hypothesis Pf : prefix_free cs = true.

Lemma find_char c s : List.In c cs -> starts_with s c = true -> find (starts_with s) cs = Some c.
Proof.
  intros I S. destruct (find (starts_with s) cs) as [d|] eqn:F.
  - apply find_some in F. destruct F as [Id Sd]. f_equal. exact (prefix_free_spec cs d c s Pf Id I Sd S).
  - pose proof (find_none _ _ F c I) as N. congruence.
Qed.
Lemma strip_off : forall fuel pre s, (length (concat pre ++ s) <= fuel)%nat -> Forall (fun c => List.In c cs) pre ->
  find (starts_with s) cs = None -> strip fuel cs (concat pre ++ s) = s.
Proof.
  induction fuel as [|fuel IH]; intros pre s Hf Hp Hn.
  - destruct pre as [|c pre]; [destruct s; reflexivity|].
    apply Forall_inv in Hp. pose proof (prefix_free_nonempty cs c Pf Hp).
    destruct c; [congruence|]. cbn in Hf. lia.
  - cbn [strip]. destruct pre as [|c pre]; [cbn [concat app]; rewrite Hn; reflexivity|].
    pose proof (Forall_inv Hp) as Ic. cbn [concat]. rewrite <- app_assoc.
    rewrite (find_char c _ Ic) by (apply starts_with_spec; eexists; reflexivity).
    rewrite skipn_app_exact. apply IH; [|exact (Forall_inv_tail Hp)|exact Hn].
    pose proof (prefix_free_nonempty cs c Pf Ic). destruct c; [congruence|].
    cbn [concat] in Hf. rewrite <- app_assoc in Hf. rewrite app_length in Hf. cbn in Hf. lia.
Qed.
Lemma strip_split : forall fuel s, (length s <= fuel)%nat ->
  exists pre, s = concat pre ++ strip fuel cs s /\ Forall (fun c => List.In c cs) pre
              /\ find (starts_with (strip fuel cs s)) cs = None.
Proof.
  induction fuel as [|fuel IH]; intros s Hf.
  - destruct s; [|cbn in Hf; lia]. exists []. split; [reflexivity|]. split; [constructor|].
    destruct (find (starts_with (strip 0 cs [])) cs) as [d|] eqn:F; [|reflexivity].
    apply find_some in F. destruct F as [I S]. apply starts_with_spec in S. destruct S as [r D].
    destruct d; [|discriminate]. exfalso. exact (prefix_free_nonempty cs [] Pf I eq_refl).
  - cbn [strip]. destruct (find (starts_with s) cs) as [c|] eqn:F.
    + apply find_some in F. destruct F as [I S]. apply starts_with_spec in S. destruct S as [r ->].
      rewrite skipn_app_exact. pose proof (prefix_free_nonempty cs c Pf I).
      destruct (IH r) as (pre & E & Fp & N).
      { destruct c; [congruence|]. rewrite app_length in Hf. cbn in Hf. lia. }
      exists (c :: pre). cbn [concat]. rewrite <- app_assoc, <- E. split; [reflexivity|]. split; [constructor; assumption|exact N].
    + exists []. split; [reflexivity|]. split; [constructor|exact F].
Qed.
End Strip.

Lemma rev_concat (ls : list (list byte)) : rev (concat ls) = concat (map (@rev byte) (rev ls)).
Proof.
  induction ls as [|l ls IH]; [reflexivity|].
  cbn [concat rev]. rewrite rev_app_distr, IH, map_app, concat_app. cbn. rewrite app_nil_r. reflexivity.
Qed.
Lemma white_space_spec c : List.In c white_space <-> is_white_space c.
Proof.
  split.
  - intros I. unfold is_white_space. cbn in I.
    repeat (destruct I as [<-|I];
      [first [ left; eexists; split; [reflexivity|vm_compute; intuition congruence]
             | do 4 right; left; eexists; split; [reflexivity|vm_compute; intuition congruence]
             | tauto ]|]).
    contradiction.
  - intros [(b & -> & B)|[->|[->|[->|[(b & -> & B)|[->| ->]]]]]].
    1,5: destruct b; vm_compute in B; try (exfalso; intuition congruence); cbn; tauto.
    all: cbn; tauto.
Qed.
Lemma Forall_white l : Forall is_white_space l <-> Forall (fun c => List.In c white_space) l.
Proof. split; apply Forall_impl; intros c; apply white_space_spec. Qed.

Lemma trim_split text :
  exists before after, text = concat before ++ trim text ++ concat after
    /\ Forall is_white_space before /\ Forall is_white_space after.
Proof.
  destruct (strip_split white_space eq_refl (length text) text (le_n _)) as (pre & E & Fp & _).
  fold (trim_start text) in E. set (s := trim_start text) in *.
  destruct (strip_split (map (@rev byte) white_space) eq_refl (length s) (rev s)) as (post & E2 & Fq & _).
  { rewrite rev_length. apply le_n. }
  exists pre, (map (@rev byte) (rev post)). unfold trim. fold s. unfold trim_end.
  rewrite !Forall_white. split; [|split; [exact Fp|]].
  - rewrite E at 1. f_equal. apply (f_equal (@rev byte)) in E2. rewrite rev_involutive, rev_app_distr, rev_concat in E2. exact E2.
  - apply Forall_forall. intros c Ic. apply in_map_iff in Ic. destruct Ic as (d & <- & Id). apply in_rev in Id.
    rewrite Forall_forall in Fq. specialize (Fq d Id). apply in_map_iff in Fq. destruct Fq as (e & <- & Ie).
    rewrite rev_involutive. exact Ie.
Qed.

Definition plain (b : byte) : Prop := is_digit b \/ b = x2b.
Lemma plain_start b s : plain b -> find (starts_with (b :: s)) white_space = None.
Proof.
  intros [B | ->]; [|reflexivity]. unfold is_digit in B.
  destruct b; vm_compute in B; try (exfalso; intuition congruence); reflexivity.
Qed.
Lemma plain_end b s : plain b -> find (starts_with (b :: s)) (map (@rev byte) white_space) = None.
Proof.
  intros [B | ->]; [|reflexivity]. unfold is_digit in B.
  destruct b; vm_compute in B; try (exfalso; intuition congruence); reflexivity.
Qed.
Lemma trim_exact before body after :
  Forall is_white_space before -> Forall is_white_space after -> body <> [] -> Forall plain body ->
  trim (concat before ++ body ++ concat after) = body.
Proof.
  intros Fb Fa Ne Fp. apply Forall_white in Fb. apply Forall_white in Fa.
  unfold trim, trim_start. rewrite (strip_off white_space eq_refl); [|apply le_n|exact Fb|].
  2: { destruct body as [|b body]; [congruence|]. apply plain_start. exact (Forall_inv Fp). }
  unfold trim_end. rewrite rev_app_distr, rev_concat.
  rewrite (strip_off (map (@rev byte) white_space) eq_refl).
  - apply rev_involutive.
  - rewrite <- rev_concat, <- rev_app_distr, rev_length. apply le_n.
  - apply Forall_forall. intros c Ic. apply in_map_iff in Ic. destruct Ic as (d & <- & Id). apply in_rev in Id.
    rewrite Forall_forall in Fa. apply in_map. apply Fa. exact Id.
  - assert (Fr : Forall plain (rev body)) by (apply Forall_rev; exact Fp).
    destruct (rev body) as [|b r] eqn:E.
    + apply (f_equal (@rev byte)) in E. rewrite rev_involutive in E. contradiction.
    + apply plain_end. exact (Forall_inv Fr).
Qed.

Lemma digit_spec b d : digit b = Some d <-> is_digit b /\ d = bz b - 48.
Proof.
  unfold digit, is_digit. destruct (Z.leb_spec 48 (bz b)), (Z.leb_spec (bz b) 57); cbn [andb];
    (split; [intros Q; try discriminate Q; injection Q as <-; lia|]); intros [B ->]; try lia; reflexivity.
Qed.
Lemma decimal_nonneg ds : Forall is_digit ds -> 0 <= decimal ds.
Proof.
  induction ds as [|d ds IH]; intros F; [apply Z.le_refl|]. cbn [decimal].
  pose proof (Forall_inv F) as D. unfold is_digit in D. specialize (IH (Forall_inv_tail F)).
  pose proof (Z.pow_pos_nonneg 10 (Z.of_nat (length ds)) ltac:(lia) ltac:(lia)). nia.
Qed.
Lemma parse_digits_spec s : forall acc n, 0 <= acc <= 65535 ->
  parse_digits acc s = Some n
  <-> Forall is_digit s /\ n = acc * 10 ^ Z.of_nat (length s) + decimal s /\ n <= 65535.
Proof.
  induction s as [|b s IH]; intros acc n Ha.
  - cbn [parse_digits length decimal]. change (10 ^ Z.of_nat 0) with 1. split.
    + intros E. injection E as <-. split; [constructor|lia].
    + intros (_ & -> & _). f_equal. lia.
  - assert (Ep : 10 ^ Z.of_nat (length (b :: s)) = 10 * 10 ^ Z.of_nat (length s)).
    { cbn [length]. rewrite Nat2Z.inj_succ, Z.pow_succ_r by lia. reflexivity. }
    pose proof (Z.pow_pos_nonneg 10 (Z.of_nat (length s)) ltac:(lia) ltac:(lia)) as Pp.
    cbn [parse_digits decimal]. rewrite Ep. split.
    + destruct (digit b) as [d|] eqn:D; [|discriminate]. apply digit_spec in D. destruct D as [D ->].
      destruct (Z.ltb_spec 65535 (acc * 10 + (bz b - 48))); [discriminate|]. unfold is_digit in D. intros E.
      apply IH in E; [|lia]. destruct E as (F & -> & L). split; [constructor; assumption|]. split; [ring|exact L].
    + intros (F & E & L). pose proof (Forall_inv F) as D. pose proof (decimal_nonneg s (Forall_inv_tail F)) as Dn.
      assert (Ed : digit b = Some (bz b - 48)) by (apply digit_spec; auto). rewrite Ed. unfold is_digit in D.
      destruct (Z.ltb_spec 65535 (acc * 10 + (bz b - 48))) as [Big|Small].
      * exfalso. nia.
      * apply IH; [lia|]. split; [exact (Forall_inv_tail F)|]. split; [rewrite E; ring|exact L].
Qed.
Lemma parse_u16_spec s n :
  parse_u16 s = Some n
  <-> exists sign digits, s = sign ++ digits /\ (sign = [] \/ sign = [x2b]) /\ digits <> []
        /\ Forall is_digit digits /\ n = decimal digits /\ n <= 65535.
Proof.
  assert (P0 : forall ds, parse_digits 0 ds = Some n <-> Forall is_digit ds /\ n = decimal ds /\ n <= 65535).
  { intros ds. rewrite parse_digits_spec by lia. rewrite Z.mul_0_l, Z.add_0_l. reflexivity. }
  split.
  - destruct s as [|b s]; [discriminate|]. cbn [parse_u16]. destruct (Byte.eqb b x2b) eqn:Eb.
    + apply Byte.byte_dec_bl in Eb. subst b. destruct s as [|d s]; [discriminate|]. intros E. apply P0 in E.
      destruct E as (F & En & L). exists [x2b], (d :: s). split; [reflexivity|]. split; [auto|]. split; [discriminate|]. auto.
    + intros E. apply P0 in E. destruct E as (F & En & L). exists [], (b :: s). split; [reflexivity|].
      split; [auto|]. split; [discriminate|]. auto.
  - intros (sign & ds & -> & Hs & Ne & F & En & L).
    assert (P : parse_digits 0 ds = Some n) by (apply P0; auto).
    destruct ds as [|d ds]; [congruence|]. destruct Hs as [-> | ->].
    + cbn [app parse_u16]. destruct (Byte.eqb d x2b) eqn:Ed; [|exact P].
      apply Byte.byte_dec_bl in Ed. subst d. pose proof (Forall_inv F) as D. unfold is_digit in D. vm_compute in D. intuition congruence.
    + cbn [app parse_u16]. exact P.
Qed.
Theorem port_spec text n : parse_u16 (trim text) = Some n <-> port_text text n.
Proof.
  split.
  - intros E. apply parse_u16_spec in E. destruct E as (sign & ds & Et & Hs & Ne & F & En & L).
    destruct (trim_split text) as (before & after & Es & Fb & Fa).
    exists before, sign, ds, after. rewrite Et, <- app_assoc in Es. auto 10.
  - intros (before & sign & ds & after & -> & Fb & Fa & Hs & Ne & F & En & L).
    assert (Et : trim (concat before ++ sign ++ ds ++ concat after) = sign ++ ds).
    { rewrite (app_assoc sign). apply trim_exact; [assumption|assumption| |].
      - destruct sign, ds; try congruence; discriminate.
      - apply Forall_app. split.
        + destruct Hs as [-> | ->]; [constructor|]. constructor; [right; reflexivity|constructor].
        + eapply Forall_impl; [|exact F]. intros b B. left. exact B. }
    rewrite Et. apply parse_u16_spec. exists sign, ds. auto 10.
Qed.

(** ** What is left behind *)
Section Logs.
Context {W H C : Type} (sys : world W H C).
Notation log := (list (event H C)).
Definition leaves {A} (m : io (W * log) A) (good : log -> outcome io_error A -> Prop) : Prop :=
  forall w l, exists w' ext r, m (w, l) = ((w', l ++ ext), r) /\ good ext r.

Lemma leaves_bind {A B} (m : io (W * log) A) (f : A -> io (W * log) B) g1 g2 (g : log -> outcome io_error B -> Prop) :
  leaves m g1 -> (forall a, leaves (f a) (g2 a)) ->
  (forall e1 a e2 r, g1 e1 (Ok a) -> g2 a e2 r -> g (e1 ++ e2) r) ->
  (forall e1 e, g1 e1 (Err e) -> g e1 (Err e)) -> (forall e1, g1 e1 Panic -> g e1 Panic) ->
  leaves (m >>= f) g.
Proof.
  intros Hm Hf K1 K2 K3 w l. unfold io_bind. destruct (Hm w l) as (w' & e & r & -> & G). destruct r as [a|er|].
  - destruct (Hf a w' (l ++ e)) as (w2 & e2 & r2 & -> & G2). exists w2, (e ++ e2), r2. rewrite app_assoc. eauto.
  - exists w', e, (Err er). auto.
  - exists w', e, Panic. auto.
Qed.
Lemma leaves_weaken {A} (m : io (W * log) A) (g g' : log -> outcome io_error A -> Prop) :
  leaves m g -> (forall e r, g e r -> g' e r) -> leaves m g'.
Proof. intros Hm K w l. destruct (Hm w l) as (w' & e & r & E & G). eauto 6. Qed.

Lemma retry_leaves {A} (f : io (W * log) A) good : leaves f good ->
  forall fuel n w l, (4 <= n + fuel)%nat -> (1 <= n <= 4)%nat ->
  exists w' fails last r,
    retry_loop (watched sys) fuel (Z.of_nat n) f (w, l)
    = ((w', l ++ concat (map (fun e => e ++ [Slept]) fails) ++ last), r)
    /\ Forall (fun e => exists err, good e (Err err)) fails /\ good last r
    /\ (n + length fails <= 4)%nat /\ ((exists err, r = Err err) -> (n + length fails = 4)%nat).
Proof.
  intros Hf. induction fuel as [|fuel IH]; intros n w l Hn Hp; cbn [retry_loop];
    destruct (Hf w l) as (w' & e & r & -> & G); destruct r as [a|er|].
  1,3,4,6: exists w', [], e; eexists; (split; [reflexivity|]); (split; [constructor|]); (split; [exact G|]);
    (split; [cbn; lia|]); intros [err D]; discriminate D.
  - assert (n = 4)%nat by lia. subst n. exists w', [], e, (Err er). split; [reflexivity|].
    split; [constructor|]. split; [exact G|]. split; [cbn; lia|]. intros _. reflexivity.
  - destruct (Z.ltb_spec 3 (Z.of_nat n)) as [Big|Small].
    { exists w', [], e, (Err er). split; [reflexivity|].
      split; [constructor|]. split; [exact G|]. split; [cbn; lia|]. intros _. cbn. lia. }
    cbn [sleep_one_second watched fst snd].
    replace (Z.of_nat n + 1) with (Z.of_nat (S n)) by lia.
    destruct (IH (S n) (sleep_one_second sys w') ((l ++ e) ++ [Slept]) ltac:(lia) ltac:(lia))
      as (w2 & fails & last & r & -> & F & Gl & L1 & L2).
    exists w2, (e :: fails), last, r. cbn [map concat length]. rewrite <- !app_assoc. split; [reflexivity|].
    split; [constructor; [exists er; exact G|exact F]|]. split; [exact Gl|]. split; [lia|]. intros D. specialize (L2 D). lia.
Qed.
Lemma retries_leave {A} (f : io (W * log) A) good : leaves f good ->
  leaves (retry_loop (watched sys) 4 1 f) (attempts good).
Proof.
  intros Hf w l. destruct (retry_leaves f good Hf 4 1 w l ltac:(lia) ltac:(lia)) as (w' & fails & last & r & E & F & G & L1 & L2).
  exists w', (concat (map (fun e => e ++ [Slept]) fails) ++ last), r. split; [exact E|].
  exists fails, last. split; [reflexivity|]. split; [exact F|]. split; [exact G|]. split; [lia|]. intros D. specialize (L2 D). lia.
Qed.

Lemma connect_leaves ip tp pp :
  leaves (connect (watched sys) ip tp pp) (dialled ip (or_default 2321 tp) (or_default 2322 pp)).
Proof.
  intros w l. unfold connect, io_bind. fold (or_default 2321 tp). fold (or_default 2322 pp).
  cbn [tcp_connect watched fst snd].
  destruct (tcp_connect sys w ip (or_default 2321 tp)) as [w1 [t|e|]].
  2,3: exists w1; do 2 eexists; (split; [reflexivity|]); left; reflexivity.
  cbn [tcp_connect watched fst snd].
  destruct (tcp_connect sys w1 ip (or_default 2322 pp)) as [w2 [p|e|]].
  all: exists w2; do 2 eexists; (split; [rewrite <- app_assoc; reflexivity|]).
  - split; reflexivity.
  - right. exists t. reflexivity.
  - right. exists t. reflexivity.
Qed.
Lemma file_leaves path : leaves (fun w => read_to_string (watched sys) w path) (file_read path).
Proof.
  intros w l. cbn [read_to_string watched fst snd].
  destruct (read_to_string sys w path) as [w1 r]. exists w1, [ReadFile path (ok r)], r. split; reflexivity.
Qed.
Lemma port_leaves path : leaves (read_port (watched sys) path) (port_read path).
Proof.
  unfold read_port. eapply leaves_bind with (g2 := fun text e r => e = [] /\
    ((exists port, port_text text port /\ r = Ok port) \/ (forall port, ~ port_text text port) /\ r = Err InvalidData)).
  - apply retries_leave. apply file_leaves.
  - intros text w l. destruct (parse_u16 (trim text)) as [port|] eqn:E.
    + exists w, [], (Ok port). rewrite app_nil_r. split; [reflexivity|]. split; [reflexivity|]. left. exists port.
      apply port_spec in E. auto.
    + exists w, [], (Err InvalidData). rewrite app_nil_r. split; [reflexivity|]. split; [reflexivity|]. right.
      split; [|reflexivity]. intros port P. apply port_spec in P. congruence.
  - intros e1 text e2 r A [-> K]. rewrite app_nil_r. exists (Ok text). split; [exact A|exact K].
  - intros e1 e A. exists (Err e). split; [exact A|reflexivity].
  - intros e1 A. exists Panic. split; [exact A|reflexivity].
Qed.

Lemma join_spec dir name : join dir name = file_in dir name.
Proof.
  unfold join, file_in. destruct (rev dir) as [|c d] eqn:E.
  - apply (f_equal (@rev byte)) in E. rewrite rev_involutive in E. subst dir. reflexivity.
  - apply (f_equal (@rev byte)) in E. rewrite rev_involutive in E. cbn [rev] in E. subst dir. rewrite last_last.
    destruct (Byte.eqb c x2f); reflexivity.
Qed.
(** Starting the simulator: all that is seen. *)
Definition started (bin : list byte) (args : list (list byte)) (cwd ip : list byte) (seen : log) (r : outcome io_error (@simulator H C)) : Prop :=
  (seen = [] /\ is_ok r = false)
  \/ exists ch rest, seen = Spawned bin args cwd ch :: rest /\
     ((exists s1 r1, rest = s1 /\ port_read (join cwd command_port) s1 r1 /\ is_ok r1 = false /\ is_ok r = false)
      \/ exists s1 p1 rest', rest = s1 ++ rest' /\ port_read (join cwd command_port) s1 (Ok p1) /\
        ((exists r2, port_read (join cwd platform_port) rest' r2 /\ is_ok r2 = false /\ is_ok r = false)
         \/ exists s2 p2 s3 r3, rest' = s2 ++ s3 /\ port_read (join cwd platform_port) s2 (Ok p2)
            /\ attempts (dialled ip p1 p2) s3 r3
            /\ r = omap (fun c => {| child := ch; conn := c |}) r3)).
Lemma new_leaves bin args cwd ip : leaves (simulator_new (watched sys) bin args cwd ip) (started bin args cwd ip).
Proof.
  intros w l. unfold simulator_new. unfold io_bind at 1. cbn [spawn watched fst snd].
  destruct (spawn sys w bin args cwd) as [w1 [ch|e|]].
  2,3: exists w1; do 2 eexists; (split; [reflexivity|]); left; split; reflexivity.
  unfold io_bind at 1.
  destruct (port_leaves (join cwd command_port) w1 (l ++ [Spawned bin args cwd ch])) as (w2 & s1 & r1 & -> & P1).
  destruct r1 as [p1|e|].
  2,3: exists w2, (Spawned bin args cwd ch :: s1); eexists; (split; [rewrite <- app_assoc; reflexivity|]);
    right; exists ch, s1; (split; [reflexivity|]); left; exists s1; eexists; (split; [reflexivity|]);
    (split; [exact P1|]); split; reflexivity.
  unfold io_bind at 1.
  destruct (port_leaves (join cwd platform_port) w2 ((l ++ [Spawned bin args cwd ch]) ++ s1)) as (w3 & s2 & r2 & -> & P2).
  destruct r2 as [p2|e|].
  2,3: exists w3, (Spawned bin args cwd ch :: s1 ++ s2); eexists; (split; [rewrite <- !app_assoc; reflexivity|]);
    right; exists ch, (s1 ++ s2); (split; [reflexivity|]); right; exists s1, p1, s2; (split; [reflexivity|]);
    (split; [exact P1|]); left; eexists; (split; [exact P2|]); split; reflexivity.
  unfold io_bind.
  destruct (retries_leave _ _ (connect_leaves ip (Some p1) (Some p2)) w3 (((l ++ [Spawned bin args cwd ch]) ++ s1) ++ s2))
    as (w4 & s3 & r3 & E & A).
  unfold connect_with_retries. rewrite E.
  exists w4, (Spawned bin args cwd ch :: s1 ++ s2 ++ s3), (omap (fun c => {| child := ch; conn := c |}) r3).
  split; [rewrite <- !app_assoc; destruct r3; reflexivity|].
  right. exists ch, (s1 ++ s2 ++ s3). split; [reflexivity|]. right. exists s1, p1, (s2 ++ s3). split; [reflexivity|].
  split; [exact P1|]. right. exists s2, p2, s3, r3. auto.
Qed.

(** Nothing after the start starts or kills a process. *)
Definition no_process (e : event H C) : Prop := match e with Spawned _ _ _ _ | Killed _ => False | _ => True end.
Lemma attempts_no_process {A} (good : log -> outcome io_error A -> Prop) s r :
  (forall e r, good e r -> Forall no_process e) -> attempts good s r -> Forall no_process s.
Proof.
  intros K (fails & last & -> & F & G & _). apply Forall_app. split; [|exact (K _ _ G)].
  induction fails as [|e fails IH]; [constructor|]. cbn [map concat]. apply Forall_app.
  split; [|exact (IH (Forall_inv_tail F))]. destruct (Forall_inv F) as [err Ge].
  apply Forall_app. split; [exact (K _ _ Ge)|]. repeat constructor.
Qed.
Lemma port_no_process path s r : @port_read H C path s r -> Forall no_process s.
Proof.
  intros (r1 & A & _). eapply attempts_no_process; [|exact A].
  intros e r2 ->. repeat constructor.
Qed.
Lemma dialled_no_process ip p1 p2 s r : @dialled H C ip p1 p2 s r -> Forall no_process s.
Proof.
  destruct r as [c|e|]; cbn [dialled].
  - intros [-> _]. repeat constructor.
  - intros [-> | [h ->]]; repeat constructor.
  - intros [-> | [h ->]]; repeat constructor.
Qed.
Lemma started_process bin args cwd ip s r : started bin args cwd ip s r ->
  s = [] \/ exists ch rest, s = Spawned bin args cwd ch :: rest /\ Forall no_process rest.
Proof.
  intros [[-> _]|(ch & rest & -> & K)]; [left; reflexivity|]. right. exists ch, rest. split; [reflexivity|].
  destruct K as [(s1 & r1 & -> & P & _)|(s1 & p1 & rest' & -> & P & K)]; [exact (port_no_process _ _ _ P)|].
  apply Forall_app. split; [exact (port_no_process _ _ _ P)|].
  destruct K as [(r2 & P2 & _)|(s2 & p2 & s3 & r3 & -> & P2 & A & _)]; [exact (port_no_process _ _ _ P2)|].
  apply Forall_app. split; [exact (port_no_process _ _ _ P2)|].
  eapply attempts_no_process; [|exact A]. intros e r4. apply dialled_no_process.
Qed.
Lemma started_not_killed bin args cwd ip s r : started bin args cwd ip s r -> Forall not_killed s.
Proof.
  intros S. apply started_process in S. destruct S as [->|(ch & rest & -> & F)]; [constructor|].
  constructor; [exact I|]. eapply Forall_impl; [|exact F]. intros []; cbn; auto.
Qed.
End Logs.

(** ** No panics *)
Section Quiet.
Context {W H C : Type} (sys : world W H C) (Hq : quiet_world sys).
Definition calm {A} (m : io W A) : Prop := forall w, is_panic (snd (m w)) = false.
Lemma calm_bind {A B} (m : io W A) (f : A -> io W B) : calm m -> (forall a, calm (f a)) -> calm (m >>= f).
Proof.
  intros Hm Hf w. unfold io_bind. specialize (Hm w). destruct (m w) as [w' [a|e|]]; [apply Hf|reflexivity|exact Hm].
Qed.
Lemma calm_ret {A} (a : A) : calm (io_ret a). Proof. intros w. reflexivity. Qed.
Lemma calm_err {A} e : calm (@io_err W A e). Proof. intros w. reflexivity. Qed.
Lemma calm_write_loop fuel : forall h buf, (length buf <= fuel)%nat -> calm (write_loop sys fuel h buf).
Proof.
  destruct Hq as ([Hc _] & _ & Hwr & _).
  induction fuel as [|fuel IH]; intros h buf Hf w.
  - destruct buf; [reflexivity|cbn in Hf; lia].
  - destruct buf as [|b buf]; [reflexivity|]. cbn [write_loop].
    pose proof (Hwr w h (b :: buf)) as P. destruct (write sys w h (b :: buf)) as [w' [n|e|]] eqn:E; [|reflexivity|exact P].
    destruct n as [|n]; [reflexivity|]. specialize (Hc _ _ _ _ _ E).
    destruct (Nat.ltb_spec (length (b :: buf)) (S n)); [lia|]. apply IH. rewrite skipn_length. cbn in *. lia.
Qed.
Lemma calm_write_all h buf : calm (write_all sys h buf).
Proof. apply calm_write_loop. apply le_n. Qed.
Lemma calm_read_loop fuel : forall h n w, (n <= fuel)%nat -> is_panic (snd (read_loop sys fuel h n w)) = false.
Proof.
  destruct Hq as ([_ Hc] & _ & _ & Hr & _).
  induction fuel as [|fuel IH]; intros h n w Hf.
  - destruct n; [reflexivity|lia].
  - destruct n as [|n]; [reflexivity|]. cbn [read_loop].
    pose proof (Hr w h (S n)) as P. destruct (read sys w h (S n)) as [w' [bs|e|]] eqn:E; [|reflexivity|exact P].
    specialize (Hc _ _ _ _ _ E). destruct bs as [|b bs]; [reflexivity|].
    destruct (Nat.ltb_spec (S n) (length (b :: bs))); [lia|].
    specialize (IH h (S n - length (b :: bs))%nat w' ltac:(cbn in *; lia)).
    destruct (read_loop sys fuel h (S n - length (b :: bs)) w') as [[w2 rest] r]. exact IH.
Qed.
Lemma calm_read_bytes h n : calm (read_bytes sys h n).
Proof.
  intros w. unfold read_bytes, read_exact. pose proof (calm_read_loop n h n w (le_n _)) as P.
  destruct (read_loop sys n h n w) as [[w' bs] [u|e|]]; [reflexivity|reflexivity|exact P].
Qed.
Lemma calm_read_u32 h : calm (read_u32 sys h).
Proof. apply calm_bind; [apply calm_read_bytes|]. intros bs. apply calm_ret. Qed.
Lemma calm_write_whole h bs : calm (write_whole sys h bs).
Proof.
  destruct Hq as (_ & _ & Hwr & _). apply calm_bind; [intros w; apply Hwr|].
  intros n. destruct (n =? length bs)%nat; [apply calm_ret|apply calm_err].
Qed.
Lemma calm_end h : calm (check_response_end sys h).
Proof. apply calm_bind; [apply calm_read_u32|]. intros z. destruct (z =? 0); [apply calm_ret|apply calm_err]. Qed.
Lemma calm_shutdown h : calm (fun w => shutdown sys w h).
Proof. destruct Hq as (_ & _ & _ & _ & Hs & _). intros w. apply Hs. Qed.
Lemma calm_retry {A} (f : io W A) : calm f -> calm (retry_loop sys 4 1 f).
Proof.
  intros Hf w. destruct (retry_spec sys f 4 1 w ltac:(lia) ltac:(lia)) as (k & _ & E & _).
  change (Z.of_nat 1) with 1 in E. rewrite E. destruct k; apply Hf.
Qed.
Ltac calm := repeat first [ apply calm_write_all | apply calm_read_bytes
  | apply calm_read_u32 | apply calm_write_whole | apply calm_end | apply calm_shutdown | apply calm_ret | apply calm_err
  | apply calm_bind; [|intros ?] ].
Lemma calm_transact c w command response : is_panic (snd (tcp_transact sys c w command response)) = false.
Proof.
  unfold tcp_transact. destruct (2 ^ 32 <=? Z.of_nat (length command)); [reflexivity|].
  assert (P : calm (write_whole sys (tpm_tcp c) (u32_bytes SendCommand ++ be_bytes 1 (locality c)
           ++ u32_bytes (Z.of_nat (length command)) ++ command) ;; read_u32 sys (tpm_tcp c))) by calm.
  specialize (P w). destruct (io_bind _ _ w) as [w1 [len|e|]]; [|reflexivity|exact P].
  destruct (Z.of_nat (length response) <? len); [reflexivity|].
  unfold read_exact. pose proof (calm_read_loop (Z.to_nat len) (tpm_tcp c) (Z.to_nat len) w1 (le_n _)) as Q.
  destruct (read_loop sys (Z.to_nat len) (tpm_tcp c) (Z.to_nat len) w1) as [[w2 bs] [u|e|]]; [|reflexivity|exact Q].
  pose proof (calm_end (tpm_tcp c) w2) as R. destruct (check_response_end sys (tpm_tcp c) w2) as [w3 [u3|e|]]; [reflexivity|reflexivity|exact R].
Qed.
Lemma calm_perform c o w : is_panic (snd (perform sys c o w)) = false.
Proof.
  assert (U : forall (m : io W unit), calm m -> is_panic (snd (c, fst (unit_answer (m w)), snd (unit_answer (m w)))) = false).
  { intros m Hm. specialize (Hm w). unfold unit_answer. destruct (m w) as [w' [u|e|]]; [reflexivity|reflexivity|exact Hm]. }
  destruct o; cbn [perform]; try (apply U; unfold hcrtm_sequence, set_alternative_result, platform_signal, reinit,
    test_failure_mode, set_firmware_hash, set_firmware_svn, session_end, stop_simulator, end_both, platform_signal; calm; fail).
  - pose proof (calm_transact c w command response) as P.
    destruct (tcp_transact sys c w command response) as [[w' rsp] [n|e|]]; [reflexivity|reflexivity|exact P].
  - assert (P : calm (remote_handshake sys c client_version)) by (unfold remote_handshake; calm). specialize (P w).
    destruct (remote_handshake sys c client_version w) as [w' [x|e|]]; [reflexivity|reflexivity|exact P].
  - assert (P : calm (get_command_response_sizes sys c)).
    { unfold get_command_response_sizes; calm. destruct (negb _); calm. }
    specialize (P w). destruct (get_command_response_sizes sys c w) as [w' [x|e|]]; [reflexivity|reflexivity|exact P].
  - assert (P : calm (act_get_signaled sys c act_handle)) by (unfold act_get_signaled; calm).
    specialize (P w). destruct (act_get_signaled sys c act_handle w) as [w' [x|e|]]; [reflexivity|reflexivity|exact P].
  - reflexivity.
Qed.
Lemma calm_connect ip tp pp : calm (connect sys ip tp pp).
Proof.
  destruct Hq as (_ & Hc & _). apply calm_bind; [intros w; apply Hc|]. intros t.
  apply calm_bind; [intros w; apply Hc|]. intros p. apply calm_ret.
Qed.
Lemma calm_port path : calm (read_port sys path).
Proof.
  destruct Hq as (_ & _ & _ & _ & _ & Hr & _). apply calm_bind; [apply calm_retry; intros w; apply Hr|].
  intros text. destruct (parse_u16 (trim text)); [apply calm_ret|apply calm_err].
Qed.
Lemma calm_new bin args cwd ip : calm (simulator_new sys bin args cwd ip).
Proof.
  destruct Hq as (_ & _ & _ & _ & _ & _ & Hs & _). apply calm_bind; [intros w; apply Hs|]. intros ch.
  apply calm_bind; [apply calm_port|]. intros p1. apply calm_bind; [apply calm_port|]. intros p2.
  apply calm_bind; [apply calm_retry; apply calm_connect|]. intros c. apply calm_ret.
Qed.
End Quiet.

(** ** A connection *)
Lemma read_loop_length {W H C} (sys : world W H C) fuel : forall h n w,
  (length (snd (fst (read_loop sys fuel h n w))) <= n)%nat.
Proof.
  induction fuel as [|fuel IH]; intros h n w; destruct n as [|n]; try (cbn; lia).
  cbn [read_loop]. destruct (read sys w h (S n)) as [w' [bs|e|]]; [|cbn; lia|cbn; lia].
  destruct bs as [|b bs]; [cbn; lia|]. destruct (Nat.ltb_spec (S n) (length (b :: bs))); [cbn; lia|].
  specialize (IH h (S n - length (b :: bs))%nat w').
  destruct (read_loop sys fuel h (S n - length (b :: bs)) w') as [[w2 rest] r]. cbn [fst snd] in *.
  rewrite app_length. lia.
Qed.
Lemma tcp_wf {W H C} (sys : world W H C) c : wf_connection (tcp_connection sys c).
Proof.
  intros w command response w' response' r. cbn [tcp_connection transact]. unfold tcp_transact.
  destruct (2 ^ 32 <=? Z.of_nat (length command)).
  { intros E. injection E as <- <- <-. split; [reflexivity|discriminate]. }
  destruct (io_bind _ _ w) as [w1 [len|e|]].
  2,3: intros E; injection E as <- <- <-; split; [reflexivity|discriminate].
  destruct (Z.ltb_spec (Z.of_nat (length response)) len) as [Big|Small].
  { intros E. injection E as <- <- <-. split; [reflexivity|discriminate]. }
  unfold read_exact. pose proof (read_loop_length sys (Z.to_nat len) (tpm_tcp c) (Z.to_nat len) w1) as L.
  destruct (read_loop sys (Z.to_nat len) (tpm_tcp c) (Z.to_nat len) w1) as [[w2 bs] [u|e|]]; cbn [fst snd] in L.
  2,3: intros E; injection E as <- <- <-; (split; [apply overwrite_length; lia|discriminate]).
  destruct (check_response_end sys (tpm_tcp c) w2) as [w3 r3].
  intros E. assert (response' = overwrite bs response) by congruence. assert (r = omap (fun _ => Z.to_nat len) r3) by congruence.
  subst. split; [apply overwrite_length; lia|]. intros n En. destruct r3; try discriminate. injection En as <-. lia.
Qed.
