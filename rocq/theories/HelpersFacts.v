(** Properties of the DRBG helpers (C50). *)
From Coq Require Import ZArith NArith List Lia Bool.
From Coq Require Import Init.Byte.
From Verif Require Import Prelude Server ServerSpec ServerFacts Helpers HelpersSpec.
Import ListNotations.
Open Scope Z_scope.

Lemma words_step n : words_for (8 + n) = U64 :: words_for n.
Proof.
  unfold words_for. replace (8 + n)%nat with (n + 1 * 8)%nat by lia.
  rewrite Nat.div_add, Nat.mod_add by lia.
  replace (n / 8 + 1)%nat with (S (n / 8)) by lia. reflexivity.
Qed.

Lemma list_short_or_8 {A} (l : list A) :
  (length l < 8)%nat \/ exists a b c d e f g h t, l = a :: b :: c :: d :: e :: f :: g :: h :: t.
Proof.
  do 8 (destruct l as [|? l]; [left; cbn; lia|]). right. repeat eexists.
Qed.

Lemma fill_short D (rng : Drbg D) d ai dest : (length dest < 8)%nat ->
  fill_bytes_via_next rng d ai dest
  = let '(d', bs, r) := ask_all rng d ai (words_for (length dest)) in
    (d', overwrite (firstn (length dest) bs) dest, r).
Proof.
  intros L.
  do 8 (destruct dest as [|? dest];
    [cbn [fill_bytes_via_next length Nat.ltb Nat.leb];
     match goal with |- context [words_for ?n] => let w := eval vm_compute in (words_for n) in change (words_for n) with w end;
     cbn [ask_all];
     try match goal with |- context [next_u64 rng d ai] => destruct (next_u64 rng d ai) as [d' [z|e|]]
                    | |- context [next_u32 rng d ai] => destruct (next_u32 rng d ai) as [d' [z|e|]] end;
     reflexivity|]).
  cbn in L. lia.
Qed.

(** ** C50 *)
Theorem c50_fill D (rng : Drbg D) (dest : list byte) : forall d ai,
  fill_bytes_via_next rng d ai dest
  = let '(d', bs, r) := ask_all rng d ai (words_for (length dest)) in
    (d', overwrite (firstn (length dest) bs) dest, r).
Proof.
  remember (length dest) as n eqn:En. revert dest En.
  induction n as [n IH] using (well_founded_induction lt_wf). intros dest -> d ai.
  destruct (list_short_or_8 dest) as [L|(x0 & x1 & x2 & x3 & x4 & x5 & x6 & x7 & t & ->)].
  - apply fill_short. assumption.
  - change (length (x0 :: x1 :: x2 :: x3 :: x4 :: x5 :: x6 :: x7 :: t)) with (8 + length t)%nat.
    rewrite words_step. cbn [ask_all fill_bytes_via_next].
    destruct (next_u64 rng d ai) as [d' [w|e|]].
    + rewrite (IH (length t)); [|cbn; lia|reflexivity].
      destruct (ask_all rng d' [] (words_for (length t))) as [[d'' bs] r]. reflexivity.
    + destruct t; reflexivity.
    + destruct t; reflexivity.
Qed.

(** On success every byte of the destination is new. *)
Theorem c50_fill_all D (rng : Drbg D) d ai (dest : list byte) d' out :
  fill_bytes_via_next rng d ai dest = (d', out, Ok tt) ->
  exists bs, ask_all rng d ai (words_for (length dest)) = (d', bs, Ok tt)
    /\ (length dest <= length bs)%nat /\ out = firstn (length dest) bs.
Proof.
  rewrite c50_fill.
  destruct (ask_all rng d ai (words_for (length dest))) as [[d1 bs] r] eqn:A.
  intros H. injection H as -> <- ->. exists bs. split; [reflexivity|].
  assert (L : (length dest <= length bs)%nat).
  { assert (T : forall ws d ai d' bs, ask_all rng d ai ws = (d', bs, Ok tt) ->
      length bs = list_sum (map (fun w => match w with U32 => 4 | U64 => 8 end) ws)%nat).
    { clear. induction ws as [|w ws IH]; intros d ai d' bs H; cbn [ask_all] in H.
      - injection H as _ <-. reflexivity.
      - match type of H with (let '(_, _) := ?x in _) = _ => destruct x as [d1 [z|e|]] end; [|discriminate..].
        destruct (ask_all rng d1 [] ws) as [[d2 b2] r2] eqn:A. injection H as _ <- ->.
        rewrite app_length, le_bytes_length, (IH _ _ _ _ A). reflexivity. }
    rewrite (T _ _ _ _ _ A). unfold words_for. rewrite map_app, list_sum_app.
    assert (R : list_sum (map (fun w => match w with U32 => 4 | U64 => 8 end) (repeat U64 (length dest / 8)))%nat
                = (8 * (length dest / 8))%nat).
    { generalize (length dest / 8)%nat. clear. induction n; [reflexivity|]. cbn [repeat map].
      match goal with |- list_sum (_ :: ?l) = _ => change (8 + list_sum l = 8 * S n)%nat end.
      rewrite IHn. lia. }
    rewrite R. pose proof (Nat.div_mod (length dest) 8 ltac:(discriminate)). pose proof (Nat.mod_upper_bound (length dest) 8 ltac:(discriminate)).
    set (q := (length dest / 8)%nat) in *. set (m := (length dest mod 8)%nat) in *. clearbody q m. clear R.
    destruct (Nat.eqb_spec m 0); [cbn [map list_sum fold_right]; lia|].
    destruct (Nat.leb_spec m 4); cbn [map list_sum fold_right]; lia. }
  split; [assumption|]. unfold overwrite. rewrite firstn_length, skipn_all2; [|lia]. apply app_nil_r.
Qed.

(** A word got through [fill_bytes] is the little-endian value of the four
    (eight) bytes filled, and fails exactly when filling does. *)
Theorem c50_words_via_fill D (rng : Drbg D) d ai :
  wf_drbg rng ->
  (forall k next, (k, next) = (4%nat, next_u32_via_fill rng d ai) \/ (k, next) = (8%nat, next_u64_via_fill rng d ai) ->
   let '(d', out, r) := fill_bytes rng d ai (repeat x00 k) in
   fst next = d'
   /\ match snd next, r with
      | Ok z, Ok _ => le_bytes k z = out
      | Err e, Err e' => e = e'
      | Panic, Panic => True
      | _, _ => False
      end).
Proof.
  intros Hw k next [E|E]; injection E as -> ->.
  - unfold next_u32_via_fill. destruct (fill_bytes rng d ai (repeat x00 4)) as [[d' out] r] eqn:F.
    apply Hw in F. cbn [length repeat] in F. cbn [fst snd]. split; [reflexivity|]. destruct r as [u|e|]; cbn [omap]; auto.
    pose proof (le_bytes_val out) as Q. rewrite F in Q. exact Q.
  - unfold next_u64_via_fill. destruct (fill_bytes rng d ai (repeat x00 8)) as [[d' out] r] eqn:F.
    apply Hw in F. cbn [length repeat] in F. cbn [fst snd]. split; [reflexivity|]. destruct r as [u|e|]; cbn [omap]; auto.
    pose proof (le_bytes_val out) as Q. rewrite F in Q. exact Q.
Qed.

Lemma le_bytes_add a k : forall x y, 0 <= x < pow256 a ->
  le_bytes (a + k) (x + pow256 a * y) = le_bytes a x ++ le_bytes k y.
Proof.
  induction a as [|a IH]; intros x y H.
  - rewrite pow256_0 in *. cbn [Nat.add le_bytes app]. f_equal. lia.
  - cbn [Nat.add le_bytes app]. rewrite pow256_S in *.
    replace (x + 256 * pow256 a * y) with (x + (pow256 a * y) * 256) by ring. f_equal.
    + apply bz_inj. rewrite !bz_zb. apply Z_mod_plus_full.
    + rewrite Z.div_add by lia. apply IH.
      split; [apply Z.div_pos; lia|]. apply Z.div_lt_upper_bound; lia.
Qed.

Lemma lor_disjoint x y : 0 <= x < 2 ^ 32 -> Z.lor (Z.shiftl y 32) x = x + pow256 4 * y.
Proof.
  intros H. change (pow256 4) with (2 ^ 32).
  assert (D : Z.land (Z.shiftl y 32) x = 0).
  { apply Z.bits_inj'. intros n Hn. rewrite Z.land_spec, Z.bits_0.
    destruct (Z.lt_ge_cases n 32).
    - rewrite Z.shiftl_spec_low by lia. reflexivity.
    - replace x with (x mod 2 ^ 32) by (apply Z.mod_small; lia).
      rewrite Z.mod_pow2_bits_high by lia. apply andb_false_r. }
  rewrite <- Z.lxor_lor by assumption. rewrite <- Z.add_nocarry_lxor by assumption.
  rewrite Z.shiftl_mul_pow2 by lia. lia.
Qed.

(** A 64-bit word made of two 32-bit words has the bytes of the first, then of
    the second. *)
Theorem c50_u64_via_u32 D (rng : Drbg D) d ai :
  wf_words rng ->
  let '(d', r) := next_u64_via_u32 rng d ai in
  let '(d2, bs, r2) := ask_all rng d ai [U32; U32] in
  d' = d2
  /\ match r, r2 with
     | Ok z, Ok _ => 0 <= z < 2 ^ 64 /\ le_bytes 8 z = bs
     | Err e, Err e' => e = e'
     | Panic, Panic => True
     | _, _ => False
     end.
Proof.
  intros [H32 _]. unfold next_u64_via_u32. cbn [ask_all].
  destruct (next_u32 rng d ai) as [d1 [x|e|]] eqn:E1; auto.
  destruct (next_u32 rng d1 []) as [d2 [y|e|]] eqn:E2; auto.
  apply H32 in E1, E2. split; [reflexivity|]. rewrite lor_disjoint by assumption.
  change (pow256 4) with 4294967296. change (2 ^ 32) with 4294967296 in *.
  change (2 ^ 64) with 18446744073709551616. split; [lia|].
  change 8%nat with (4 + 4)%nat. change 4294967296 with (pow256 4).
  rewrite le_bytes_add by (change (pow256 4) with 4294967296; lia). rewrite app_nil_r. reflexivity.
Qed.

(** The helpers are inverse to each other: words got by filling via words are
    the words themselves. *)
Theorem c50_inverse D (rng : Drbg D) d ai :
  wf_words rng ->
  next_u32_via_fill (with_fill_via_next rng) d ai = next_u32 rng d ai
  /\ next_u64_via_fill (with_fill_via_next rng) d ai = next_u64 rng d ai.
Proof.
  intros [H32 H64]. unfold next_u32_via_fill, next_u64_via_fill.
  cbn [with_fill_via_next fill_bytes repeat fill_bytes_via_next length Nat.ltb Nat.leb]. split.
  - destruct (next_u32 rng d ai) as [d' [z|e|]] eqn:E; [|reflexivity..].
    apply H32 in E. unfold omap. do 2 f_equal.
    rewrite firstn_all2 by (rewrite le_bytes_length; lia).
    rewrite le_val_bytes. apply Z.mod_small. exact E.
  - destruct (next_u64 rng d ai) as [d' [z|e|]] eqn:E; [|reflexivity..].
    apply H64 in E. unfold omap. do 2 f_equal. rewrite app_nil_r.
    rewrite le_val_bytes. apply Z.mod_small. exact E.
Qed.

Lemma le_val_bound l : 0 <= le_val l < pow256 (length l).
Proof.
  induction l as [|b l IH]; [split; [apply Z.le_refl|reflexivity]|].
  cbn [length le_val]. rewrite pow256_S. pose proof (bz_range b). lia.
Qed.
(** And the other way round: a generator that gets its words by filling gives
    proper words, and filling four or eight bytes via these words is filling
    them. *)
Theorem c50_inverse_fill D (rng : Drbg D) :
  wf_drbg rng -> ignores_contents rng ->
  wf_words (with_words_via_fill rng)
  /\ forall d ai dest, length dest = 4%nat \/ length dest = 8%nat ->
     let '(d1, out1, r1) := fill_bytes_via_next (with_words_via_fill rng) d ai dest in
     let '(d2, out2, r2) := fill_bytes rng d ai dest in
     d1 = d2 /\ r1 = r2 /\ (r1 = Ok tt -> out1 = out2).
Proof.
  intros Hw Hi. split.
  - split; intros d ai d' z; cbn [with_words_via_fill next_u32 next_u64]; [unfold next_u32_via_fill|unfold next_u64_via_fill];
      (destruct (fill_bytes rng d ai _) as [[d1 out] r] eqn:F); apply Hw in F; rewrite repeat_length in F;
      (destruct r; cbn [omap]; intros E; [|discriminate..]); injection E as _ <-; pose proof (le_val_bound out) as B; rewrite F in B; exact B.
  - intros d ai dest [L|L].
    + assert (E := Hi d ai dest (repeat x00 4) ltac:(rewrite repeat_length; exact L)). rewrite E. clear E.
      destruct dest as [|b0 [|b1 [|b2 [|b3 [|b4 dest]]]]]; try discriminate L.
      cbn [fill_bytes_via_next length Nat.ltb Nat.leb with_words_via_fill next_u32]. unfold next_u32_via_fill.
      destruct (fill_bytes rng d ai (repeat x00 4)) as [[d' out] r] eqn:F. apply Hw in F. cbn [length repeat] in F.
      destruct r as [[]|[]|]; cbn [omap]; repeat split; try discriminate. intros _.
      rewrite firstn_all2 by (rewrite le_bytes_length; lia). pose proof (le_bytes_val out) as Q. rewrite F in Q. exact Q.
    + assert (E := Hi d ai dest (repeat x00 8) ltac:(rewrite repeat_length; exact L)). rewrite E. clear E.
      destruct dest as [|b0 [|b1 [|b2 [|b3 [|b4 [|b5 [|b6 [|b7 [|b8 dest]]]]]]]]]; try discriminate L.
      cbn [fill_bytes_via_next length Nat.ltb Nat.leb with_words_via_fill next_u64]. unfold next_u64_via_fill.
      destruct (fill_bytes rng d ai (repeat x00 8)) as [[d' out] r] eqn:F. apply Hw in F. cbn [length repeat] in F.
      destruct r as [[]|[]|]; cbn [omap]; repeat split; try discriminate. intros _.
      rewrite app_nil_r. pose proof (le_bytes_val out) as Q. rewrite F in Q. exact Q.
Qed.

(** A generator built with the helper meets what the server relies on. *)
Theorem c50_fits_server D (rng : Drbg D) :
  wf_drbg (with_fill_via_next rng)
  /\ ((forall d seed, snd (reseed rng d seed []) = Ok tt)
      -> (forall d ai, exists z, snd (next_u32 rng d ai) = Ok z)
      -> (forall d ai, exists z, snd (next_u64 rng d ai) = Ok z)
      -> never_fails (with_fill_via_next rng) /\ ignores_contents (with_fill_via_next rng)).
Proof.
  split.
  - intros d ai dest d' out r H. cbn [with_fill_via_next fill_bytes] in H. rewrite c50_fill in H.
    destruct (ask_all rng d ai (words_for (length dest))) as [[d1 bs] r1]. injection H as _ <- _.
    apply overwrite_length. rewrite firstn_length. lia.
  - intros Hr H32 H64.
    assert (T : forall ws d ai, snd (ask_all rng d ai ws) = Ok tt).
    { induction ws as [|[] ws IH]; intros d ai; cbn [ask_all]; [reflexivity| |].
      - destruct (H32 d ai) as [z E]. destruct (next_u32 rng d ai) as [d' r]. cbn in E. subst r.
        specialize (IH d' []). destruct (ask_all rng d' [] ws) as [[d2 b2] r2]. exact IH.
      - destruct (H64 d ai) as [z E]. destruct (next_u64 rng d ai) as [d' r]. cbn in E. subst r.
        specialize (IH d' []). destruct (ask_all rng d' [] ws) as [[d2 b2] r2]. exact IH. }
    assert (F : forall d ai dest, exists d' bs, fill_bytes_via_next rng d ai dest = (d', firstn (length dest) bs, Ok tt)
                /\ ask_all rng d ai (words_for (length dest)) = (d', bs, Ok tt)).
    { intros d ai dest. destruct (fill_bytes_via_next rng d ai dest) as [[d' out] r] eqn:E.
      assert (r = Ok tt).
      { rewrite c50_fill in E. specialize (T (words_for (length dest)) d ai).
        destruct (ask_all rng d ai (words_for (length dest))) as [[d1 bs] r1]. cbn in T. congruence. }
      subst r. pose proof E as E'. apply c50_fill_all in E'. destruct E' as (bs & A & _ & ->).
      exists d', bs. auto. }
    split; [split; [exact Hr|]|].
    + intros d dest. cbn. destruct (F d [] dest) as (d' & bs & -> & _). reflexivity.
    + intros d ai a b L. cbn [with_fill_via_next fill_bytes].
      destruct (F d ai a) as (d1 & b1 & -> & A1). destruct (F d ai b) as (d2 & b2 & -> & A2).
      rewrite L in A1 |- *. congruence.
Qed.

Lemma fill_fuel_same D (rng : Drbg D) d ai dest :
  fill_bytes_via_next (with_fill_via_next rng) d ai dest = fill_bytes_via_next rng d ai dest.
Proof.
  rewrite !c50_fill.
  assert (A : forall ws d ai, ask_all (with_fill_via_next rng) d ai ws = ask_all rng d ai ws).
  { induction ws as [|[] ws IH]; intros d0 ai0; cbn [ask_all with_fill_via_next next_u32 next_u64]; [reflexivity| |].
    - destruct (next_u32 rng d0 ai0) as [d' [z|e|]]; [rewrite IH|..]; reflexivity.
    - destruct (next_u64 rng d0 ai0) as [d' [z|e|]]; [rewrite IH|..]; reflexivity. }
  rewrite A. reflexivity.
Qed.
(** The helpers replace what they stand for and nothing else: a generator that
    fills with the helper has the same words, so filling from them gives the same;
    one that gets words with the helpers serves as before; and both start as before. *)
Theorem c50_nothing_else D X (rng : Drbg D) (es : EntropySource X) :
  (forall d ai dest, fill_bytes (with_fill_via_next rng) d ai dest = fill_bytes_via_next (with_fill_via_next rng) d ai dest)
  /\ new (with_fill_via_next rng) es = new rng es
  /\ new (with_words_via_fill rng) es = new rng es
  /\ (forall c k, serve (with_words_via_fill rng) es c k = serve rng es c k)
  /\ (forall d ai, next_u32 (with_words_via_fill rng) d ai = next_u32_via_fill (with_words_via_fill rng) d ai
                   /\ next_u64 (with_words_via_fill rng) d ai = next_u64_via_fill (with_words_via_fill rng) d ai).
Proof.
  split; [intros d ai dest; rewrite fill_fuel_same; reflexivity|].
  split; [reflexivity|]. split; [reflexivity|]. split; [|split; reflexivity].
  intros c [q r|b n]; reflexivity.
Qed.

(** The counter of the tests, filled via words: 8 + 4 bytes for a request of
    twelve; 8 + 8 for thirteen. *)
Example c50_example :
  wf_words FakeDrbg
  /\ fill_bytes_via_next FakeDrbg 0 [] (repeat xff 12)
     = (12, [x01; x02; x03; x04; x05; x06; x07; x08; x09; x0a; x0b; x0c], Ok tt)
  /\ words_for 12 = [U64; U32] /\ words_for 13 = [U64; U64] /\ words_for 16 = [U64; U64]
  /\ fill_bytes_via_next FakeDrbg 0 [] (repeat xff 13)
     = (16, [x01; x02; x03; x04; x05; x06; x07; x08; x09; x0a; x0b; x0c; x0d], Ok tt)
  /\ next_u64_via_u32 FakeDrbg 0 [] = (8, Ok 0x0807060504030201)
  /\ wf_drbg FakeDrbg /\ ignores_contents FakeDrbg
  /\ fill_bytes_via_next (with_words_via_fill FakeDrbg) 0 [] (repeat xff 8) = (8, [x01; x02; x03; x04; x05; x06; x07; x08], Ok tt).
Proof.
  split; [|do 6 (split; [vm_compute; reflexivity|]); split; [apply c43_example|split; [apply c43_example|vm_compute; reflexivity]]].
  assert (R : forall c n, 0 <= le_val (count_up c n) < pow256 n).
  { intros c n. revert c. induction n as [|n IH]; intros c; [vm_compute; intuition discriminate|].
    cbn [count_up le_val]. rewrite pow256_S. specialize (IH (c + 1)). pose proof (bz_range (zb (c + 1))). lia. }
  split; intros d ai d' z H.
  - assert (E : z = le_val (count_up d 4)) by (cbn [FakeDrbg next_u32] in H; congruence). rewrite E. apply R.
  - assert (E : z = le_val (count_up d 8)) by (cbn [FakeDrbg next_u64] in H; congruence). rewrite E. apply R.
Qed.
