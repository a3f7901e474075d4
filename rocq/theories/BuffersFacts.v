(** The server on any buffers that keep the trait contract (C69). *)
From Coq Require Import ZArith NArith List Lia Bool.
From Coq Require Import Init.Byte.
From Verif Require Import Prelude Errors Server ServerSpec Buffers BuffersSpec BuffersProofs ServerFacts.
Import ListNotations.
Open Scope Z_scope.

Lemma at_unique bs offset n a b : bytes_at bs offset n a -> bytes_at bs offset n b -> a = b.
Proof. intros Ha Hb. apply at_slice in Ha, Hb. congruence. Qed.
Lemma put_at_slice bs offset data : (offset + length data <= length bs)%nat ->
  put_at bs offset data (firstn offset bs ++ data ++ skipn (offset + length data) bs).
Proof.
  intros L. exists (firstn offset bs), (firstn (length data) (skipn offset bs)),
    (skipn (length data) (skipn offset bs)).
  rewrite !firstn_skipn, skipn_skipn', firstn_length, firstn_length, skipn_length.
  repeat split; lia.
Qed.

(** A reader whose [read_into] keeps the contract and that does not override
    the provided methods keeps it altogether. *)
Lemma provided_reads {R} (l : R -> nat) (into : R -> nat -> list byte -> outcome unit (list byte)) content :
  (forall r, l r = length (content r)) ->
  (forall r offset out, into r offset out
     = if (offset + length out <=? length (content r))%nat
       then Ok (firstn (length out) (skipn offset (content r))) else Err tt) ->
  reads {| len := l; read_into := into; read_u16 := provided into 2; read_u32 := provided into 4 |} content.
Proof.
  intros Hl H. split; [exact Hl|]. split; [|split]; cbn [read_into read_u16 read_u32].
  - intros r offset out L. rewrite H, (proj2 (Nat.leb_le _ _) L). eexists. split; [reflexivity|]. now apply slice_at.
  - intros r offset out L. rewrite H. now apply Nat.leb_gt in L as ->.
  - intros r offset. unfold provided. rewrite !H, !repeat_length.
    repeat split; intros; [rewrite (proj2 (Nat.leb_le _ _) (at_le _ _ _ _ H0))|apply Nat.leb_gt in H0 as ->; reflexivity
                          |rewrite (proj2 (Nat.leb_le _ _) (at_le _ _ _ _ H0))|apply Nat.leb_gt in H0 as ->; reflexivity];
      apply at_slice in H0 as ->; reflexivity.
Qed.

(** *** A buffer in two pieces, whose callbacks get a zeroed scratch slice *)
Definition pieces : Type := list byte * list byte.
Definition joined (p : pieces) : list byte := fst p ++ snd p.
Definition pieces_into (p : pieces) (offset : nat) (out : list byte) : outcome unit (list byte) :=
  let n := length out in
  if (offset + n <=? length (fst p) + length (snd p))%nat
  then Ok (firstn n (skipn offset (fst p))
           ++ firstn (n - (length (fst p) - offset)) (skipn (offset - length (fst p)) (snd p)))
  else Err tt.
Definition pieces_reader : read_buffer pieces :=
  {| len := fun p => length (fst p) + length (snd p); read_into := pieces_into;
     read_u16 := provided pieces_into 2; read_u32 := provided pieces_into 4 |}%nat.
Definition pieces_put (p : pieces) (offset : nat) (data : list byte) : pieces :=
  let new := firstn offset (joined p) ++ data ++ skipn (offset + length data) (joined p) in
  (firstn (length (fst p)) new, skipn (length (fst p)) new).
Definition pieces_writer : write_buffer pieces := {|
  reading := pieces_reader;
  write := fun p offset data =>
    if (offset + length data <=? length (joined p))%nat then (pieces_put p offset data, Ok tt) else (p, Err tt);
  call_back := fun A p offset size f =>
    if (offset + size <=? length (joined p))%nat
    then let '(a, data) := f (repeat x00 size) in (pieces_put p offset data, Ok a)
    else (p, Err tt)
|}.

(** ** C69 *)
(** The implementations for byte slices, the only ones in the crate, keep the
    contract. *)
Theorem c69_slices :
  reads slice_reader (fun b => b) /\ writes slice_writer (fun b => b).
Proof.
  assert (R : reads slice_reader (fun b => b)).
  { apply provided_reads; [reflexivity|]. intros. unfold slice_read.
    destruct (_ <=? _)%nat; reflexivity. }
  split; [exact R|]. split; [exact R|]. cbn [write call_back slice_writer].
  unfold slice_write, slice_write_callback. split; [|split; [|split]]; intros.
  - rewrite (proj2 (Nat.leb_le _ _) H). eexists. split; [reflexivity|].
    unfold overwrite. rewrite skipn_skipn'. now apply put_at_slice.
  - apply Nat.leb_gt in H as ->. eauto.
  - rewrite (proj2 (Nat.leb_le _ _) H). set (dest := firstn size (skipn offset w)).
    assert (L : length dest = size) by (unfold dest; rewrite firstn_length, skipn_length; lia).
    specialize (H0 dest L). destruct (f dest) as [a out] eqn:E. exists (firstn offset w ++ out ++ skipn (offset + size) w), dest.
    rewrite E. split; [exact L|]. split; [reflexivity|]. cbn [snd] in *. rewrite <- H0. apply put_at_slice. lia.
  - apply Nat.leb_gt in H as ->. eauto.
Qed.

(** Any two buffer types whose values stand for byte strings ([rcont], [wcont])
    and that keep the contract: the server does what it does for those byte
    strings, for every request.  The generator must not look at what it
    overwrites (C58). *)
Theorem c69_separate D X R W (dr : Drbg D) (es : EntropySource X) (ri : read_buffer R) (wi : write_buffer W)
    rcont wcont c (request : R) (resp : W) :
  reads ri rcont -> writes wi wcont -> wf_drbg dr -> ignores_contents dr ->
  exists w, separate_any dr es ri wi c request resp
    = (fst (fst (serve dr es c (Separate (rcont request) (wcont resp)))), w,
       snd (serve dr es c (Separate (rcont request) (wcont resp))))
  /\ (snd (serve dr es c (Separate (rcont request) (wcont resp))) <> Panic ->
      wcont w = snd (fst (serve dr es c (Separate (rcont request) (wcont resp))))).
Proof.
  intros Hr Hw Hd Hi. pose proof (separate_any_sim dr es ri wi rcont wcont c request resp Hr Hw Hd Hi) as H.
  destruct (separate_any dr es ri wi c request resp) as [[c' w'] o].
  cbn [serve]. destruct (execute_command_separate dr es c (rcont request) (wcont resp)) as [[c'' b] o'].
  destruct H as (-> & -> & H). exists w'. auto.
Qed.

(** The same in place. *)
Theorem c69_in_place D X W (dr : Drbg D) (es : EntropySource X) (wi : write_buffer W)
    wcont c (in_out : W) n :
  writes wi wcont -> wf_drbg dr -> ignores_contents dr ->
  exists w, in_place_any dr es wi c in_out n
    = (fst (fst (serve dr es c (InPlace (wcont in_out) n))), w, snd (serve dr es c (InPlace (wcont in_out) n)))
  /\ (snd (serve dr es c (InPlace (wcont in_out) n)) <> Panic ->
      wcont w = snd (fst (serve dr es c (InPlace (wcont in_out) n)))).
Proof.
  intros Hw Hd Hi. pose proof (in_place_any_sim dr es wi wcont c in_out n Hw Hd Hi) as H.
  destruct (in_place_any dr es wi c in_out n) as [[c' w'] o].
  cbn [serve]. destruct (execute_command_in_place dr es c (wcont in_out) n) as [[c'' b] o'].
  destruct H as (-> & -> & H). exists w'. auto.
Qed.

(** Hence nothing depends on how a buffer is represented. *)
Theorem c69_representation D X R R' W W' (dr : Drbg D) (es : EntropySource X)
    (ri : read_buffer R) (ri' : read_buffer R') (wi : write_buffer W) (wi' : write_buffer W')
    rcont rcont' wcont wcont' c (request : R) (request' : R') (resp : W) (resp' : W') :
  reads ri rcont -> reads ri' rcont' -> writes wi wcont -> writes wi' wcont' ->
  wf_drbg dr -> ignores_contents dr ->
  rcont request = rcont' request' -> wcont resp = wcont' resp' ->
  let '(c1, w1, o1) := separate_any dr es ri wi c request resp in
  let '(c2, w2, o2) := separate_any dr es ri' wi' c request' resp' in
  c1 = c2 /\ o1 = o2 /\ (o1 <> Panic -> wcont w1 = wcont' w2).
Proof.
  intros Hr Hr' Hw Hw' Hd Hi E1 E2.
  destruct (c69_separate D X R W dr es ri wi rcont wcont c request resp Hr Hw Hd Hi) as (w1 & -> & P1).
  destruct (c69_separate D X R' W' dr es ri' wi' rcont' wcont' c request' resp' Hr' Hw' Hd Hi) as (w2 & -> & P2).
  rewrite E1, E2 in *. split; [reflexivity|]. split; [reflexivity|].
  intros H. rewrite P1, P2; auto.
Qed.

(** *** The hypotheses can be met *)
Lemma pieces_keep_contract : reads pieces_reader joined /\ writes pieces_writer joined.
Proof.
  assert (R : reads pieces_reader joined).
  { apply provided_reads; intros; unfold joined; [now rewrite app_length|]. unfold pieces_into.
    rewrite app_length. destruct (_ <=? _)%nat; [|reflexivity].
    rewrite skipn_app, firstn_app, skipn_length. reflexivity. }
  assert (J : forall p offset data, joined (pieces_put p offset data)
    = firstn offset (joined p) ++ data ++ skipn (offset + length data) (joined p)).
  { intros. unfold pieces_put, joined at 1. cbn [fst snd]. apply firstn_skipn. }
  split; [exact R|]. split; [exact R|]. cbn [write call_back pieces_writer]. split; [|split; [|split]]; intros.
  - rewrite (proj2 (Nat.leb_le _ _) H). eexists. split; [reflexivity|]. rewrite J. now apply put_at_slice.
  - apply Nat.leb_gt in H as ->. eauto.
  - rewrite (proj2 (Nat.leb_le _ _) H). specialize (H0 (repeat x00 size) (repeat_length _ _)).
    destruct (f (repeat x00 size)) as [a out] eqn:E. exists (pieces_put w offset out), (repeat x00 size).
    rewrite E, repeat_length. split; [reflexivity|]. split; [reflexivity|]. cbn [snd] in *.
    rewrite J. apply put_at_slice. lia.
  - apply Nat.leb_gt in H as ->. eauto.
Qed.
Lemma fake_ignores : wf_drbg FakeDrbg /\ ignores_contents FakeDrbg.
Proof.
  split.
  - intros d ai dest d' out r E. cbn in E. injection E as _ <- _. apply count_up_length.
  - intros d ai a b L. cbn. now rewrite L.
Qed.
(** A request in two pieces, answered into two pieces with the split inside
    the header. *)
Example c69_example :
  let request : pieces := (firstn 3 get12, skipn 3 get12) in
  let resp : pieces := (repeat xaa 4, repeat xbb 20) in
  separate_any FakeDrbg FakeEntropy pieces_reader pieces_writer fake request resp
  = ({| drbg := 12; entropy := tt |},
     ([x80; x01; x00; x00],
      [x00; x16; x00; x00; x00; x00; x01; x02; x03; x04; x05; x06; x07; x08; x09; x0a; x0b; x0c; xbb; xbb]),
     Ok 22%nat).
Proof. vm_compute. reflexivity. Qed.
Example c69_example_in_place :
  in_place_any FakeDrbg FakeEntropy pieces_writer fake (firstn 3 get12, skipn 3 get12 ++ repeat xbb 11) 12
  = ({| drbg := 12; entropy := tt |},
     ([x80; x01; x00],
      [x00; x00; x16; x00; x00; x00; x00; x01; x02; x03; x04; x05; x06; x07; x08; x09; x0a; x0b; x0c; xbb]),
     Ok 22%nat).
Proof. vm_compute. reflexivity. Qed.

(** Without that condition on the generator the representation shows: a
    generator that adds to what it finds. *)
Definition AddDrbg : Drbg unit := {|
  entropy_default := []; nonce_default := [];
  instantiate := fun _ _ _ => Ok tt; reseed := fun d _ _ => (d, Ok tt);
  next_u32 := fun d _ => (d, Ok 0); next_u64 := fun d _ => (d, Ok 0);
  fill_bytes := fun d _ dest => (d, map (fun b => zb (bz b + 1)) dest, Ok tt);
  requires_reseeding := fun d => (d, false)
|}.
Example c69_needs_filling :
  let c := {| drbg := tt; entropy := tt |} in
  let resp := repeat xbb 22 in
  joined (snd (fst (separate_any AddDrbg FakeEntropy pieces_reader pieces_writer c (get12, []) (resp, []))))
  <> snd (fst (separate_any AddDrbg FakeEntropy slice_reader slice_writer c get12 resp)).
Proof. vm_compute. congruence. Qed.
