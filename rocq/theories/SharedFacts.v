(** Requests that others write to while they are executed (C100). *)
From Coq Require Import ZArith NArith List Lia Bool.
From Coq Require Import Init.Byte.
From Verif Require Import Prelude Errors Server ServerSpec ServerProofs ServerFacts Buffers BuffersSpec BuffersProofs BuffersFacts Shared.
Import ListNotations.
Open Scope Z_scope.

(** A reader over memory of a fixed size, in which anything can change at any
    time: a read within the size returns some bytes, one beyond it an error. *)
Definition fetches {R} (ri : shared_read R) (size : R -> nat) : Prop :=
  (forall r, let '(r', n) := sh_len ri r in n = size r /\ size r' = size r)
  /\ (forall r offset k, let '(r', o) := sh_into ri r offset k in
        size r' = size r
        /\ ((offset + k <= size r)%nat -> exists bs, o = Ok bs /\ length bs = k)
        /\ ((size r < offset + k)%nat -> o = Err tt))
  /\ (forall r offset, let '(r', o) := sh_u16 ri r offset in
        size r' = size r
        /\ ((offset + 2 <= size r)%nat -> exists z, o = Ok z /\ 0 <= z < 2 ^ 16)
        /\ ((size r < offset + 2)%nat -> o = Err tt))
  /\ (forall r offset, let '(r', o) := sh_u32 ri r offset in
        size r' = size r
        /\ ((offset + 4 <= size r)%nat -> exists z, o = Ok z /\ 0 <= z < 2 ^ 32)
        /\ ((size r < offset + 4)%nat -> o = Err tt)).
(** What can become of such a reader while it is read. *)
Inductive while_read {R} (ri : shared_read R) : R -> R -> Prop :=
| unread r : while_read ri r r
| after_len r r' : while_read ri r r' -> while_read ri r (fst (sh_len ri r'))
| after_into r r' offset k : while_read ri r r' -> while_read ri r (fst (sh_into ri r' offset k))
| after_u16 r r' offset : while_read ri r r' -> while_read ri r (fst (sh_u16 ri r' offset))
| after_u32 r r' offset : while_read ri r r' -> while_read ri r (fst (sh_u32 ri r' offset)).

(** *** A request made of the fields read *)
Definition made (L : nat) (z0 z1 z2 z3 : Z) : list byte :=
  firstn L (be_bytes 2 z0 ++ be_bytes 4 z1 ++ be_bytes 4 z2 ++ be_bytes 2 z3 ++ repeat x00 L).
Lemma made_length L z0 z1 z2 z3 : length (made L z0 z1 z2 z3) = L.
Proof. unfold made. rewrite firstn_length, !app_length, !be_bytes_length, repeat_length. lia. Qed.
Lemma firstn_skipn_firstn {A} (n k L : nat) (l : list A) : (n + k <= L)%nat ->
  firstn k (skipn n (firstn L l)) = firstn k (skipn n l).
Proof.
  intros H. rewrite skipn_firstn_comm, firstn_firstn. f_equal. lia.
Qed.
Lemma made_reads L z0 z1 z2 z3 :
  slice_read (made L z0 z1 z2 z3) 0 2 = (if (2 <=? L)%nat then Some (be_bytes 2 z0) else None)
  /\ slice_read (made L z0 z1 z2 z3) 2 4 = (if (6 <=? L)%nat then Some (be_bytes 4 z1) else None)
  /\ slice_read (made L z0 z1 z2 z3) 6 4 = (if (10 <=? L)%nat then Some (be_bytes 4 z2) else None)
  /\ slice_read (made L z0 z1 z2 z3) 10 2 = (if (12 <=? L)%nat then Some (be_bytes 2 z3) else None).
Proof.
  unfold slice_read. rewrite made_length. cbn [Nat.add].
  repeat split; match goal with |- context [(?a <=? L)%nat] => destruct (Nat.leb_spec a L) end;
    try reflexivity; f_equal; unfold made; rewrite firstn_skipn_firstn by lia; reflexivity.
Qed.

Section Same.
Context {D X : Type} (dr : Drbg D) (es : EntropySource X).

(** What a read gives, on a reader whose memory has [L] bytes. *)
Definition given (L : nat) (last : nat) (k : nat) (o : outcome unit Z) (z : Z) : Prop :=
  0 <= z < pow256 k /\ o = if (last <=? L)%nat then Ok z else Err tt.

(** The server asks [len] and then for four fields, each once; so it acts as on
    a slice with these fields. *)
Lemma acts_as {B W} (bb : shared_both B W) (wi : write_buffer W) (c : context D X) (b : B) (L : nat) b0 b1 b2 b3 b4 o0 o1 o2 o3 z0 z1 z2 z3 :
  (forall b w, sh_get bb (sh_put bb b w) = w) ->
  sh_len (sh_request bb) b = (b0, L) ->
  sh_u16 (sh_request bb) b0 0 = (b1, o0) -> given L 2 2 o0 z0 ->
  sh_u32 (sh_request bb) b1 2 = (b2, o1) -> given L 6 4 o1 z1 ->
  sh_u32 (sh_request bb) b2 6 = (b3, o2) -> given L 10 4 o2 z2 ->
  sh_u16 (sh_request bb) b3 10 = (b4, o3) -> given L 12 2 o3 z3 ->
  exists b', In b' [b1; b2; b3; b4]
  /\ answer_shared dr es bb wi c b = separate_any dr es slice_reader wi c (made L z0 z1 z2 z3) (sh_get bb b').
Proof.
  intros GP EL E0 [R0 G0] E1 [R1 G1] E2 [R2 G2] E3 [R3 G3].
  destruct (made_reads L z0 z1 z2 z3) as (S0 & S1 & S2 & S3).
  unfold answer_shared, execute_shared, separate_any, answer_any, execute_any, sh_take, take. rewrite EL.
  cbn [bufs request_offset response_offset]. rewrite E0, G0.
  cbn [separate_both request len read_u16 read_u32 slice_reader fst snd get_response put_response].
  unfold provided. cbn [repeat length bufs fst snd request_offset response_offset]. rewrite S0, made_length.
  destruct (2 <=? L)%nat eqn:L0.
  2:{ exists b1. split; [cbn; auto|]. reflexivity. }
  cbn [omap bufs request_offset response_offset Nat.add fst snd]. rewrite E1, G1, S1.
  destruct (6 <=? L)%nat eqn:L1.
  2:{ exists b2. split; [cbn; auto|]. reflexivity. }
  cbn [omap bufs request_offset response_offset Nat.add fst snd].
  replace (be_val (be_bytes 4 z1)) with z1 by (rewrite be_val_bytes, Z.mod_small; [reflexivity|assumption]).
  destruct (negb (z1 =? Z.of_nat L)).
  { exists b2. split; [cbn; auto|]. reflexivity. }
  rewrite E2, G2, S2.
  destruct (10 <=? L)%nat eqn:L2.
  2:{ exists b3. split; [cbn; auto|]. reflexivity. }
  cbn [omap bufs request_offset response_offset Nat.add fst snd].
  replace (be_val (be_bytes 4 z2)) with z2 by (rewrite be_val_bytes, Z.mod_small; [reflexivity|assumption]).
  destruct (z2 =? cc_GetRandom).
  2:{ exists b3. split; [cbn; auto|]. reflexivity. }
  unfold get_random_shared, get_random_any, sh_take, take. cbn [bufs request_offset response_offset].
  rewrite E3, G3. cbn [separate_both request read_u16 slice_reader fst snd get_response put_response].
  unfold provided. cbn [repeat length]. rewrite S3.
  exists b4. split; [cbn; auto|].
  destruct (12 <=? L)%nat; [|reflexivity].
  cbn [omap bufs request_offset response_offset Nat.add fst snd].
  replace (be_val (be_bytes 2 z3)) with z3 by (rewrite be_val_bytes, Z.mod_small; [reflexivity|assumption]).
  destruct (call_back wi (sh_get bb b4) 10 (Z.to_nat z3) (get_random_or_failure dr es c)) as [w [[c' r]|[]|]];
    cbn [bufs request_offset response_offset fst snd]; rewrite ?GP; try reflexivity.
  destruct r as [u|e|]; rewrite ?GP; try reflexivity.
  destruct (write wi w 0 (be_bytes 2 32769)) as [w1 [u1|[]|]]; cbn [fst snd]; rewrite ?GP; try reflexivity.
  destruct (write wi w1 2 _) as [w2 [u2|[]|]]; cbn [fst snd]; rewrite ?GP; try reflexivity.
  destruct (write wi w2 6 (be_bytes 4 0)) as [w3 [u3|[]|]]; cbn [fst snd]; rewrite ?GP; reflexivity.
Qed.
Lemma given_of L last k o : (0 < k)%nat ->
  ((last <= L)%nat -> exists z, o = Ok z /\ 0 <= z < pow256 k) -> ((L < last)%nat -> o = Err tt) ->
  exists z, given L last k o z.
Proof.
  intros K H1 H2. unfold given. destruct (Nat.leb_spec last L) as [H|H].
  - destruct (H1 H) as (z & -> & R). eauto.
  - exists 0. split; [|auto]. pose proof (pow256_pos k). lia.
Qed.
End Same.

(** ** C100 *)
(** Whatever others do to the request meanwhile, the command is executed as some
    one request of that length, which does not change, is executed from a slice;
    however the response is written. *)
Theorem c100_separate D X R W (dr : Drbg D) (es : EntropySource X) (ri : shared_read R) (wi : write_buffer W)
    size c (request : R) (resp : W) :
  fetches ri size ->
  exists req, length req = size request
  /\ separate_shared dr es ri wi c request resp = separate_any dr es slice_reader wi c req resp.
Proof.
  intros (FL & _ & F16 & F32). unfold separate_shared.
  specialize (FL request). destruct (sh_len ri request) as [r0 L] eqn:EL. destruct FL as [-> SL].
  pose proof (F16 r0 0%nat) as A0. destruct (sh_u16 ri r0 0) as [r1 o0] eqn:E0. destruct A0 as (S1 & A0 & B0).
  pose proof (F32 r1 2%nat) as A1. destruct (sh_u32 ri r1 2) as [r2 o1] eqn:E1. destruct A1 as (S2 & A1 & B1).
  pose proof (F32 r2 6%nat) as A2. destruct (sh_u32 ri r2 6) as [r3 o2] eqn:E2. destruct A2 as (S3 & A2 & B2).
  pose proof (F16 r3 10%nat) as A3. destruct (sh_u16 ri r3 10) as [r4 o3] eqn:E3. destruct A3 as (S4 & A3 & B3).
  rewrite S3, S2, S1, SL in A3, B3. rewrite S2, S1, SL in A2, B2. rewrite S1, SL in A1, B1. rewrite SL in A0, B0.
  destruct (given_of (size request) 2 2 o0 ltac:(lia) A0 B0) as [z0 G0].
  destruct (given_of (size request) 6 4 o1 ltac:(lia) A1 B1) as [z1 G1].
  destruct (given_of (size request) 10 4 o2 ltac:(lia) A2 B2) as [z2 G2].
  destruct (given_of (size request) 12 2 o3 ltac:(lia) A3 B3) as [z3 G3].
  exists (made (size request) z0 z1 z2 z3). split; [apply made_length|].
  destruct (acts_as dr es (separate_shared_both ri) wi c (request, resp) (size request)
    (r0, resp) (r1, resp) (r2, resp) (r3, resp) (r4, resp) o0 o1 o2 o3 z0 z1 z2 z3) as (b' & I & E).
  1: reflexivity.
  1: cbn; rewrite EL; reflexivity.
  1: cbn; rewrite E0; reflexivity.
  1: assumption.
  1: cbn; rewrite E1; reflexivity.
  1: assumption.
  1: cbn; rewrite E2; reflexivity.
  1: assumption.
  1: cbn; rewrite E3; reflexivity.
  1: assumption.
  rewrite E. cbn in I. intuition (subst b'; reflexivity).
Qed.

(** That request is put together from what was in the memory: each of the fields
    that are there was in it at some moment. *)
Theorem c100_moments D X R W (dr : Drbg D) (es : EntropySource X) (ri : shared_read R) (wi : write_buffer W)
    content c (request : R) (resp : W) :
  fetches ri (fun r => length (content r)) ->
  (forall r offset bs, bytes_at (content r) offset 2 bs -> snd (sh_u16 ri r offset) = Ok (be_val bs)) ->
  (forall r offset bs, bytes_at (content r) offset 4 bs -> snd (sh_u32 ri r offset) = Ok (be_val bs)) ->
  exists req, length req = length (content request)
  /\ (forall offset k, In (offset, k) [(0, 2); (2, 4); (6, 4); (10, 2)]%nat -> (offset + k <= length req)%nat ->
      exists r field, while_read ri request r
        /\ bytes_at (content r) offset k field /\ bytes_at req offset k field)
  /\ separate_shared dr es ri wi c request resp = separate_any dr es slice_reader wi c req resp.
Proof.
  intros (FL & _ & F16 & F32) C16 C32. unfold separate_shared.
  specialize (FL request). destruct (sh_len ri request) as [r0 L] eqn:EL. destruct FL as [-> SL].
  assert (P0 : while_read ri request r0).
  { replace r0 with (fst (sh_len ri request)) by (rewrite EL; reflexivity). constructor. constructor. }
  set (L := length (content request)) in *.
  assert (AT : forall r off k, (off + k <= length (content r))%nat ->
    bytes_at (content r) off k (firstn k (skipn off (content r)))).
  { intros r off k H. exists (firstn off (content r)), (skipn k (skipn off (content r))).
    rewrite firstn_skipn, firstn_skipn, !firstn_length, skipn_length. repeat split; lia. }
  (* one read *)
  assert (RD : forall (rd : R -> nat -> R * outcome unit Z) k,
    (rd = sh_u16 ri /\ k = 2%nat \/ rd = sh_u32 ri /\ k = 4%nat) ->
    forall r off, while_read ri request r -> length (content r) = L ->
    exists r' o z, rd r off = (r', o) /\ while_read ri request r' /\ length (content r') = L /\ given L (off + k) k o z
    /\ ((off + k <= L)%nat -> exists r'' field, while_read ri request r''
        /\ bytes_at (content r'') off k field /\ be_bytes k z = field)).
  { intros rd k RK r off P S.
    assert (Q : let '(r', o) := rd r off in length (content r') = length (content r)
                /\ ((off + k <= length (content r))%nat -> exists z, o = Ok z /\ 0 <= z < pow256 k)
                /\ ((length (content r) < off + k)%nat -> o = Err tt)).
    { destruct RK as [[-> ->]|[-> ->]]; [apply F16|apply F32]. }
    assert (Pn : while_read ri request (fst (rd r off))).
    { destruct RK as [[-> ->]|[-> ->]]; constructor; assumption. }
    assert (V : forall bs, bytes_at (content r) off k bs -> snd (rd r off) = Ok (be_val bs)).
    { destruct RK as [[-> ->]|[-> ->]]; [apply C16|apply C32]. }
    destruct (rd r off) as [r' o]. cbn [fst snd] in *. destruct Q as (S' & Q1 & Q2). rewrite S in *.
    destruct (Nat.le_gt_cases (off + k) L) as [H|H].
    - specialize (AT r off k ltac:(lia)). specialize (V _ AT). destruct (Q1 H) as (z & -> & Rz).
      injection V as ->. exists r', (Ok (be_val (firstn k (skipn off (content r))))), (be_val (firstn k (skipn off (content r)))).
      repeat split; try assumption; try lia.
      + rewrite (proj2 (Nat.leb_le _ _) H). reflexivity.
      + intros _. exists r, (firstn k (skipn off (content r))). split; [assumption|]. split; [assumption|].
        destruct AT as (? & ? & _ & _ & Lk). rewrite <- Lk at 1. apply be_bytes_val.
    - exists r', o, 0. rewrite (Q2 H). split; [reflexivity|]. split; [assumption|]. split; [assumption|].
      split; [split; [pose proof (pow256_pos k); lia|]|lia]. rewrite (proj2 (Nat.leb_gt _ _) H). reflexivity. }
  destruct (RD _ 2%nat ltac:(auto) r0 0%nat P0 SL) as (r1 & o0 & z0 & E0 & P1 & S1 & G0 & M0).
  destruct (RD _ 4%nat ltac:(auto) r1 2%nat P1 S1) as (r2 & o1 & z1 & E1 & P2 & S2 & G1 & M1).
  destruct (RD _ 4%nat ltac:(auto) r2 6%nat P2 S2) as (r3 & o2 & z2 & E2 & P3 & S3 & G2 & M2).
  destruct (RD _ 2%nat ltac:(auto) r3 10%nat P3 S3) as (r4 & o3 & z3 & E3 & P4 & S4 & G3 & M3).
  exists (made L z0 z1 z2 z3). split; [apply made_length|]. split.
  - rewrite made_length. destruct (made_reads L z0 z1 z2 z3) as (Q0 & Q1 & Q2 & Q3).
    assert (MB : forall off k bs, slice_read (made L z0 z1 z2 z3) off k = Some bs -> bytes_at (made L z0 z1 z2 z3) off k bs).
    { intros off k bs. unfold slice_read. destruct (Nat.leb_spec (off + k) (length (made L z0 z1 z2 z3))) as [H|]; [|discriminate].
      intros Q. injection Q as <-. exists (firstn off (made L z0 z1 z2 z3)), (skipn k (skipn off (made L z0 z1 z2 z3))).
      rewrite firstn_skipn, firstn_skipn, !firstn_length, skipn_length. repeat split; lia. }
    intros off k I H. cbn [In] in I.
    destruct I as [I|[I|[I|[I|[]]]]]; injection I as <- <-.
    + destruct (M0 H) as (r & f & Pr & Bf & <-). exists r, (be_bytes 2 z0). split; [assumption|]. split; [assumption|].
      apply MB. rewrite Q0. cbn [Nat.add] in H. rewrite (proj2 (Nat.leb_le _ _) H). reflexivity.
    + destruct (M1 H) as (r & f & Pr & Bf & <-). exists r, (be_bytes 4 z1). split; [assumption|]. split; [assumption|].
      apply MB. rewrite Q1. cbn [Nat.add] in H. rewrite (proj2 (Nat.leb_le _ _) H). reflexivity.
    + destruct (M2 H) as (r & f & Pr & Bf & <-). exists r, (be_bytes 4 z2). split; [assumption|]. split; [assumption|].
      apply MB. rewrite Q2. cbn [Nat.add] in H. rewrite (proj2 (Nat.leb_le _ _) H). reflexivity.
    + destruct (M3 H) as (r & f & Pr & Bf & <-). exists r, (be_bytes 2 z3). split; [assumption|]. split; [assumption|].
      apply MB. rewrite Q3. cbn [Nat.add] in H. rewrite (proj2 (Nat.leb_le _ _) H). reflexivity.
  - destruct (acts_as dr es (separate_shared_both ri) wi c (request, resp) L
      (r0, resp) (r1, resp) (r2, resp) (r3, resp) (r4, resp) o0 o1 o2 o3 z0 z1 z2 z3) as (b' & I & E).
    1: reflexivity.
    1: cbn; rewrite EL; reflexivity.
    1: cbn; rewrite E0; reflexivity.
    1: assumption.
    1: cbn; rewrite E1; reflexivity.
    1: assumption.
    1: cbn; rewrite E2; reflexivity.
    1: assumption.
    1: cbn; rewrite E3; reflexivity.
    1: assumption.
    rewrite E. cbn in I. intuition (subst b'; reflexivity).
Qed.

(** In place, too: as some one request from a slice, with the response written to
    the buffer as it is after the reads. *)
Theorem c100_in_place D X W (dr : Drbg D) (es : EntropySource X) (rw : shared_read W) (wi : write_buffer W)
    size c (in_out : W) n :
  fetches rw size ->
  exists req w, length req = Nat.min n (size in_out) /\ while_read rw in_out w /\ size w = size in_out
  /\ in_place_shared dr es rw wi c in_out n = separate_any dr es slice_reader wi c req w.
Proof.
  intros (FL & FI & _ & _). unfold in_place_shared.
  specialize (FL in_out). destruct (sh_len rw in_out) as [w0 L] eqn:EL. destruct FL as [-> SL].
  set (L := Nat.min n (size in_out)) in *.
  assert (LL : (L <= size in_out)%nat) by (unfold L; lia). clearbody L.
  assert (P0 : while_read rw in_out w0).
  { replace w0 with (fst (sh_len rw in_out)) by (rewrite EL; reflexivity). constructor. constructor. }
  set (bb := inout_shared_both rw).
  (* one read *)
  assert (RD : forall w off k, while_read rw in_out w -> size w = size in_out -> (0 < k)%nat ->
    exists w' o z, sh_provided (sh_into (sh_request bb)) k (w, L) off = ((w', L), o)
    /\ while_read rw in_out w' /\ size w' = size in_out /\ given L (off + k) k o z).
  { intros w off k P S K. unfold sh_provided. cbn [bb inout_shared_both sh_request sh_into fst snd].
    destruct (Nat.ltb_spec L (off + k)) as [H|H].
    - exists w, (Err tt), 0. repeat split; try assumption; [lia|pose proof (pow256_pos k); lia|].
      rewrite (proj2 (Nat.leb_gt _ _) H). reflexivity.
    - pose proof (FI w off k) as F. destruct (sh_into rw w off k) as [w' o] eqn:E. destruct F as (S' & F1 & _).
      destruct F1 as (bs & -> & Lb); [lia|].
      exists w', (Ok (be_val bs)), (be_val bs). split; [reflexivity|].
      split; [replace w' with (fst (sh_into rw w off k)) by (rewrite E; reflexivity); constructor; assumption|].
      split; [congruence|]. split; [rewrite <- Lb; apply be_val_range|].
      rewrite (proj2 (Nat.leb_le _ _) H). reflexivity. }
  destruct (RD w0 0%nat 2%nat P0 SL ltac:(lia)) as (w1 & o0 & z0 & E0 & P1 & S1 & G0).
  destruct (RD w1 2%nat 4%nat P1 S1 ltac:(lia)) as (w2 & o1 & z1 & E1 & P2 & S2 & G1).
  destruct (RD w2 6%nat 4%nat P2 S2 ltac:(lia)) as (w3 & o2 & z2 & E2 & P3 & S3 & G2).
  destruct (RD w3 10%nat 2%nat P3 S3 ltac:(lia)) as (w4 & o3 & z3 & E3 & P4 & S4 & G3).
  destruct (acts_as dr es bb wi c (w0, L) L (w0, L) (w1, L) (w2, L) (w3, L) (w4, L) o0 o1 o2 o3 z0 z1 z2 z3)
    as (b' & I & E); try reflexivity; try assumption.
  exists (made L z0 z1 z2 z3), (fst b'). split; [apply made_length|].
  cbn in I. rewrite E. intuition (subst b'; auto).
Qed.

Theorem c100_in_place_moments D X W (dr : Drbg D) (es : EntropySource X) (rw : shared_read W) (wi : write_buffer W)
    content c (in_out : W) n :
  fetches rw (fun w => length (content w)) ->
  (forall w offset k bs, bytes_at (content w) offset k bs -> snd (sh_into rw w offset k) = Ok bs) ->
  exists req w, length req = Nat.min n (length (content in_out))
  /\ (forall offset k, In (offset, k) [(0, 2); (2, 4); (6, 4); (10, 2)]%nat -> (offset + k <= length req)%nat ->
      exists w' field, while_read rw in_out w'
        /\ bytes_at (content w') offset k field /\ bytes_at req offset k field)
  /\ while_read rw in_out w /\ length (content w) = length (content in_out)
  /\ in_place_shared dr es rw wi c in_out n = separate_any dr es slice_reader wi c req w.
Proof.
  intros (FL & FI & _ & _) CI. unfold in_place_shared.
  specialize (FL in_out). destruct (sh_len rw in_out) as [w0 L] eqn:EL. destruct FL as [-> SL].
  set (L := Nat.min n (length (content in_out))) in *.
  assert (LL : (L <= length (content in_out))%nat) by (unfold L; lia). clearbody L.
  assert (P0 : while_read rw in_out w0).
  { replace w0 with (fst (sh_len rw in_out)) by (rewrite EL; reflexivity). constructor. constructor. }
  set (bb := inout_shared_both rw).
  assert (AT : forall r off k, (off + k <= length (content r))%nat ->
    bytes_at (content r) off k (firstn k (skipn off (content r)))).
  { intros r off k H. exists (firstn off (content r)), (skipn k (skipn off (content r))).
    rewrite firstn_skipn, firstn_skipn, !firstn_length, skipn_length. repeat split; lia. }
  (* one read *)
  assert (RD : forall w off k, while_read rw in_out w -> length (content w) = length (content in_out) -> (0 < k)%nat ->
    exists w' o z, sh_provided (sh_into (sh_request bb)) k (w, L) off = ((w', L), o)
    /\ while_read rw in_out w' /\ length (content w') = length (content in_out) /\ given L (off + k) k o z
    /\ ((off + k <= L)%nat -> exists w'' field, while_read rw in_out w''
        /\ bytes_at (content w'') off k field /\ be_bytes k z = field)).
  { intros w off k P S K. unfold sh_provided. cbn [bb inout_shared_both sh_request sh_into fst snd].
    destruct (Nat.ltb_spec L (off + k)) as [H|H].
    - exists w, (Err tt), 0. repeat split; try assumption; try lia; [pose proof (pow256_pos k); lia|].
      rewrite (proj2 (Nat.leb_gt _ _) H). reflexivity.
    - specialize (AT w off k ltac:(lia)). pose proof (CI _ _ _ _ AT) as V.
      pose proof (FI w off k) as F. destruct (sh_into rw w off k) as [w' o] eqn:E. destruct F as (S' & F1 & _).
      cbn [snd] in V. subst o. set (bs := firstn k (skipn off (content w))) in *.
      assert (Lb : length bs = k) by (destruct AT as (? & ? & _ & _ & Lk); exact Lk).
      exists w', (Ok (be_val bs)), (be_val bs). split; [reflexivity|].
      split; [replace w' with (fst (sh_into rw w off k)) by (rewrite E; reflexivity); constructor; assumption|].
      split; [congruence|]. split.
      + split; [rewrite <- Lb; apply be_val_range|].
        rewrite (proj2 (Nat.leb_le _ _) H). reflexivity.
      + intros _. exists w, bs. split; [assumption|]. split; [assumption|]. rewrite <- Lb at 1. apply be_bytes_val. }
  destruct (RD w0 0%nat 2%nat P0 SL ltac:(lia)) as (w1 & o0 & z0 & E0 & P1 & S1 & G0 & M0).
  destruct (RD w1 2%nat 4%nat P1 S1 ltac:(lia)) as (w2 & o1 & z1 & E1 & P2 & S2 & G1 & M1).
  destruct (RD w2 6%nat 4%nat P2 S2 ltac:(lia)) as (w3 & o2 & z2 & E2 & P3 & S3 & G2 & M2).
  destruct (RD w3 10%nat 2%nat P3 S3 ltac:(lia)) as (w4 & o3 & z3 & E3 & P4 & S4 & G3 & M3).
  destruct (acts_as dr es bb wi c (w0, L) L (w0, L) (w1, L) (w2, L) (w3, L) (w4, L) o0 o1 o2 o3 z0 z1 z2 z3)
    as (b' & I & E); try reflexivity; try assumption.
  exists (made L z0 z1 z2 z3), (fst b'). split; [apply made_length|]. split.
  - rewrite made_length. destruct (made_reads L z0 z1 z2 z3) as (Q0 & Q1 & Q2 & Q3).
    assert (MB : forall off k bs, slice_read (made L z0 z1 z2 z3) off k = Some bs -> bytes_at (made L z0 z1 z2 z3) off k bs).
    { intros off k bs. unfold slice_read. destruct (Nat.leb_spec (off + k) (length (made L z0 z1 z2 z3))) as [H|]; [|discriminate].
      intros Q. injection Q as <-. exists (firstn off (made L z0 z1 z2 z3)), (skipn k (skipn off (made L z0 z1 z2 z3))).
      rewrite firstn_skipn, firstn_skipn, !firstn_length, skipn_length. repeat split; lia. }
    intros off k J H. cbn [In] in J.
    destruct J as [J|[J|[J|[J|[]]]]]; injection J as <- <-; cbn [Nat.add] in H.
    + destruct (M0 H) as (r & f & Pr & Bf & <-). exists r, (be_bytes 2 z0). split; [assumption|]. split; [assumption|].
      apply MB. rewrite Q0. rewrite (proj2 (Nat.leb_le _ _) H). reflexivity.
    + destruct (M1 H) as (r & f & Pr & Bf & <-). exists r, (be_bytes 4 z1). split; [assumption|]. split; [assumption|].
      apply MB. rewrite Q1. rewrite (proj2 (Nat.leb_le _ _) H). reflexivity.
    + destruct (M2 H) as (r & f & Pr & Bf & <-). exists r, (be_bytes 4 z2). split; [assumption|]. split; [assumption|].
      apply MB. rewrite Q2. rewrite (proj2 (Nat.leb_le _ _) H). reflexivity.
    + destruct (M3 H) as (r & f & Pr & Bf & <-). exists r, (be_bytes 2 z3). split; [assumption|]. split; [assumption|].
      apply MB. rewrite Q3. rewrite (proj2 (Nat.leb_le _ _) H). reflexivity.
  - cbn in I. rewrite E. intuition (subst b'; auto).
Qed.

(** So with buffers that keep the contract for writing, the answer, the state
    and the size are those that the server of C43 to C47 gives for that request. *)
Theorem c100_served D X R W (dr : Drbg D) (es : EntropySource X) (ri : shared_read R) (wi : write_buffer W)
    size wcont c (request : R) (resp : W) :
  fetches ri size -> writes wi wcont -> wf_drbg dr -> ignores_contents dr ->
  exists req w, length req = size request
  /\ separate_shared dr es ri wi c request resp
     = (fst (fst (serve dr es c (Separate req (wcont resp)))), w, snd (serve dr es c (Separate req (wcont resp))))
  /\ (snd (serve dr es c (Separate req (wcont resp))) <> Panic ->
      wcont w = snd (fst (serve dr es c (Separate req (wcont resp))))).
Proof.
  intros F Hw Hd Hi. destruct (c100_separate _ _ _ _ dr es ri wi size c request resp F) as (req & L & E).
  destruct (c69_separate _ _ _ _ dr es slice_reader wi (fun b => b) wcont c req resp (proj1 c69_slices) Hw Hd Hi)
    as (w & E' & H).
  exists req, w. rewrite E. auto.
Qed.

(** *** What is read *)
Inductive read_call := Len | Into (offset k : nat) | U16 (offset : nat) | U32 (offset : nat).
(** The same reader, noting what it is asked. *)
Definition watched {R} (ri : shared_read R) : shared_read (R * list read_call) := {|
  sh_len := fun r => let '(r', n) := sh_len ri (fst r) in ((r', snd r ++ [Len]), n);
  sh_into := fun r offset k => let '(r', o) := sh_into ri (fst r) offset k in ((r', snd r ++ [Into offset k]), o);
  sh_u16 := fun r offset => let '(r', o) := sh_u16 ri (fst r) offset in ((r', snd r ++ [U16 offset]), o);
  sh_u32 := fun r offset => let '(r', o) := sh_u32 ri (fst r) offset in ((r', snd r ++ [U32 offset]), o)
|}.
(** The request buffer after a command. *)
Definition request_after {D X R W} (dr : Drbg D) (es : EntropySource X) (ri : shared_read R) (wi : write_buffer W)
    (c : context D X) (request : R) (resp : W) : R :=
  fst (snd (fst (execute_shared dr es (separate_shared_both ri) wi c (request, resp)))).

(** The length is asked for once, and then the four fields, each once and in
    order, as far as needed; whatever the reader does. *)
Theorem c100_read_once D X R W (dr : Drbg D) (es : EntropySource X) (ri : shared_read R) (wi : write_buffer W)
    c (request : R) (resp : W) :
  exists k, snd (request_after dr es (watched ri) wi c (request, []) resp)
            = firstn k [Len; U16 0; U32 2; U32 6; U16 10].
Proof.
  unfold request_after, execute_shared, get_random_shared, sh_take.
  cbn [separate_shared_both sh_request sh_len sh_u16 sh_u32 watched sh_get sh_put fst snd app].
  destruct (sh_len ri request) as [r0 L]. cbn [bufs request_offset response_offset fst snd app].
  destruct (sh_u16 ri r0 0) as [r1 [z0|[]|]]; cbn [bufs request_offset response_offset fst snd app Nat.add].
  2-3: exists 2%nat; reflexivity.
  destruct (sh_u32 ri r1 2) as [r2 [z1|[]|]]; cbn [bufs request_offset response_offset fst snd app Nat.add].
  2-3: exists 3%nat; reflexivity.
  destruct (negb (z1 =? Z.of_nat L)); [exists 3%nat; reflexivity|].
  destruct (sh_u32 ri r2 6) as [r3 [z2|[]|]]; cbn [bufs request_offset response_offset fst snd app Nat.add].
  2-3: exists 4%nat; reflexivity.
  destruct (z2 =? cc_GetRandom).
  2:{ exists 4%nat; reflexivity. }
  destruct (sh_u16 ri r3 10) as [r4 [z3|[]|]]; cbn [bufs request_offset response_offset fst snd app Nat.add].
  2-3: exists 5%nat; reflexivity.
  exists 5%nat.
  destruct (call_back wi resp 10 (Z.to_nat z3) (get_random_or_failure dr es c)) as [w [[c' r]|[]|]];
    cbn [bufs request_offset response_offset fst snd]; try reflexivity.
  destruct r as [u|e|]; cbn [fst snd]; try reflexivity.
  destruct (write wi w 0 (be_bytes 2 32769)) as [w1 [u1|[]|]]; cbn [fst snd]; try reflexivity.
  destruct (write wi w1 2 _) as [w2 [u2|[]|]]; cbn [fst snd]; try reflexivity.
  destruct (write wi w2 6 (be_bytes 4 0)) as [w3 [u3|[]|]]; reflexivity.
Qed.

(** In place, too. *)
Definition beside {W T} (wi : write_buffer W) : write_buffer (W * T) := {|
  reading := {| len := fun p => len (reading wi) (fst p); read_into := fun p => read_into (reading wi) (fst p);
                read_u16 := fun p => read_u16 (reading wi) (fst p); read_u32 := fun p => read_u32 (reading wi) (fst p) |};
  write := fun p offset bs => let '(w, o) := write wi (fst p) offset bs in ((w, snd p), o);
  call_back := fun A p offset n f => let '(w, o) := call_back wi (fst p) offset n f in ((w, snd p), o)
|}.
Theorem c100_in_place_read_once D X W (dr : Drbg D) (es : EntropySource X) (rw : shared_read W) (wi : write_buffer W)
    c (in_out : W) n :
  exists k, snd (snd (fst (in_place_shared dr es (watched rw) (beside wi) c (in_out, []) n)))
            = firstn k [Len; Into 0 2; Into 2 4; Into 6 4; Into 10 2].
Proof.
  unfold in_place_shared. cbn [watched sh_len fst snd].
  destruct (sh_len rw in_out) as [w0 L]. cbn [app]. set (size := Nat.min n L).
  assert (FE : forall p err, snd (fst (fill_error_any (beside wi) p err)) = snd (p : W * list read_call)).
  { intros p err. unfold fill_error_any. cbn [beside write].
    repeat (destruct (write wi _ _ _) as [? [?|[]|]]; cbn [fst snd]; try reflexivity). }
  assert (AN : forall k p err, snd p = firstn k [Len; Into 0 2; Into 2 4; Into 6 4; Into 10 2] ->
    exists k, snd (snd (fst (let '(w, m) := fill_error_any (beside wi) p err in ((c, w, m) : context D X * _ * outcome unit nat))))
              = firstn k [Len; Into 0 2; Into 2 4; Into 6 4; Into 10 2]).
  { intros k p err E. exists k. pose proof (FE p err) as F. destruct (fill_error_any (beside wi) p err). cbn [fst snd] in *. congruence. }
  unfold answer_shared, execute_shared, get_random_shared, sh_take.
  cbn [inout_shared_both sh_request sh_len sh_u16 sh_u32 sh_into watched sh_get sh_put fst snd app bufs request_offset response_offset].
  unfold sh_provided. cbn [fst snd Nat.add].
  destruct (size <? 2)%nat; cbn [omap fst snd bufs request_offset response_offset].
  { apply (AN 1%nat). reflexivity. }
  destruct (sh_into rw w0 0 2) as [w1 [z0|[]|]]; cbn [omap bufs request_offset response_offset fst snd app Nat.add].
  2:{ apply (AN 2%nat). reflexivity. }
  2:{ exists 2%nat. reflexivity. }
  destruct (size <? 6)%nat; cbn [omap fst snd bufs request_offset response_offset].
  { apply (AN 2%nat). reflexivity. }
  destruct (sh_into rw w1 2 4) as [w2 [z1|[]|]]; cbn [omap bufs request_offset response_offset fst snd app Nat.add].
  2:{ apply (AN 3%nat). reflexivity. }
  2:{ exists 3%nat. reflexivity. }
  destruct (negb (be_val z1 =? Z.of_nat size)); [apply (AN 3%nat); reflexivity|].
  destruct (size <? 10)%nat; cbn [omap fst snd bufs request_offset response_offset].
  { apply (AN 3%nat). reflexivity. }
  destruct (sh_into rw w2 6 4) as [w3 [z2|[]|]]; cbn [omap bufs request_offset response_offset fst snd app Nat.add].
  2:{ apply (AN 4%nat). reflexivity. }
  2:{ exists 4%nat. reflexivity. }
  destruct (be_val z2 =? cc_GetRandom).
  2:{ apply (AN 4%nat). reflexivity. }
  destruct (size <? 12)%nat; cbn [omap fst snd bufs request_offset response_offset].
  { apply (AN 4%nat). reflexivity. }
  destruct (sh_into rw w3 10 2) as [w4 [z3|[]|]]; cbn [omap bufs request_offset response_offset fst snd app Nat.add].
  2:{ apply (AN 5%nat). reflexivity. }
  2:{ exists 5%nat. reflexivity. }
  cbn [beside call_back fst snd].
  destruct (call_back wi w4 10 (Z.to_nat (be_val z3)) (get_random_or_failure dr es c)) as [w [[c' r]|[]|]];
    cbn [bufs request_offset response_offset fst snd].
  2:{ apply (AN 5%nat). reflexivity. }
  2:{ exists 5%nat. reflexivity. }
  clear AN. exists 5%nat. set (calls := [Len; Into 0 2; Into 2 4; Into 6 4; Into 10 2]).
  assert (AN : forall p err, snd p = calls ->
    snd (snd (fst (let '(w, m) := fill_error_any (beside wi) p err in ((c', w, m) : context D X * _ * outcome unit nat)))) = calls).
  { intros p err E. pose proof (FE p err) as F. destruct (fill_error_any (beside wi) p err). cbn [fst snd] in *. congruence. }
  cbn [firstn]. fold calls.
  destruct r as [u|e|]; cbn [fst snd]; [|apply AN; reflexivity|reflexivity].
  cbn [beside write fst snd].
  destruct (write wi w 0 (be_bytes 2 32769)) as [p1 [u1|[]|]]; cbn [fst snd]; [|apply AN; reflexivity|reflexivity].
  destruct (write wi p1 2 _) as [p2 [u2|[]|]]; cbn [fst snd]; [|apply AN; reflexivity|reflexivity].
  destruct (write wi p2 6 (be_bytes 4 0)) as [p3 [u3|[]|]]; cbn [fst snd]; [reflexivity|apply AN; reflexivity|reflexivity].
Qed.

(** A request that does not change is read as in C69. *)
Definition still {R} (ri : read_buffer R) : shared_read R := {|
  sh_len := fun r => (r, len ri r);
  sh_into := fun r offset k => (r, read_into ri r offset (repeat x00 k));
  sh_u16 := fun r offset => (r, read_u16 ri r offset);
  sh_u32 := fun r offset => (r, read_u32 ri r offset)
|}.
Theorem c100_still D X R W (dr : Drbg D) (es : EntropySource X) (ri : read_buffer R) (wi : write_buffer W)
    c (rq : R) (resp : W) :
  separate_shared dr es (still ri) wi c rq resp = separate_any dr es ri wi c rq resp.
Proof.
  unfold separate_shared, separate_any, answer_shared, answer_any, execute_shared, execute_any, get_random_shared, get_random_any,
    sh_take, take.
  cbn [separate_shared_both sh_request sh_len sh_u16 sh_u32 still sh_get sh_put fst snd
       separate_both request len read_u16 read_u32 get_response put_response bufs request_offset response_offset].
  destruct (read_u16 ri rq 0) as [z0|[]|]; cbn [bufs request_offset response_offset fst snd Nat.add]; try reflexivity.
  destruct (read_u32 ri rq 2) as [z1|[]|]; cbn [bufs request_offset response_offset fst snd Nat.add]; try reflexivity.
  destruct (negb (z1 =? _)); [reflexivity|].
  destruct (read_u32 ri rq 6) as [z2|[]|]; cbn [bufs request_offset response_offset fst snd Nat.add]; try reflexivity.
  destruct (z2 =? cc_GetRandom); [|reflexivity].
  destruct (read_u16 ri rq 10) as [z3|[]|]; cbn [bufs request_offset response_offset fst snd Nat.add]; try reflexivity.
Qed.

(** Memory in which a second party changes a request for 5 bytes into one for
    65535 bytes, and back, between the reads. *)
Definition flickering (now next : list byte) : shared_read bool :=
  let at_ (b : bool) := if b then now else next in
  let rd k (b : bool) offset := (negb b, match slice_read (at_ b) offset k with Some bs => Ok bs | None => Err tt end) in
  {| sh_len := fun b => (negb b, length (at_ b));
     sh_into := fun b offset k => rd k b offset;
     sh_u16 := fun b offset => let '(b, o) := rd 2%nat b offset in (b, omap be_val o);
     sh_u32 := fun b offset => let '(b, o) := rd 4%nat b offset in (b, omap be_val o) |}.
Definition asks (n : list byte) : list byte := [x80; x01; x00; x00; x00; x0c; x00; x00; x01; x7b] ++ n.
Example c100_fetches : forall now next, length now = length next -> fetches (flickering now next) (fun _ => length now).
Proof.
  intros now next E.
  assert (I : forall b k offset, match slice_read (if b : bool then now else next) offset k with Some bs => Ok bs | None => Err tt end
    = if (offset + k <=? length now)%nat then Ok (firstn k (skipn offset (if b : bool then now else next))) else Err tt).
  { intros [|] k offset; unfold slice_read; rewrite <- ?E; destruct (offset + k <=? length now)%nat; reflexivity. }
  assert (Lk : forall (b : bool) k offset, (offset + k <= length now)%nat ->
    length (firstn k (skipn offset (if b then now else next))) = k).
  { intros b k offset H. rewrite firstn_length, skipn_length. destruct b; lia. }
  split; [intros [|]; cbn; auto|]. split; [|split].
  - intros b offset k. cbn [flickering sh_into]. rewrite I. split; [reflexivity|]. split; intros H.
    + rewrite (proj2 (Nat.leb_le _ _) H). eauto.
    + rewrite (proj2 (Nat.leb_gt _ _) H). reflexivity.
  - intros b offset. cbn [flickering sh_u16]. rewrite I. split; [reflexivity|]. split; intros H.
    + rewrite (proj2 (Nat.leb_le _ _) H). cbn [omap]. eexists. split; [reflexivity|].
      pose proof (be_val_range (firstn 2 (skipn offset (if b then now else next)))) as V.
      rewrite Lk in V by assumption. exact V.
    + rewrite (proj2 (Nat.leb_gt _ _) H). reflexivity.
  - intros b offset. cbn [flickering sh_u32]. rewrite I. split; [reflexivity|]. split; intros H.
    + rewrite (proj2 (Nat.leb_le _ _) H). cbn [omap]. eexists. split; [reflexivity|].
      pose proof (be_val_range (firstn 4 (skipn offset (if b then now else next)))) as V.
      rewrite Lk in V by assumption. exact V.
    + rewrite (proj2 (Nat.leb_gt _ _) H). reflexivity.
Qed.
(** The count is read once: what the second party puts there later is not used.
    The other way round the large count is the one that is read, and refused. *)
Example c100_example :
  let five := asks [x00; x05] in
  let many := asks [xff; xff] in
  separate_shared FakeDrbg FakeEntropy (flickering five many) slice_writer fake true (repeat xaa 16)
  = ({| drbg := 5; entropy := tt |},
     [x80; x01; x00; x00; x00; x0f; x00; x00; x00; x00; x01; x02; x03; x04; x05; xaa], Ok 15%nat)
  /\ separate_shared FakeDrbg FakeEntropy (flickering many five) slice_writer fake true (repeat xaa 16)
  = (fake, [xaa; xaa; xaa; xaa; xaa; xaa; x00; x00; x09; x04; xaa; xaa; xaa; xaa; xaa; xaa], Ok 10%nat).
Proof. split; vm_compute; reflexivity. Qed.
