(** Lemmas about the server. *)
From Coq Require Import ZArith NArith List Lia Bool.
From Coq Require Import Init.Byte.
From Verif Require Import Prelude Errors Server ServerSpec.
Import ListNotations.
Open Scope Z_scope.

Lemma slice_read_some buf off n : (off + n <= length buf)%nat ->
  slice_read buf off n = Some (firstn n (skipn off buf)).
Proof. intros. unfold slice_read. destruct (Nat.leb_spec (off + n) (length buf)); [reflexivity|lia]. Qed.
Lemma slice_read_none buf off n : (length buf < off + n)%nat -> slice_read buf off n = None.
Proof. intros. unfold slice_read. destruct (Nat.leb_spec (off + n) (length buf)); [lia|reflexivity]. Qed.

Lemma slice_write_some buf off data : (off + length data <= length buf)%nat ->
  slice_write buf off data = Some (firstn off buf ++ data ++ skipn (off + length data) buf).
Proof.
  intros. unfold slice_write. destruct (Nat.leb_spec (off + length data) (length buf)); [|lia].
  unfold overwrite. rewrite skipn_skipn'. reflexivity.
Qed.
Lemma slice_write_none buf off data : (length buf < off + length data)%nat -> slice_write buf off data = None.
Proof. intros. unfold slice_write. destruct (Nat.leb_spec (off + length data) (length buf)); [lia|reflexivity]. Qed.

(** The three header writes. *)
Lemma write_header r z : (10 <= length r)%nat ->
  exists r1 r2, slice_write r 0 (be_bytes 2 0x8001) = Some r1
  /\ slice_write r1 2 (be_bytes 4 z) = Some r2
  /\ slice_write r2 6 (be_bytes 4 0)
     = Some (be_bytes 2 0x8001 ++ be_bytes 4 z ++ be_bytes 4 0 ++ skipn 10 r).
Proof.
  intros H. exists (be_bytes 2 0x8001 ++ skipn 2 r), (be_bytes 2 0x8001 ++ be_bytes 4 z ++ skipn 6 r).
  rewrite !slice_write_some by (rewrite ?app_length, ?skipn_length, !be_bytes_length; lia).
  do 10 (destruct r as [|? r]; [cbn in H; lia|]). repeat split.
Qed.

Section Exec.
Context {D X : Type} (dr : Drbg D) (es : EntropySource X).
Hypothesis Hdr : wf_drbg dr.

Lemma try_random_length c dest : length (snd (fst (try_get_random dr es c dest))) = length dest.
Proof.
  unfold try_get_random. destruct (requires_reseeding dr (drbg c)) as [d1 b].
  match goal with |- context [let '(_, _) := ?x in _] => destruct x as [c2 r] end.
  destruct r; try reflexivity.
  destruct (fill_bytes dr (drbg c2) [] dest) as [[d3 out] r] eqn:E. cbn. eapply Hdr. eassumption.
Qed.

Definition exec_result {B} (bb : buffers B) (c : context D X) (b : B) (q : list byte)
    (res : context D X * B * outcome Z nat) : Prop :=
  match verdict_of q (length (response bb b)) with
  | Refuse rc => res = (c, b, Err rc)
  | Random n =>
      let '(c', out, r) := try_get_random dr es c (firstn n (skipn 10 (response bb b))) in
      length out = n /\ exists b',
      res = (c', b', match r with Ok _ => Ok (10 + n)%nat | _ => Panic end)
      /\ response bb b' = match r with
                          | Ok _ => random_response (response bb b) out
                          | _ => firstn 10 (response bb b) ++ out ++ skipn (10 + n) (response bb b)
                          end
  end.

Theorem execute_spec {B} (bb : buffers B) (c : context D X) (b : B) (q : list byte) :
  (forall off n, request_read bb b off n = slice_read q off n) -> request_len bb b = length q ->
  (forall b r, response bb (set_response bb b r) = r) ->
  exec_result bb c b q (execute_command dr es bb c b).
Proof.
  intros Hr Hl Hs. unfold exec_result, verdict_of, execute_command, read_be_u16, read_be_u32, read_be.
  cbn [bufs request_offset response_offset]. rewrite Hr, Hl.
  destruct (Z.ltb_spec (Z.of_nat (length q)) 10) as [L10|L10]; cbn [orb].
  - (* shorter than a header *)
    destruct (Nat.le_gt_cases 2 (length q)) as [L2|L2].
    2:{ rewrite slice_read_none by lia. reflexivity. }
    rewrite slice_read_some by lia. cbn [bufs request_offset response_offset]. rewrite Hr.
    destruct (Nat.le_gt_cases 6 (length q)) as [L6|L6].
    2:{ rewrite slice_read_none by lia. reflexivity. }
    rewrite slice_read_some by lia.
    match goal with |- context [negb (?x =? ?y)] => destruct (negb (x =? y)); [reflexivity|] end.
    cbn [bufs request_offset response_offset]. rewrite Hr, slice_read_none by lia. reflexivity.
  - rewrite slice_read_some by lia. cbn [bufs request_offset response_offset]. rewrite Hr.
    rewrite slice_read_some by lia. change (0 + 2)%nat with 2%nat.
    fold (size_field q). destruct (size_field q =? Z.of_nat (length q)) eqn:Es; cbn [negb]; [|reflexivity].
    cbn [bufs request_offset response_offset]. rewrite Hr. rewrite slice_read_some by lia.
    change (2 + 4)%nat with 6%nat. fold (code_field q). change cc_GetRandom with 0x17B.
    destruct (code_field q =? 0x17B) eqn:Ec; cbn [negb]; [|reflexivity].
    unfold get_random, read_be_u16, read_be. cbn [bufs request_offset response_offset]. rewrite Hr.
    change (6 + 4)%nat with 10%nat.
    destruct (Z.ltb_spec (Z.of_nat (length q)) 12) as [L12|L12].
    { rewrite slice_read_none by lia. reflexivity. }
    rewrite slice_read_some by lia. fold (count_field q).
    unfold write_callback, slice_write_callback. cbn [bufs request_offset response_offset].
    assert (Hn : 0 <= count_field q < 65536).
    { unfold count_field. pose proof (be_val_range (firstn 2 (skipn 10 q))) as R.
      rewrite firstn_length, skipn_length in R.
      replace (Nat.min 2 (length q - 10)) with 2%nat in R by lia. exact R. }
    remember (response bb b) as resp eqn:Eresp.
    remember (Z.to_nat (count_field q)) as n eqn:En.
    destruct (Nat.leb_spec (10 + n) (length resp)) as [Lr|Lr];
      destruct (Z.ltb_spec (Z.of_nat (length resp)) (10 + count_field q)) as [Lr'|Lr'];
      try lia; [|reflexivity].
    unfold get_random_or_failure.
    pose proof (try_random_length c (firstn n (skipn 10 resp))) as Lo.
    destruct (try_get_random dr es c (firstn n (skipn 10 resp))) as [[c' out] r]. cbn [fst snd] in Lo.
    rewrite firstn_length, skipn_length in Lo.
    assert (Lout : length out = n) by lia. clear Lo. split; [assumption|].
    destruct r as [u|e|]; cbn [bufs request_offset response_offset].
    2:{ eexists. split; [reflexivity|]. rewrite Hs. reflexivity. }
    2:{ eexists. split; [reflexivity|]. rewrite Hs. reflexivity. }
    rewrite Hs.
    set (body := firstn 10 resp ++ out ++ skipn (10 + n) resp).
    assert (Lb : (10 <= length body)%nat).
    { unfold body. rewrite !app_length, firstn_length. lia. }
    destruct (write_header body (Z.of_nat (10 + n) mod 2 ^ 32) Lb) as (r1 & r2 & -> & -> & ->).
    eexists. split; [reflexivity|]. rewrite Hs. unfold random_response. rewrite Lout.
    rewrite Z.mod_small by lia. replace (10 + Z.of_nat n) with (Z.of_nat (10 + n)) by lia.
    do 3 f_equal. unfold body.
    rewrite skipn_app_exact' by (rewrite firstn_length; lia). reflexivity.
Qed.

Lemma fill_error_spec resp rc : fill_error resp rc = (error_response resp rc, error_size resp).
Proof.
  unfold fill_error, error_response, error_size.
  destruct (Nat.ltb_spec (length resp) 10).
  - rewrite slice_write_none by (rewrite be_bytes_length; lia). reflexivity.
  - rewrite slice_write_some by (rewrite be_bytes_length; lia). reflexivity.
Qed.

(** Result of a call, given the request it holds and the response buffer. *)
Definition served (c : context D X) (q resp : list byte) (res : context D X * list byte * outcome unit nat) : Prop :=
  match verdict_of q (length resp) with
  | Refuse rc => res = (c, error_response resp rc, Ok (error_size resp))
  | Random n =>
      let '(c', out, r) := try_get_random dr es c (firstn n (skipn 10 resp)) in
      length out = n /\
      res = match r with
            | Ok _ => (c', random_response resp out, Ok (10 + n)%nat)
            | _ => (c', firstn 10 resp ++ out ++ skipn (10 + n) resp, Panic)
            end
  end.

Theorem separate_spec c q resp : served c q resp (execute_command_separate dr es c q resp).
Proof.
  unfold served, execute_command_separate.
  pose proof (execute_spec separate c (q, resp) q) as H.
  specialize (H (fun _ _ => eq_refl) eq_refl). specialize (H (fun _ _ => eq_refl)).
  unfold exec_result in H. cbn [response separate snd] in H.
  destruct (verdict_of q (length resp)) as [rc|n].
  - rewrite H. rewrite fill_error_spec. reflexivity.
  - destruct (try_get_random dr es c (firstn n (skipn 10 resp))) as [[c' out] r].
    destruct H as (L & b' & -> & E). split; [assumption|].
    destruct r; cbn [response separate] in E; rewrite E; reflexivity.
Qed.

Theorem in_place_spec c buf k :
  served c (firstn k buf) buf (execute_command_in_place dr es c buf k).
Proof.
  unfold served, execute_command_in_place, inout_new.
  pose proof (execute_spec inout c (buf, Nat.min k (length buf)) (firstn k buf)) as H.
  assert (Hr : forall off n, request_read inout (buf, Nat.min k (length buf)) off n
               = slice_read (firstn k buf) off n).
  { intros off n. cbn [request_read inout fst snd]. unfold slice_read. rewrite firstn_length.
    destruct (Nat.ltb_spec (Nat.min k (length buf)) (off + n));
      destruct (Nat.leb_spec (off + n) (Nat.min k (length buf))); try lia; [reflexivity|].
    destruct (Nat.leb_spec (off + n) (length buf)); [|lia].
    f_equal. rewrite skipn_firstn_comm, firstn_firstn. f_equal. lia. }
  specialize (H Hr). cbn [request_len inout snd] in H. rewrite firstn_length in H.
  specialize (H eq_refl (fun _ _ => eq_refl)).
  unfold exec_result in H. cbn [response inout fst] in H.
  destruct (verdict_of (firstn k buf) (length buf)) as [rc|n].
  - rewrite H. cbn [fst]. rewrite fill_error_spec. reflexivity.
  - destruct (try_get_random dr es c (firstn n (skipn 10 buf))) as [[c' out] r].
    destruct H as (L & b' & -> & E). split; [assumption|].
    destruct r; cbn [response inout] in E; rewrite E; reflexivity.
Qed.
End Exec.
