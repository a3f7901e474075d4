(** Lemmas about the client: the command is the specified frame, the response
    is parsed as specified. *)
From Coq Require Import String ZArith NArith List Lia Bool.
From Coq Require Import Init.Byte.
From Verif Require Import Prelude Types Marshal WireSpec MarshalProofs WriteSpec MarshalWrite
  MarshalFacts Layout Catalogue Errors Attrs Tpm2b Client ClientSpec.
Import ListNotations.
Open Scope Z_scope.

(** ** Writing *)

(** [f] writes [bs] at the start of its buffer, or fails. *)
Definition fails (r : cres) : Prop := snd r = Err 0x904 \/ snd r = Panic.
Definition writes (f : list byte -> cres) (bs : list byte) : Prop :=
  forall b, ((length bs <= length b)%nat -> f b = (overwrite bs b, Ok (length bs)))
         /\ ((length b < length bs)%nat -> fails (f b)).

Lemma writes_marshal t v : wf t v = true -> writes (fun b => tss_err (marshal t v b)) (enc t v).
Proof.
  intros Hw b. split; intros Hl.
  - rewrite marshal_fits by assumption. reflexivity.
  - destruct (marshal_short t v b Hw Hl) as (pre & ch & post & _ & _ & E).
    rewrite E. unfold fails, tss_err. cbn. destruct (is_payload ch); cbn; auto.
Qed.

Lemma cseq_ok f bs pre rest : writes f bs -> (length bs <= length rest)%nat ->
  cseq f (length pre) (pre ++ rest)
  = ((pre ++ bs) ++ skipn (length bs) rest, Ok (length (pre ++ bs))).
Proof.
  intros Hf Hl. unfold cseq. rewrite app_length.
  destruct (Nat.ltb_spec (length pre + length rest) (length pre)); [lia|].
  rewrite skipn_app_exact, firstn_app_exact.
  destruct (Hf rest) as [H1 _]. rewrite (H1 Hl). unfold overwrite. cbn [omap].
  rewrite app_assoc, app_length. reflexivity.
Qed.

Lemma cseq_short f bs pre rest : writes f bs -> (length rest < length bs)%nat ->
  fails (cseq f (length pre) (pre ++ rest)).
Proof.
  intros Hf Hl. unfold cseq. rewrite app_length.
  destruct (Nat.ltb_spec (length pre + length rest) (length pre)); [lia|].
  rewrite skipn_app_exact, firstn_app_exact.
  destruct (Hf rest) as [_ H1]. specialize (H1 Hl).
  destruct (f rest) as [b r]. unfold fails in *. cbn in *.
  destruct H1 as [->| ->]; cbn; auto.
Qed.

Lemma fails_cthen r k : fails r -> fails (cthen r k).
Proof. destruct r as [b r]. unfold fails. cbn. intros [->| ->]; cbn; auto. Qed.

(** One step of a sequence of writes. *)
Lemma step f bs k pre rest (Q : cres -> Prop) : writes f bs ->
  ((length bs <= length rest)%nat ->
   Q (k (length (pre ++ bs)) ((pre ++ bs) ++ skipn (length bs) rest))) ->
  ((length rest < length bs)%nat -> forall r, fails r -> Q r) ->
  Q (cthen (cseq f (length pre) (pre ++ rest)) k).
Proof.
  intros Hf H1 H2. destruct (Nat.le_gt_cases (length bs) (length rest)).
  - rewrite (cseq_ok _ bs) by assumption. auto.
  - apply H2; [assumption|]. apply fails_cthen. eapply cseq_short; eassumption.
Qed.

Lemma auth_size_ok pre rest : (length pre = 4)%nat -> forall l,
  marshal_auth_size (length (pre ++ l)) ((pre ++ l) ++ rest)
  = (be_bytes 4 (Z.of_nat (length l)) ++ l ++ rest,
     Ok (length (be_bytes 4 (Z.of_nat (length l)) ++ l))).
Proof.
  intros Hp l. unfold marshal_auth_size.
  set (z := (Z.of_nat (length (pre ++ l)) - 4) mod 2 ^ 32).
  assert (Hz : 0 <= z < 2 ^ 32) by (apply Z.mod_pos_bound; lia).
  assert (He : enc u32 (VInt z) = be_bytes 4 z) by reflexivity.
  assert (Hw : wf u32 (VInt z) = true) by (apply in_range_iff; assumption).
  rewrite marshal_fits.
  - unfold tss_err. cbn [fst snd omap_err omap]. rewrite He. unfold overwrite.
    rewrite be_bytes_length.
    assert (Ez : be_bytes 4 z = be_bytes 4 (Z.of_nat (length l))).
    { unfold z. change (2 ^ 32) with (pow256 4). rewrite be_bytes_mod. f_equal.
      rewrite app_length. lia. }
    rewrite Ez, <- app_assoc, skipn_app_exact' by lia.
    rewrite !app_length, be_bytes_length, Hp. reflexivity.
  - assumption.
  - rewrite He, be_bytes_length, !app_length. lia.
Qed.

Lemma writes_ext f g bs : (forall b, f b = g b) -> writes g bs -> writes f bs.
Proof. intros E H b. rewrite E. apply H. Qed.

Lemma overwrite_split (bs b : list byte) : (4 <= length b)%nat ->
  exists pre rest, b = pre ++ rest /\ length pre = 4%nat.
Proof.
  exists (firstn 4 b), (skipn 4 b). rewrite firstn_skipn, firstn_length_le by assumption. auto.
Qed.

Lemma tail_final pre acc rest b :
  length pre = 4%nat -> b = pre ++ rest -> (length acc <= length rest)%nat ->
  (be_bytes 4 (Z.of_nat (length acc)) ++ acc ++ skipn (length acc) rest)
  = overwrite (be_bytes 4 (Z.of_nat (length acc)) ++ acc) b.
Proof.
  intros Hp -> Hl. unfold overwrite. rewrite app_length, be_bytes_length, <- app_assoc.
  do 2 f_equal. rewrite <- skipn_skipn', skipn_app_exact' by lia. reflexivity.
Qed.

(** The end of the authorization area: any number of remaining sessions. *)
Definition write_rest (l : list session) : nat -> list byte -> cres :=
  fold_right (fun s k off b => cthen (write_auth s off b) k) marshal_auth_size l.

Lemma write_rest_spec l : Forall wf_session l -> forall pre acc rest,
  length pre = 4%nat ->
  let tail := auth_bytes l in
  ((length tail <= length rest)%nat ->
   write_rest l (length (pre ++ acc)) ((pre ++ acc) ++ rest)
   = (be_bytes 4 (Z.of_nat (length (acc ++ tail))) ++ (acc ++ tail) ++ skipn (length tail) rest,
      Ok (length (be_bytes 4 (Z.of_nat (length (acc ++ tail))) ++ acc ++ tail))))
  /\ ((length rest < length tail)%nat -> fails (write_rest l (length (pre ++ acc)) ((pre ++ acc) ++ rest))).
Proof.
  induction l as [|s l IH]; intros Hw pre acc rest Hp; cbn zeta.
  - cbn [auth_bytes flat_map length write_rest fold_right]. split; [|lia]. intros _.
    rewrite !app_nil_r. cbn [skipn]. apply auth_size_ok. assumption.
  - inversion Hw as [|? ? Hs Hl]; subst. specialize (IH Hl).
    cbn [auth_bytes flat_map]. fold (auth_bytes l). set (e := enc TpmsAuthCommand (auth_command s)).
    change (write_rest (s :: l)) with (fun off b => cthen (write_auth s off b) (write_rest l)).
    cbn beta. unfold write_auth.
    pose proof (writes_marshal _ _ Hs) as Hf. fold e in Hf.
    split; intros Hlen; rewrite app_length in Hlen.
    + rewrite (cseq_ok _ e) by (assumption || lia). cbn [cthen].
      rewrite <- (app_assoc pre acc e).
      destruct (IH pre (acc ++ e) (skipn (length e) rest) Hp) as [H1 _].
      rewrite H1 by (rewrite skipn_length; lia).
      rewrite (app_length e (auth_bytes l)), skipn_skipn', <- !app_assoc. reflexivity.
    + destruct (Nat.le_gt_cases (length e) (length rest)).
      * rewrite (cseq_ok _ e) by assumption. cbn [cthen]. rewrite <- (app_assoc pre acc e).
        apply IH; [assumption|]. rewrite skipn_length. lia.
      * apply fails_cthen. eapply cseq_short; eassumption.
Qed.

Lemma write_sessions_rest a b :
  write_command_sessions a b =
  match sessions_of a with [] => (b, Ok 0%nat) | l => write_rest l 4 b end.
Proof. destruct a as [[[s1|] [s2|]] [s3|]]; reflexivity. Qed.

Lemma writes_sessions a : wf_area a -> writes (write_command_sessions a) (auth_area (sessions_of a)).
Proof.
  intros Hw b. unfold wf_area in Hw. rewrite write_sessions_rest.
  destruct (sessions_of a) as [|s l] eqn:El.
  - cbn. split; [reflexivity|lia].
  - unfold auth_area. rewrite <- El in *. rewrite app_length, be_bytes_length.
    assert (Hne : exists s l, sessions_of a = s :: l) by eauto.
    clear s l El. set (l := sessions_of a) in *.
    destruct (Nat.le_gt_cases 4 (length b)) as [H4|H4].
    + destruct (overwrite_split [] b H4) as (pre & rest & -> & Hp).
      destruct (write_rest_spec l Hw pre [] rest Hp) as [H1 H2].
      rewrite !app_nil_r, Hp in H1, H2. cbn [app] in H1, H2.
      rewrite app_length, Hp. split; intros Hl.
      * rewrite H1 by lia. rewrite (app_length (be_bytes _ _)), be_bytes_length. apply f_equal2; [|reflexivity].
        apply (tail_final pre); [assumption|reflexivity|lia].
      * apply H2. lia.
    + split; [lia|]. intros _. destruct Hne as (s & l' & ->).
      change (write_rest (s :: l') 4 b) with (cthen (write_auth s 4 b) (write_rest l')).
      apply fails_cthen. unfold write_auth, cseq.
      destruct (Nat.ltb_spec (length b) 4); [|lia]. right. reflexivity.
Qed.

(** ** The command *)

Lemma cmd_header_enc tag size cd : enc CmdHeader (cmd_header tag size cd)
  = be_bytes 2 tag ++ be_bytes 4 size ++ be_bytes 4 cd.
Proof. cbn -[be_bytes]. rewrite !app_nil_r. reflexivity. Qed.

Lemma cmd_header_wf tag size cd : 0 <= tag < 2 ^ 16 -> 0 <= size < 2 ^ 32 -> 0 <= cd < 2 ^ 32 ->
  wf CmdHeader (cmd_header tag size cd) = true.
Proof.
  intros. assert (in_range false 2 tag = true) by (apply in_range_iff; assumption).
  assert (in_range false 4 size = true) by (apply in_range_iff; assumption).
  assert (in_range false 4 cd = true) by (apply in_range_iff; assumption).
  cbn -[in_range]. rewrite H2, H3, H4. reflexivity.
Qed.

Lemma tag_of_area a : cmd_header_tag (area_is_empty a)
  = match sessions_of a with [] => 0x8001 | _ => 0x8002 end.
Proof. destruct a as [[[s1|] [s2|]] [s3|]]; reflexivity. Qed.

Lemma tag_range a : 0 <= cmd_header_tag (area_is_empty a) < 2 ^ 16.
Proof. unfold cmd_header_tag, st_NoSessions, st_Sessions. destruct (area_is_empty a); lia. Qed.

Lemma frame_length c cmd handles a :
  length (command_frame c cmd handles a) = (10 + length (command_body c cmd handles a))%nat.
Proof. unfold command_frame. rewrite !app_length, !be_bytes_length. reflexivity. Qed.

Theorem build_command_spec c cmd handles a :
  0 <= code c < 2 ^ 32 -> wf (cmd_ty c) cmd = true -> wf (handles_ty c) handles = true -> wf_area a ->
  ((length (command_frame c cmd handles a) <= CMD_BUFFER_SIZE)%nat ->
   build_command c cmd handles a = Ok (command_frame c cmd handles a))
  /\ ((CMD_BUFFER_SIZE < length (command_frame c cmd handles a))%nat ->
      build_command c cmd handles a = Err 0x904 \/ build_command c cmd handles a = Panic).
Proof.
  intros Hc Hcmd Hh Ha. rewrite frame_length.
  assert (H10 : (10 <= CMD_BUFFER_SIZE)%nat) by (apply Nat.leb_le; vm_compute; reflexivity).
  assert (Hbig : Z.of_nat CMD_BUFFER_SIZE < 2 ^ 32) by (vm_compute; reflexivity).
  unfold build_command. generalize dependent CMD_BUFFER_SIZE. intros B H10 Hbig.
  set (tag := cmd_header_tag (area_is_empty a)).
  set (h0 := enc CmdHeader (cmd_header tag 0 (code c))).
  assert (Hl0 : length h0 = 10%nat).
  { unfold h0. rewrite cmd_header_enc, !app_length, !be_bytes_length. reflexivity. }
  rewrite marshal_fits.
  2:{ apply cmd_header_wf; [apply tag_range|lia|assumption]. }
  2:{ fold h0. rewrite repeat_length. lia. }
  fold h0. unfold tss_err at 1. cbn [fst snd omap_err cthen]. unfold overwrite.
  set (eh := enc (handles_ty c) handles). set (ea := auth_area (sessions_of a)).
  set (ec := enc (cmd_ty c) cmd).
  assert (Lb : length (command_body c cmd handles a) = (length eh + length ea + length ec)%nat).
  { unfold command_body. rewrite !app_length. unfold eh, ea, ec. lia. }
  pose proof (writes_marshal _ _ Hh) as Wh. fold eh in Wh.
  pose proof (writes_sessions _ Ha) as Wa. fold ea in Wa.
  pose proof (writes_marshal _ _ Hcmd) as Wc. fold ec in Wc.
  set (rest := skipn (length h0) (repeat x00 B)).
  assert (Lr : length rest = (B - 10)%nat) by (unfold rest; rewrite skipn_length, repeat_length; lia).
  set (goalF := fun r : cres =>
    ((10 + length (command_body c cmd handles a) <= B)%nat ->
      (let '(buf, r) := r in
       match r with
       | Ok written =>
           let '(buf, r2) :=
             tss_err (marshal CmdHeader (cmd_header tag (Z.of_nat written mod 2 ^ 32) (code c)) buf) in
           match r2 with
           | Ok _ => if (length buf <? written)%nat then Panic else Ok (firstn written buf)
           | Err e => Err e
           | Panic => Panic
           end
       | Err e => Err e
       | Panic => Panic
       end) = Ok (command_frame c cmd handles a))
    /\ ((B < 10 + length (command_body c cmd handles a))%nat -> fails r)).
  assert (G : forall r, goalF r ->
    ((10 + length (command_body c cmd handles a) <= B)%nat ->
      (let '(buf, r) := r in
       match r with
       | Ok written =>
           let '(buf, r2) :=
             tss_err (marshal CmdHeader (cmd_header tag (Z.of_nat written mod 2 ^ 32) (code c)) buf) in
           match r2 with
           | Ok _ => if (length buf <? written)%nat then Panic else Ok (firstn written buf)
           | Err e => Err e
           | Panic => Panic
           end
       | Err e => Err e
       | Panic => Panic
       end) = Ok (command_frame c cmd handles a))
    /\ ((B < 10 + length (command_body c cmd handles a))%nat ->
      (let '(buf, r) := r in
       match r with
       | Ok written =>
           let '(buf, r2) :=
             tss_err (marshal CmdHeader (cmd_header tag (Z.of_nat written mod 2 ^ 32) (code c)) buf) in
           match r2 with
           | Ok _ => if (length buf <? written)%nat then Panic else Ok (firstn written buf)
           | Err e => Err e
           | Panic => Panic
           end
       | Err e => Err e
       | Panic => Panic
       end) = Err 0x904
      \/ (let '(buf, r) := r in
       match r with
       | Ok written =>
           let '(buf, r2) :=
             tss_err (marshal CmdHeader (cmd_header tag (Z.of_nat written mod 2 ^ 32) (code c)) buf) in
           match r2 with
           | Ok _ => if (length buf <? written)%nat then Panic else Ok (firstn written buf)
           | Err e => Err e
           | Panic => Panic
           end
       | Err e => Err e
       | Panic => Panic
       end) = Panic)).
  { intros [b r] [G1 G2]. split; [exact G1|]. intros Hlt. destruct (G2 Hlt) as [E|E];
      cbn in E; rewrite E; auto. }
  apply G. clear G.
  apply (step _ eh _ h0 rest goalF); [assumption| |].
  2:{ intros Hs r Hr. split; [lia|auto]. }
  intros L1. apply (step _ ea _ (h0 ++ eh) _ goalF); [assumption| |]; rewrite skipn_length.
  2:{ intros Hs r Hr. split; [lia|auto]. }
  intros L2. rewrite skipn_skipn'.
  destruct (Nat.le_gt_cases (length ec) (length (skipn (length eh + length ea) rest))) as [L3|L3].
  2:{ split; [rewrite skipn_length in L3; lia|]. intros _. eapply cseq_short; eassumption. }
  rewrite (cseq_ok _ ec) by assumption. unfold goalF. split; [|intros; exfalso; rewrite skipn_length in L3; lia].
  intros _. clear goalF.
  set (w := length (((h0 ++ eh) ++ ea) ++ ec)).
  assert (Ew : w = (10 + length (command_body c cmd handles a))%nat).
  { unfold w. rewrite !app_length, Hl0. lia. }
  rewrite skipn_length in L3.
  set (size := Z.of_nat w mod 2 ^ 32).
  assert (Es : size = Z.of_nat w) by (unfold size; apply Z.mod_small; lia).
  rewrite marshal_fits.
  2:{ apply cmd_header_wf; [apply tag_range|rewrite Es; lia|assumption]. }
  2:{ rewrite cmd_header_enc, !app_length, !be_bytes_length. lia. }
  unfold tss_err. cbn [fst snd omap_err].
  rewrite cmd_header_enc. set (h1 := be_bytes 2 tag ++ be_bytes 4 size ++ be_bytes 4 (code c)).
  assert (Hl1 : length h1 = 10%nat).
  { unfold h1. rewrite !app_length, !be_bytes_length. reflexivity. }
  unfold overwrite. rewrite Hl1, <- !app_assoc.
  rewrite skipn_app_exact' by auto.
  match goal with |- context [(?x <? w)%nat] => destruct (Nat.ltb_spec x w) as [X|X] end.
  { rewrite !app_length in X. lia. }
  f_equal. unfold command_frame. rewrite <- Ew, <- Es.
  unfold command_body. fold eh ea ec. rewrite <- tag_of_area. fold tag.
  replace (h1 ++ eh ++ ea ++ ec ++ skipn (length ec) (skipn (length eh + length ea) rest))
    with ((h1 ++ eh ++ ea ++ ec) ++ skipn (length ec) (skipn (length eh + length ea) rest))
    by (rewrite <- !app_assoc; reflexivity).
  rewrite firstn_app_exact' by (rewrite Ew, Lb, !app_length, Hl1; lia).
  unfold h1. rewrite <- !app_assoc. reflexivity.
Qed.

(** ** The response *)

Lemma resp_header_enc tag size rc rest :
  enc RespHeader (VStruct [VStruct [VInt tag]; VInt size; VInt rc]) ++ rest
  = response_frame tag size rc rest.
Proof. unfold response_frame. cbn -[be_bytes]. rewrite !app_nil_r, <- !app_assoc. reflexivity. Qed.

Lemma resp_header_wf tag size rc :
  wf RespHeader (VStruct [VStruct [VInt tag]; VInt size; VInt rc]) = true <-> header_ok tag size rc.
Proof.
  unfold header_ok. change (2 ^ 16) with (pow256 2). change (2 ^ 32) with (pow256 4).
  rewrite <- !in_range_iff. cbn -[in_range].
  rewrite ?andb_true_r. destruct (in_range false 2 tag), (in_range false 4 size), (in_range false 4 rc);
    cbn; intuition discriminate.
Qed.

Lemma RespHeader_wf_ty : wf_ty RespHeader = true.
Proof. reflexivity. Qed.

Lemma RespHeader_shape v : wf RespHeader v = true ->
  exists tag size rc, v = VStruct [VStruct [VInt tag]; VInt size; VInt rc].
Proof.
  destruct v as [| | |vs| | |]; try discriminate.
  destruct vs as [|v1 vs]; [discriminate|].
  destruct v1 as [| | |ws| | |]; try discriminate.
  destruct ws as [|w ws]; [discriminate|].
  destruct w; try discriminate. destruct ws as [|? ?]; cbn -[in_range];
    [|rewrite andb_false_r; discriminate].
  destruct vs as [|v2 vs]; [rewrite andb_false_r; discriminate|].
  destruct v2; cbn -[in_range]; try (rewrite ?andb_false_r; discriminate).
  destruct vs as [|v3 vs]; [rewrite !andb_false_r; discriminate|].
  destruct v3; cbn -[in_range]; try (rewrite ?andb_false_r; discriminate).
  destruct vs as [|v4 vs]; [eauto|]. rewrite !andb_false_r. discriminate.
Qed.

Lemma read_header_app tag size rc rest : header_ok tag size rc ->
  read_response_header (response_frame tag size rc rest)
  = if rc =? 0 then Ok (tag, size, 10%nat) else Err rc.
Proof.
  intros H. unfold read_response_header. rewrite <- resp_header_enc.
  rewrite unm_enc by (reflexivity || (apply resp_header_wf; assumption)).
  cbn [canon]. change (canon RespHeader (VStruct [VStruct [VInt tag]; VInt size; VInt rc]))
    with (VStruct [VStruct [VInt tag]; VInt size; VInt rc]).
  cbn beta iota. unfold tss_try_from, nonzero. destruct (rc =? 0); [|reflexivity].
  rewrite app_length. do 2 f_equal.
  replace (length (enc RespHeader (VStruct [VStruct [VInt tag]; VInt size; VInt rc]))) with 10%nat
    by reflexivity. lia.
Qed.

Lemma read_header_cases buf :
  (exists tag size rc rest, header_ok tag size rc /\ buf = response_frame tag size rc rest)
  \/ ((length buf < 10)%nat /\ read_response_header buf = Err 0x904).
Proof.
  destruct (Nat.le_gt_cases 10 (length buf)) as [H|H].
  - left. exists (be_val (firstn 2 buf)), (be_val (firstn 4 (skipn 2 buf))),
      (be_val (firstn 4 (skipn 6 buf))), (skipn 10 buf).
    assert (L1 : length (firstn 2 buf) = 2%nat) by (rewrite firstn_length; lia).
    assert (L2 : length (firstn 4 (skipn 2 buf)) = 4%nat) by (rewrite firstn_length, skipn_length; lia).
    assert (L3 : length (firstn 4 (skipn 6 buf)) = 4%nat) by (rewrite firstn_length, skipn_length; lia).
    split.
    + pose proof (be_val_range (firstn 2 buf)) as R1.
      pose proof (be_val_range (firstn 4 (skipn 2 buf))) as R2.
      pose proof (be_val_range (firstn 4 (skipn 6 buf))) as R3.
      rewrite L1 in R1. rewrite L2 in R2. rewrite L3 in R3.
      repeat split; try apply R1; try apply R2; try apply R3.
    + unfold response_frame.
      pose proof (be_bytes_val (firstn 2 buf)) as E1.
      pose proof (be_bytes_val (firstn 4 (skipn 2 buf))) as E2.
      pose proof (be_bytes_val (firstn 4 (skipn 6 buf))) as E3.
      rewrite L1 in E1. rewrite L2 in E2. rewrite L3 in E3. rewrite E1, E2, E3.
      do 10 (destruct buf as [|? buf]; [cbn in H; lia|]). reflexivity.
  - right. split; [assumption|].
    unfold read_response_header.
    assert (C : fst (unmarshal RespHeader buf) = Err UnexpectedEndOfBuffer).
    { pose (full := buf ++ repeat x00 (10 - length buf)).
      assert (Lf : length full = 10%nat) by (unfold full; rewrite app_length, repeat_length; lia).
      set (tag := be_val (firstn 2 full)). set (size := be_val (firstn 4 (skipn 2 full))).
      set (rc := be_val (firstn 4 (skipn 6 full))).
      assert (E : enc RespHeader (VStruct [VStruct [VInt tag]; VInt size; VInt rc])
                  = buf ++ repeat x00 (10 - length buf)).
      { fold full. rewrite <- (app_nil_r (enc _ _)), resp_header_enc. unfold response_frame, tag, size, rc.
        assert (L1 : length (firstn 2 full) = 2%nat) by (rewrite firstn_length; lia).
        assert (L2 : length (firstn 4 (skipn 2 full)) = 4%nat) by (rewrite firstn_length, skipn_length; lia).
        assert (L3 : length (firstn 4 (skipn 6 full)) = 4%nat) by (rewrite firstn_length, skipn_length; lia).
        pose proof (be_bytes_val (firstn 2 full)) as E1.
        pose proof (be_bytes_val (firstn 4 (skipn 2 full))) as E2.
        pose proof (be_bytes_val (firstn 4 (skipn 6 full))) as E3.
        rewrite L1 in E1. rewrite L2 in E2. rewrite L3 in E3. rewrite E1, E2, E3.
        clear - Lf. do 10 (destruct full as [|? full]; [discriminate|]).
        destruct full; [reflexivity|discriminate]. }
      assert (W : wf RespHeader (VStruct [VStruct [VInt tag]; VInt size; VInt rc]) = true).
      { apply resp_header_wf. unfold tag, size, rc.
        pose proof (be_val_range (firstn 2 full)) as R1.
        pose proof (be_val_range (firstn 4 (skipn 2 full))) as R2.
        pose proof (be_val_range (firstn 4 (skipn 6 full))) as R3.
        assert (L1 : length (firstn 2 full) = 2%nat) by (rewrite firstn_length; lia).
        assert (L2 : length (firstn 4 (skipn 2 full)) = 4%nat) by (rewrite firstn_length, skipn_length; lia).
        assert (L3 : length (firstn 4 (skipn 6 full)) = 4%nat) by (rewrite firstn_length, skipn_length; lia).
        rewrite L1 in R1. rewrite L2 in R2. rewrite L3 in R3.
        repeat split; try apply R1; try apply R2; try apply R3. }
      eapply (proj1 truncation_all); [reflexivity|exact W|exact E|].
      intros X. apply (f_equal (@length byte)) in X. rewrite repeat_length in X. cbn [length] in X. lia. }
    destruct (unmarshal RespHeader buf) as [r rest]. cbn in C. subst r. reflexivity.
Qed.

Lemma read_auth_ok s b rest :
  read_auth s b = Ok rest <-> exists auth, accepted s auth /\ b = enc TpmsAuthResponse auth ++ rest.
Proof.
  unfold read_auth. split.
  - destruct (unmarshal TpmsAuthResponse b) as [[auth|e|] r] eqn:E; try discriminate.
    destruct (validate s auth) as [[]|e|] eqn:V; try discriminate. cbn. intros H. injection H as <-.
    apply unm_inv in E; [|reflexivity]. destruct E as (W & C & ->).
    exists auth. repeat split; assumption.
  - intros (auth & (W & C & V) & ->). rewrite unm_enc by (reflexivity || assumption).
    unfold canonical in C. rewrite C, V. reflexivity.
Qed.

Fixpoint read_all (l : list session) (b : list byte) : outcome Z (list byte) :=
  match l with
  | [] => Ok b
  | s :: l' => obind (read_auth s b) (read_all l')
  end.

Lemma read_sessions_all a b : read_response_sessions a b = read_all (sessions_of a) b.
Proof.
  assert (R : forall s b, obind (read_auth s b) (fun x => Ok x) = read_auth s b)
    by (intros; destruct (read_auth _ _); reflexivity).
  unfold read_response_sessions.
  destruct a as [[[s1|] [s2|]] [s3|]]; cbn [sessions_of read_all]; try reflexivity;
    destruct (read_auth s1 b) as [b1| |]; cbn [obind]; try reflexivity;
    destruct (read_auth s2 b1) as [b2| |]; cbn [obind]; rewrite ?R; reflexivity.
Qed.

Lemma read_all_ok l : forall b rest,
  read_all l b = Ok rest
  <-> exists auths, Forall2 accepted l auths /\ b = flat_map (enc TpmsAuthResponse) auths ++ rest.
Proof.
  induction l as [|s l IH]; intros b rest; cbn [read_all].
  - split.
    + intros H. injection H as <-. exists []. auto.
    + intros (auths & H & ->). inversion H. reflexivity.
  - split.
    + destruct (read_auth s b) as [b1| |] eqn:E; try discriminate. cbn. intros H.
      apply read_auth_ok in E. destruct E as (auth & A & ->).
      apply IH in H. destruct H as (auths & F & ->).
      exists (auth :: auths). split; [constructor; assumption|]. cbn. rewrite app_assoc. reflexivity.
    + intros (auths & F & ->). inversion F as [|? auth ? l' A F']; subst.
      cbn [flat_map]. rewrite <- app_assoc.
      assert (R : read_auth s (enc TpmsAuthResponse auth ++ flat_map (enc TpmsAuthResponse) l' ++ rest)
                  = Ok (flat_map (enc TpmsAuthResponse) l' ++ rest))
        by (apply read_auth_ok; eauto).
      rewrite R. cbn. apply IH. eauto.
Qed.

(** What follows the header. *)
Definition parse_body (c : command) (a : area) (tag : Z) (u0 : list byte) : outcome Z (val * val) :=
  let '(rh, u1) := unmarshal (resp_handles_ty c) u0 in
  obind (omap_err tss_of_merr rh) (fun resp_handles =>
  let '(rp, u2) := if tag =? st_Sessions then unm_int false 4 u1 else (Ok 0, u1) in
  obind (omap_err tss_of_merr rp) (fun _ =>
  let '(rr, u3) := unmarshal (resp_ty c) u2 in
  obind (omap_err tss_of_merr rr) (fun resp =>
  obind (read_response_sessions a u3) (fun u4 =>
  match u4 with
  | [] => Ok (resp, resp_handles)
  | _ :: _ => Err (tcs_code TpmUnexpected)
  end)))).

Lemma usize_u32 z : 0 <= z < 2 ^ 32 -> usize z = Z.to_N z.
Proof. intros. unfold usize. rewrite Z.mod_small by lia. reflexivity. Qed.

Lemma response_frame_length tag size rc rest :
  length (response_frame tag size rc rest) = (10 + length rest)%nat.
Proof. unfold response_frame. rewrite !app_length, !be_bytes_length. reflexivity. Qed.

Lemma parse_frame c a tag size rc rest : header_ok tag size rc ->
  parse_response c a (response_frame tag size rc rest)
  = if negb (rc =? 0) then Err rc
    else if 10 + Z.of_nat (length rest) <? size then Err 0x2005
    else if size <? 10 then Panic
    else parse_body c a tag (firstn (Z.to_nat (size - 10)) rest).
Proof.
  intros H. unfold parse_response. rewrite read_header_app by assumption.
  destruct H as (H1 & H2 & H3).
  destruct (rc =? 0); cbn [negb obind]; [|reflexivity].
  rewrite usize_u32 by assumption. rewrite response_frame_length.
  destruct (N.ltb_spec (N.of_nat (10 + length rest)) (Z.to_N size));
    destruct (Z.ltb_spec (10 + Z.of_nat (length rest)) size); try lia; [reflexivity|].
  destruct (N.ltb_spec (Z.to_N size) (N.of_nat 10)); destruct (Z.ltb_spec size 10);
    try lia; [reflexivity|].
  unfold parse_body.
  replace (skipn 10 (firstn (N.to_nat (Z.to_N size)) (response_frame tag size rc rest)))
    with (firstn (Z.to_nat (size - 10)) rest); [reflexivity|].
  replace (N.to_nat (Z.to_N size)) with (10 + Z.to_nat (size - 10))%nat by lia.
  reflexivity.
Qed.

Lemma umerr_ok {A} (r : outcome merr A) (v : A) : omap_err tss_of_merr r = Ok v -> r = Ok v.
Proof. destruct r; cbn; congruence. Qed.

Theorem parse_body_ok c a tag u resp handles :
  wf_ty (resp_ty c) = true -> wf_ty (resp_handles_ty c) = true ->
  (parse_body c a tag u = Ok (resp, handles)
   <-> exists psize auths, 0 <= psize < 2 ^ 32
       /\ wf (resp_ty c) resp = true /\ canonical (resp_ty c) resp
       /\ wf (resp_handles_ty c) handles = true /\ canonical (resp_handles_ty c) handles
       /\ Forall2 accepted (sessions_of a) auths
       /\ u = response_body c tag psize resp handles auths).
Proof.
  intros T1 T2. unfold parse_body, response_body. change st_Sessions with 0x8002.
  split.
  - destruct (unmarshal (resp_handles_ty c) u) as [rh u1] eqn:E1.
    destruct rh as [h|e|]; cbn [omap_err obind]; try discriminate.
    apply unm_inv in E1; [|assumption]. destruct E1 as (W1 & C1 & ->).
    destruct (if tag =? 0x8002 then unm_int false 4 u1 else (Ok 0, u1)) as [rp u2] eqn:E2.
    destruct rp as [p|e|]; cbn [omap_err obind]; try discriminate.
    assert (P : exists ps, 0 <= ps < 2 ^ 32
              /\ u1 = (if tag =? 0x8002 then be_bytes 4 ps else []) ++ u2).
    { destruct (tag =? 0x8002).
      - apply unm_int_inv in E2; [|lia]. destruct E2 as [R ->]. apply in_range_iff in R. eauto.
      - injection E2 as _ <-. exists 0. split; [lia|reflexivity]. }
    destruct P as (ps & Rps & ->). clear E2.
    destruct (unmarshal (resp_ty c) u2) as [rr u3] eqn:E3.
    destruct rr as [r|e|]; cbn [omap_err obind]; try discriminate.
    apply unm_inv in E3; [|assumption]. destruct E3 as (W3 & C3 & ->).
    rewrite read_sessions_all.
    destruct (read_all (sessions_of a) u3) as [u4| |] eqn:E4; cbn [obind]; try discriminate.
    apply read_all_ok in E4. destruct E4 as (auths & F & ->).
    destruct u4; [|discriminate]. intros H. injection H as <- <-.
    exists ps, auths. rewrite app_nil_r. repeat (split; [assumption|]). reflexivity.
  - intros (ps & auths & Rps & W1 & C1 & W2 & C2 & F & ->).
    rewrite unm_enc by assumption. unfold canonical in C1, C2. rewrite C2. cbn [omap_err obind].
    assert (E2 : (if tag =? 0x8002
                  then unm_int false 4 ((if tag =? 0x8002 then be_bytes 4 ps else [])
                         ++ enc (resp_ty c) resp ++ flat_map (enc TpmsAuthResponse) auths)
                  else (Ok 0, (if tag =? 0x8002 then be_bytes 4 ps else [])
                         ++ enc (resp_ty c) resp ++ flat_map (enc TpmsAuthResponse) auths))
            = (Ok (if tag =? 0x8002 then ps else 0),
               enc (resp_ty c) resp ++ flat_map (enc TpmsAuthResponse) auths)).
    { destruct (tag =? 0x8002); [|reflexivity]. apply unm_int_app. apply in_range_iff. assumption. }
    rewrite E2. cbn [omap_err obind]. clear E2.
    rewrite unm_enc by assumption. rewrite C1. cbn [omap_err obind].
    rewrite read_sessions_all.
    assert (R : read_all (sessions_of a) (flat_map (enc TpmsAuthResponse) auths) = Ok []).
    { apply read_all_ok. exists auths. rewrite app_nil_r. auto. }
    rewrite R. reflexivity.
Qed.

Lemma unm_no_panic t b : wf_ty t = true -> fst (unmarshal t b) <> Panic.
Proof.
  intros H E. destruct (proj1 unm_total_all t H b) as [P _]. rewrite E in P. discriminate.
Qed.

Lemma read_all_no_panic l : Forall total_session l -> forall b, read_all l b <> Panic.
Proof.
  induction l as [|s l IH]; intros Ht b; cbn [read_all]; [discriminate|].
  inversion Ht as [|? ? Hs Hl]; subst.
  destruct (read_auth s b) as [b1| |] eqn:E; cbn; [apply IH; assumption|discriminate|].
  intros _. revert E. unfold read_auth.
  pose proof (unm_no_panic TpmsAuthResponse b eq_refl) as P.
  destruct (unmarshal TpmsAuthResponse b) as [[v|e|] r] eqn:U; cbn in P; try discriminate; [|congruence].
  apply unm_inv in U; [|reflexivity]. specialize (Hs v (proj1 U)). destruct (validate s v); cbn; congruence.
Qed.

Lemma parse_body_no_panic c a tag u :
  wf_ty (resp_ty c) = true -> wf_ty (resp_handles_ty c) = true ->
  Forall total_session (sessions_of a) -> parse_body c a tag u <> Panic.
Proof.
  intros T1 T2 Ht. unfold parse_body.
  pose proof (unm_no_panic _ u T2) as P1.
  destruct (unmarshal (resp_handles_ty c) u) as [[h|e|] u1]; cbn [omap_err obind fst] in P1 |- *; try discriminate; try congruence.
  match goal with |- context [let '(_, _) := ?x in _] => assert (P2 : fst x <> Panic); [|destruct x as [[p|e|] u2]] end.
  { destruct (tag =? st_Sessions); [|discriminate].
    destruct (unm_int_cases false 4 u1) as [(z & r & _ & _ & ->)|[_ ->]]; [lia|discriminate|discriminate]. }
  all: cbn [omap_err obind fst] in P2 |- *; try discriminate; try congruence.
  pose proof (unm_no_panic _ u2 T1) as P3.
  destruct (unmarshal (resp_ty c) u2) as [[r|e|] u3]; cbn [omap_err obind fst] in P3 |- *; try discriminate; try congruence.
  rewrite read_sessions_all. pose proof (read_all_no_panic _ Ht u3) as P4.
  destruct (read_all (sessions_of a) u3) as [u4| |]; cbn; try discriminate; try congruence.
  destruct u4; discriminate.
Qed.
