(** Properties of the client (C30-C37, C55, C56). *)
From Coq Require Import String ZArith NArith List Lia Bool.
From Coq Require Import Init.Byte.
From Verif Require Import Prelude Types Marshal WireSpec MarshalProofs MarshalFacts Layout Catalogue
  Samples Errors Attrs Tpm2b Tpm2bFacts Client ClientSpec ClientProofs.
Import ListNotations.
Open Scope Z_scope.

Lemma buffer_size : CMD_BUFFER_SIZE = Z.to_nat 4096 /\ RESP_BUFFER_SIZE = Z.to_nat 4096.
Proof. split; reflexivity. Qed.

Lemma empty_buffer_length : length empty_buffer = Z.to_nat 4096.
Proof. apply repeat_length. Qed.

Lemma build_frame c cmd handles a : valid_call c cmd handles a ->
  fits (command_frame c cmd handles a) ->
  build_command c cmd handles a = Ok (command_frame c cmd handles a).
Proof.
  intros (Hc & H1 & H2 & H3) L. apply build_command_spec; try assumption; [apply Hc|].
  rewrite (proj1 buffer_size). unfold fits in L. lia.
Qed.

Lemma build_too_long c cmd handles a : valid_call c cmd handles a ->
  ~ fits (command_frame c cmd handles a) ->
  build_command c cmd handles a = Err 0x904 \/ build_command c cmd handles a = Panic.
Proof.
  intros (Hc & H1 & H2 & H3) L. apply build_command_spec; try assumption; [apply Hc|].
  rewrite (proj1 buffer_size). unfold fits in L. lia.
Qed.

Lemma run_transact S E (from_tss : Z -> E) (tpm : connection S E) s c cmd handles a s' rsp r :
  valid_call c cmd handles a -> fits (command_frame c cmd handles a) ->
  transact tpm s (command_frame c cmd handles a) empty_buffer = (s', rsp, r) ->
  run_command_with_handles from_tss tpm s c cmd handles a
  = (s', match r with
         | Ok _ => omap_err from_tss (parse_response c a rsp)
         | Err e => Err e
         | Panic => Panic
         end).
Proof.
  intros V L T. unfold run_command_with_handles. rewrite build_frame by assumption.
  rewrite (proj2 buffer_size). fold empty_buffer. rewrite T. destruct r; reflexivity.
Qed.

Lemma auth_response_shape v : wf TpmsAuthResponse v = true ->
  exists n ln at_ h lh, v = VStruct [VTpm2b n ln; VStruct [VInt at_]; VTpm2b h lh]
    /\ 0 <= n < 65536 /\ 0 <= at_ < 256 /\ 0 <= h < 65536
    /\ n <= Z.of_nat (length ln) /\ h <= Z.of_nat (length lh).
Proof.
  intros Hw. destruct v as [| | |vs| | |]; try discriminate.
  change (wf TpmsAuthResponse (VStruct vs)) with
    (match vs with
     | [] => false
     | v1 :: vs => wf Tpm2bDigest v1 &&
        match vs with
        | [] => false
        | v2 :: vs => wf TpmaSession v2 &&
            match vs with
            | [] => false
            | v3 :: vs => wf Tpm2bData v3 && match vs with [] => true | _ => false end
            end
        end
     end) in Hw.
  destruct vs as [|v1 [|v2 [|v3 [|]]]]; try discriminate;
    try (rewrite ?andb_false_r in Hw; discriminate).
  rewrite andb_true_r in Hw. bsplit. rename H into W1, H0 into W2, H1 into W3.
  assert (Sz : forall m v, wf (TTpm2b m) v = true -> exists z l, v = VTpm2b z l
              /\ 0 <= z < 65536 /\ z <= Z.of_nat (length l)).
  { intros m v Hv. destruct v as [| | | | | |z l]; try discriminate. cbn -[in_range] in Hv. bsplit.
    exists z, l. split; [reflexivity|]. apply in_range_u16 in H. split; [assumption|].
    apply N.leb_le in H1. apply N.eqb_eq in H0. lia. }
  destruct (Sz 64%N v1 W1) as (n & ln & -> & Rn & Ln).
  destruct (Sz 64%N v3 W3) as (h & lh & -> & Rh & Lh).
  assert (Sa : exists z, v2 = VStruct [VInt z] /\ 0 <= z < 256).
  { destruct v2 as [| | |ws| | |]; try discriminate. destruct ws as [|w ws]; [discriminate|].
    destruct w; try discriminate. cbn -[in_range] in W2. destruct ws.
    - rewrite andb_true_r in W2. apply in_range_iff in W2. eauto.
    - rewrite andb_false_r in W2. discriminate. }
  destruct Sa as (at_ & -> & Ra).
  exists n, ln, at_, h, lh. repeat (split; [solve [reflexivity|assumption]|]). assumption.
Qed.

(** ** C30 *)
(** What the connection is given: the frame, once, or nothing if it is longer
    than the command buffer. *)
Theorem c30_frame S E (from_tss : Z -> E) (tpm : connection S E) s log c cmd handles a :
  valid_call c cmd handles a ->
  snd (fst (run_command_with_handles from_tss (recording tpm) (s, log) c cmd handles a))
  = if Z.of_nat (length (command_frame c cmd handles a)) <=? 4096
    then log ++ [command_frame c cmd handles a] else log.
Proof.
  intros V. destruct (Z.leb_spec (Z.of_nat (length (command_frame c cmd handles a))) 4096) as [L|L].
  - destruct (transact tpm s (command_frame c cmd handles a) empty_buffer) as [[s' rsp] r] eqn:T.
    erewrite run_transact; [|assumption..|].
    2:{ cbn [recording transact fst]. rewrite T. reflexivity. }
    reflexivity.
  - unfold run_command_with_handles. assert (L' : ~ fits (command_frame c cmd handles a)) by (unfold fits; lia).
    destruct (build_too_long _ _ _ _ V L') as [-> | ->]; reflexivity.
Qed.

(** Recording does not change what happens. *)
Theorem c30_recording S E (from_tss : Z -> E) (tpm : connection S E) s log c cmd handles a :
  let '(s1, r1) := run_command_with_handles from_tss tpm s c cmd handles a in
  let '((s2, _), r2) := run_command_with_handles from_tss (recording tpm) (s, log) c cmd handles a in
  s1 = s2 /\ r1 = r2.
Proof.
  unfold run_command_with_handles. destruct (build_command c cmd handles a); auto.
  cbn [recording transact fst snd].
  destruct (transact tpm s a0 (repeat x00 RESP_BUFFER_SIZE)) as [[s' rsp] r]. destruct r; auto.
Qed.

(** The fields of the frame, read off its bytes. *)
Theorem c30_fields c cmd handles a :
  0 <= code c < 2 ^ 32 ->
  let f := command_frame c cmd handles a in
  fits f ->
  be_val (firstn 2 f) = (if area_is_empty a then 0x8001 else 0x8002)
  /\ be_val (firstn 4 (skipn 2 f)) = Z.of_nat (length f)
  /\ be_val (firstn 4 (skipn 6 f)) = code c
  /\ skipn 10 f = enc (handles_ty c) handles ++ auth_area (sessions_of a) ++ enc (cmd_ty c) cmd.
Proof.
  intros Hc. cbn zeta. unfold fits. rewrite frame_length. intros L. unfold command_frame.
  set (body := command_body c cmd handles a) in *.
  set (tag := match sessions_of a with [] => 0x8001 | _ => 0x8002 end).
  assert (Ht : tag = if area_is_empty a then 0x8001 else 0x8002).
  { unfold tag. destruct a as [[[?|] [?|]] [?|]]; reflexivity. }
  rewrite firstn_app_exact' by (rewrite be_bytes_length; reflexivity).
  rewrite skipn_app_exact' by (rewrite be_bytes_length; reflexivity).
  rewrite firstn_app_exact' by (rewrite be_bytes_length; reflexivity).
  rewrite app_assoc. rewrite skipn_app_exact' by (rewrite app_length, !be_bytes_length; reflexivity).
  rewrite firstn_app_exact' by (rewrite be_bytes_length; reflexivity).
  rewrite app_assoc. rewrite skipn_app_exact' by (rewrite !app_length, !be_bytes_length; reflexivity).
  rewrite !be_val_bytes, Ht. change (pow256 4) with (2 ^ 32).
  rewrite !Z.mod_small by (lia || (change (pow256 2) with 65536; destruct (area_is_empty a); lia)).
  auto.
Qed.

(** A command without sessions. *)
Theorem c30_run_command S E (from_tss : Z -> E) (tpm : connection S E) s log c cmd :
  In c library_commands -> wf (cmd_ty c) cmd = true ->
  snd (fst (run_command from_tss (recording tpm) (s, log) c cmd))
  = log ++ [be_bytes 2 0x8001 ++ be_bytes 4 (Z.of_nat (10 + length (enc (cmd_ty c) cmd)))
            ++ be_bytes 4 (code c) ++ enc (cmd_ty c) cmd].
Proof.
  intros Hin Hw.
  assert (Hh : handles_ty c = TUnit)
    by (cbn in Hin; decompose [or] Hin; try contradiction; subst c; reflexivity).
  assert (Hf : command_frame c cmd (zero_of (handles_ty c)) area0
     = be_bytes 2 0x8001 ++ be_bytes 4 (Z.of_nat (10 + length (enc (cmd_ty c) cmd)))
            ++ be_bytes 4 (code c) ++ enc (cmd_ty c) cmd).
  { unfold command_frame, command_body. rewrite Hh. reflexivity. }
  assert (L : (length (enc (cmd_ty c) cmd) <= 4000)%nat).
  { pose proof (enc_size_of _ _ Hw) as B.
    assert (size_of (cmd_ty c) <= 4000)%N
      by (cbn in Hin; decompose [or] Hin; try contradiction; subst c; vm_compute; discriminate).
    lia. }
  unfold run_command.
  pose proof (c30_frame S E from_tss tpm s log c cmd (zero_of (handles_ty c)) area0) as F.
  destruct (run_command_with_handles from_tss (recording tpm) (s, log) c cmd (zero_of (handles_ty c)) area0)
    as [s' r]. cbn [fst]. cbn [fst] in F. rewrite F.
  - rewrite Hf, !app_length, !be_bytes_length.
    match goal with |- context [?x <=? 4096] => destruct (Z.leb_spec x 4096); [reflexivity|lia] end.
  - split; [|split; [assumption|split; [rewrite Hh; reflexivity|constructor]]].
    cbn in Hin. decompose [or] Hin; try contradiction; subst c; repeat split; cbn; lia.
Qed.

(** GetRandom for 32 bytes. *)
Definition silent : connection unit Z :=
  {| transact := fun s cmd rsp => (s, rsp, Err 7) |}.
Example c30_example :
  snd (fst (run_command id (recording silent) (tt, []) GetRandom (VStruct [VInt 32])))
  = [[x80; x01; x00; x00; x00; x0c; x00; x00; x01; x7b; x00; x20]].
Proof. vm_compute. reflexivity. Qed.

(** ** C31 *)
(** The authorization area of each shape the crate offers: a 4-byte size
    counting the bytes that follow it, then the sessions' structures in order. *)
Theorem c31_area S E (from_tss : Z -> E) (tpm : connection S E) s log c cmd handles a :
  valid_call c cmd handles a ->
  fits (command_frame c cmd handles a) ->
  let wire s := enc TpmsAuthCommand (auth_command s) in
  exists header, length header = 10%nat /\
  forall auth,
    (a = area0 -> auth = []) ->
    (forall t, a = area1 t -> auth = be_bytes 4 (Z.of_nat (length (wire t))) ++ wire t) ->
    (forall t u, a = area2 t u ->
      auth = be_bytes 4 (Z.of_nat (length (wire t) + length (wire u))) ++ wire t ++ wire u) ->
    (forall t u v, a = area3 t u v ->
      auth = be_bytes 4 (Z.of_nat (length (wire t) + length (wire u) + length (wire v)))
             ++ wire t ++ wire u ++ wire v) ->
    (a = area0 \/ (exists t, a = area1 t) \/ (exists t u, a = area2 t u) \/ exists t u v, a = area3 t u v) ->
    snd (fst (run_command_with_handles from_tss (recording tpm) (s, log) c cmd handles a))
    = log ++ [header ++ enc (handles_ty c) handles ++ auth ++ enc (cmd_ty c) cmd].
Proof.
  intros V L. cbn zeta.
  exists (firstn 10 (command_frame c cmd handles a)). split.
  { unfold fits in L. rewrite frame_length in L. rewrite firstn_length, frame_length. lia. }
  intros auth H0 H1 H2 H3 Ha. rewrite c30_frame by assumption.
  destruct (Z.leb_spec (Z.of_nat (length (command_frame c cmd handles a))) 4096); [|unfold fits in L; lia].
  do 2 f_equal. rewrite <- (firstn_skipn 10 (command_frame c cmd handles a)) at 1. f_equal.
  assert (K : skipn 10 (command_frame c cmd handles a) = command_body c cmd handles a) by reflexivity.
  rewrite K. unfold command_body. do 2 f_equal.
  destruct Ha as [E0|[[t E1]|[(t & u & E2)|(t & u & v & E3)]]].
  - rewrite (H0 E0). subst a. reflexivity.
  - rewrite (H1 _ E1). subst a. unfold auth_area, auth_bytes. cbn [sessions_of area1 flat_map].
    rewrite app_nil_r. reflexivity.
  - rewrite (H2 _ _ E2). subst a. unfold auth_area, auth_bytes. cbn [sessions_of area2 flat_map].
    rewrite app_nil_r, app_length. reflexivity.
  - rewrite (H3 _ _ _ E3). subst a. unfold auth_area, auth_bytes. cbn [sessions_of area3 flat_map].
    rewrite app_nil_r, !app_length, Nat.add_assoc. reflexivity.
Qed.

(** PCR_Read with a password session with password 01 02. *)
Example c31_example :
  exists auth, password_new [x01; x02] = Ok auth
  /\ snd (fst (run_command_with_handles id (recording silent) (tt, []) GetRandom (VStruct [VInt 32]) VUnit
          (area2 (password_session auth) (password_session auth))))
  = [[x80; x02; x00; x00; x00; x26; x00; x00; x01; x7b;
      x00; x00; x00; x16;
      x40; x00; x00; x09; x00; x00; x00; x00; x02; x01; x02;
      x40; x00; x00; x09; x00; x00; x00; x00; x02; x01; x02;
      x00; x20]].
Proof. exists (v2b 64 [x01; x02]). vm_compute. auto. Qed.

(** ** C32 *)
(** A response code other than zero is the result, whatever the rest of the
    buffer holds. *)
Theorem c32_error_code S E (from_tss : Z -> E) (tpm : connection S E) s c cmd handles a
    s' tag size rc rest n :
  valid_call c cmd handles a -> fits (command_frame c cmd handles a) ->
  header_ok tag size rc -> rc <> 0 ->
  transact tpm s (command_frame c cmd handles a) empty_buffer
    = (s', response_frame tag size rc rest, Ok n) ->
  run_command_with_handles from_tss tpm s c cmd handles a = (s', Err (from_tss rc)).
Proof.
  intros V L H N T. erewrite run_transact by eassumption.
  rewrite parse_frame by assumption. destruct (Z.eqb_spec rc 0); [congruence|reflexivity].
Qed.

(** A connection that answers every command with the same bytes. *)
Definition canned (bytes : list byte) : connection unit Z :=
  {| transact := fun s cmd rsp => (s, overwrite bytes rsp, Ok (length bytes)) |}.
Example c32_example :
  run_command id (canned [x80; x01; x00; x00; x00; x0a; x00; x00; x01; x43]) tt GetRandom
    (VStruct [VInt 8]) = (tt, Err 0x143).
Proof. vm_compute. reflexivity. Qed.

(** ** C33 *)
(** Exactly the responses that are accepted, and what is returned for them. *)
Theorem c33_accepted_iff S E (from_tss : Z -> E) (tpm : connection S E) s c cmd handles a s' resp rh :
  valid_call c cmd handles a -> wf_connection tpm ->
  (run_command_with_handles from_tss tpm s c cmd handles a = (s', Ok (resp, rh))
   <-> fits (command_frame c cmd handles a)
       /\ exists n tag psize auths ignored,
          let body := response_body c tag psize resp rh auths in
          transact tpm s (command_frame c cmd handles a) empty_buffer
            = (s', response_frame tag (10 + Z.of_nat (length body)) 0 (body ++ ignored), Ok n)
          /\ 0 <= tag < 2 ^ 16 /\ 0 <= psize < 2 ^ 32
          /\ wf (resp_ty c) resp = true /\ canonical (resp_ty c) resp
          /\ wf (resp_handles_ty c) rh = true /\ canonical (resp_handles_ty c) rh
          /\ Forall2 accepted (sessions_of a) auths).
Proof.
  intros V HC. pose proof V as ((_ & _ & _ & T1 & T2) & _ & _ & _). split.
  - intros H. destruct (Z.le_gt_cases (Z.of_nat (length (command_frame c cmd handles a))) 4096) as [L|L].
    2:{ exfalso. revert H. unfold run_command_with_handles.
        assert (L' : ~ fits (command_frame c cmd handles a)) by (unfold fits; lia).
        destruct (build_too_long _ _ _ _ V L') as [-> | ->]; discriminate. }
    split; [assumption|].
    destruct (transact tpm s (command_frame c cmd handles a) empty_buffer) as [[s1 rsp] r] eqn:T.
    erewrite run_transact in H by eassumption.
    destruct r as [n|e|]; [|discriminate..]. apply HC in T. destruct T as [Lr _].
    rewrite empty_buffer_length in Lr.
    destruct (read_header_cases rsp) as [(tag & size & rc & rest & HO & ->)|[Ls _]]; [|lia].
    rewrite parse_frame in H by assumption. rewrite response_frame_length in Lr.
    destruct (rc =? 0) eqn:Erc; [|discriminate]. apply Z.eqb_eq in Erc. subst rc. cbn [negb] in H.
    destruct (Z.ltb_spec (10 + Z.of_nat (length rest)) size); [discriminate|].
    destruct (Z.ltb_spec size 10); [discriminate|].
    destruct (parse_body c a tag (firstn (Z.to_nat (size - 10)) rest)) as [[resp' rh']|e|] eqn:P;
      try discriminate. cbn in H. injection H as <- <- <-.
    apply parse_body_ok in P; [|assumption..].
    destruct P as (ps & auths & Rps & W1 & C1 & W2 & C2 & F & Eb).
    exists n, tag, ps, auths, (skipn (Z.to_nat (size - 10)) rest). cbn zeta. rewrite <- Eb.
    split.
    { rewrite firstn_skipn. do 4 f_equal. rewrite firstn_length. lia. }
    repeat (split; [solve [assumption|apply HO]|]). assumption.
  - intros (L & n & tag & ps & auths & ign & T & Rt & Rps & W1 & C1 & W2 & C2 & F).
    pose proof (HC _ _ _ _ _ _ T) as [Lr _]. rewrite empty_buffer_length, response_frame_length, app_length in Lr.
    erewrite run_transact by eassumption.
    rewrite parse_frame by (repeat split; lia). cbn [Z.eqb negb].
    rewrite app_length.
    match goal with |- context [?x <? ?y] => destruct (Z.ltb_spec x y); [lia|] end.
    match goal with |- context [?x <? 10] => destruct (Z.ltb_spec x 10); [lia|] end.
    rewrite firstn_app_exact' by lia.
    assert (P : parse_body c a tag (response_body c tag ps resp rh auths) = Ok (resp, rh)).
    { apply parse_body_ok; [assumption..|]. exists ps, auths. repeat (split; [assumption|]). reflexivity. }
    rewrite P. reflexivity.
Qed.

(** Two bytes from GetRandom, authorized by a password session. *)
Example c33_example :
  let rsp := [x80; x02; x00; x00; x00; x17; x00; x00; x00; x00; x00; x00; x00; x04;
              x00; x02; xca; xfe; x00; x00; x01; x00; x00] in
  run_command_with_handles id (canned rsp) tt GetRandom (VStruct [VInt 2]) VUnit
    (area1 (password_session (v2b 64 [x01; x02])))
  = (tt, Ok (VStruct [v2b 64 [xca; xfe]], VUnit))
  /\ snd (run_command_with_handles id (canned (rsp ++ [x00])) tt GetRandom (VStruct [VInt 2]) VUnit
           (area1 (password_session (v2b 64 [x01; x02]))))
     = Ok (VStruct [v2b 64 [xca; xfe]], VUnit)
  /\ snd (run_command_with_handles id (canned (firstn 5 rsp ++ [x18] ++ skipn 6 rsp)) tt GetRandom
           (VStruct [VInt 2]) VUnit (area1 (password_session (v2b 64 [x01; x02]))))
     = Err 0x2010.
Proof. vm_compute. auto. Qed.

(** ** C34 *)
Theorem c34_panics_iff_partial S E (from_tss : Z -> E) (tpm : connection S E) s c cmd handles a s' rsp n :
  valid_call c cmd handles a -> fits (command_frame c cmd handles a) ->
  Forall total_session (sessions_of a) ->
  transact tpm s (command_frame c cmd handles a) empty_buffer = (s', rsp, Ok n) ->
  (snd (run_command_with_handles from_tss tpm s c cmd handles a) = Panic
   <-> exists tag size rest, header_ok tag size 0 /\ size < 10 /\ rsp = response_frame tag size 0 rest).
Proof.
  intros V L HT T. pose proof V as ((_ & _ & _ & T1 & T2) & _ & _ & _).
  erewrite run_transact by eassumption. cbn [snd]. split.
  - destruct (read_header_cases rsp) as [(tag & size & rc & rest & HO & ->)|[Ls R]].
    2:{ unfold parse_response. rewrite R. discriminate. }
    rewrite parse_frame by assumption. destruct (Z.eqb_spec rc 0) as [->|]; [|discriminate].
    cbn [negb]. destruct (_ <? size) eqn:?; [discriminate|].
    destruct (Z.ltb_spec size 10).
    + intros _. exists tag, size, rest. auto.
    + pose proof (parse_body_no_panic c a tag (firstn (Z.to_nat (size - 10)) rest) T1 T2 HT) as P.
      destruct (parse_body c a tag (firstn (Z.to_nat (size - 10)) rest)); cbn; congruence.
  - intros (tag & size & rest & HO & Hs & ->). rewrite parse_frame by assumption. cbn [Z.eqb negb].
    destruct (Z.ltb_spec (10 + Z.of_nat (length rest)) size); [lia|].
    destruct (Z.ltb_spec size 10); [reflexivity|lia].
Qed.

(** The sessions of the crate validate without panicking. *)
Theorem c34_password_total auth : total_session (password_session auth).
Proof.
  intros v Hw. apply auth_response_shape in Hw.
  destruct Hw as (n & ln & at_ & h & lh & -> & _). cbn [validate password_session password_validate].
  match goal with |- context [if ?b then _ else _] => destruct b end; discriminate.
Qed.

(** Size fields 9 and 10 in otherwise equal responses, and one of the error
    responses that have no such effect. *)
Example c34_example :
  let rsp size code := [x80; x01; x00; x00; x00; size; x00; x00; x01; code] in
  let zero size := [x80; x01; x00; x00; x00; size; x00; x00; x00; x00] in
  snd (run_command id (canned (zero x09)) tt Startup (VStruct [vi 0])) = Panic
  /\ is_ok (snd (run_command id (canned (zero x0a)) tt Startup (VStruct [vi 0]))) = true
  /\ snd (run_command id (canned (rsp x09 x43)) tt Startup (VStruct [vi 0])) = Err 0x143
  /\ valid_call Startup (VStruct [vi 0]) VUnit area0
  /\ Z.of_nat (length (command_frame Startup (VStruct [vi 0]) VUnit area0)) = 12.
Proof.
  split; [vm_compute; reflexivity|]. split; [vm_compute; reflexivity|]. split; [vm_compute; reflexivity|].
  split; [|vm_compute; reflexivity]. repeat split; try (cbn; lia); try reflexivity; try constructor.
Qed.

(** Ten zero bytes are enough. *)
Theorem c34_refuted :
  exists bytes cmd, wf (cmd_ty Startup) cmd = true
  /\ snd (run_command id (canned bytes) tt Startup cmd) = Panic.
Proof. exists (repeat x00 10), (VStruct [vi 0]). vm_compute. auto. Qed.

(** ** C35 *)
(** The result depends on the reported bytes only, provided they include the
    header and its size field does not exceed their number. *)
Theorem c35_reported_only_partial S1 S2 E (from_tss : Z -> E)
    (tpm1 : connection S1 E) (tpm2 : connection S2 E) s1 s2 c cmd handles a s1' s2' rsp1 rsp2 n :
  valid_call c cmd handles a -> fits (command_frame c cmd handles a) ->
  wf_connection tpm1 -> wf_connection tpm2 ->
  transact tpm1 s1 (command_frame c cmd handles a) empty_buffer = (s1', rsp1, Ok n) ->
  transact tpm2 s2 (command_frame c cmd handles a) empty_buffer = (s2', rsp2, Ok n) ->
  firstn n rsp1 = firstn n rsp2 ->
  (10 <= n)%nat -> be_val (firstn 4 (skipn 2 rsp1)) <= Z.of_nat n ->
  snd (run_command_with_handles from_tss tpm1 s1 c cmd handles a)
  = snd (run_command_with_handles from_tss tpm2 s2 c cmd handles a).
Proof.
  intros V L C1 C2 T1 T2 En H10 Hs.
  erewrite run_transact by eassumption. erewrite (run_transact S2) by eassumption. cbn [snd].
  apply C1 in T1. apply C2 in T2. destruct T1 as [L1 N1]. destruct T2 as [L2 _].
  specialize (N1 n eq_refl). rewrite empty_buffer_length in *. f_equal.
  destruct (read_header_cases rsp1) as [(tag & size & rc & rest & HO & ->)|[Ls _]]; [|lia].
  assert (Es : be_val (firstn 4 (skipn 2 (response_frame tag size rc rest))) = size).
  { unfold response_frame. rewrite skipn_app_exact' by (rewrite be_bytes_length; reflexivity).
    rewrite firstn_app_exact' by (rewrite be_bytes_length; reflexivity).
    rewrite be_val_bytes. apply Z.mod_small. apply HO. }
  rewrite Es in Hs.
  assert (E2 : exists rest2, rsp2 = response_frame tag size rc rest2
                /\ firstn (n - 10) rest = firstn (n - 10) rest2).
  { exists (skipn 10 rsp2).
    replace n with (10 + (n - 10))%nat in En by lia.
    assert (X : forall (l : list byte), firstn (10 + (n - 10)) l = firstn 10 l ++ firstn (n - 10) (skipn 10 l)).
    { intros l. do 10 (destruct l as [|? l]; [cbn; rewrite firstn_nil; reflexivity|]). reflexivity. }
    rewrite !X in En. pose proof (f_equal (firstn 10) En) as En1. pose proof (f_equal (skipn 10) En) as En2.
    rewrite !firstn_app_exact' in En1 by (rewrite firstn_length; lia).
    rewrite !skipn_app_exact' in En2 by (rewrite firstn_length; lia).
    split.
    - rewrite <- (firstn_skipn 10 rsp2) at 1. rewrite <- En1. reflexivity.
    - rewrite <- En2. reflexivity. }
  destruct E2 as (rest2 & -> & Er).
  rewrite !parse_frame by assumption. destruct (negb (rc =? 0)); [reflexivity|].
  rewrite response_frame_length in L1, L2.
  replace (length rest2) with (length rest) by lia.
  destruct (_ <? size) eqn:?; [reflexivity|]. destruct (Z.ltb_spec size 10); [reflexivity|].
  f_equal. replace (Z.to_nat (size - 10)) with (Init.Nat.min (Z.to_nat (size - 10)) (n - 10)) by lia.
  rewrite <- !firstn_firstn, Er. reflexivity.
Qed.

(** Two connections that report the same fourteen bytes and leave the buffer
    differently behind them. *)
Example c35_example :
  let reported := [x80; x01; x00; x00; x00; x0e; x00; x00; x00; x00; x00; x02; xca; xfe] in
  let leaving fill := {| transact := fun (s : unit) (cmd rsp : list byte) =>
                           (s, overwrite (reported ++ fill) rsp, @Ok Z nat 14%nat) |} in
  firstn 14 (snd (fst (transact (leaving [xaa]) tt [] empty_buffer))) = reported
  /\ firstn 14 (snd (fst (transact (leaving []) tt [] empty_buffer))) = reported
  /\ be_val (firstn 4 (skipn 2 reported)) <= 14
  /\ snd (run_command id (leaving [xaa]) tt GetRandom (VStruct [VInt 2])) = Ok (VStruct [v2b 64 [xca; xfe]])
  /\ snd (run_command id (leaving []) tt GetRandom (VStruct [VInt 2])) = Ok (VStruct [v2b 64 [xca; xfe]]).
Proof.
  cbn zeta. split; [vm_compute; reflexivity|]. split; [vm_compute; reflexivity|]. split; [vm_compute; discriminate|].
  split; vm_compute; reflexivity.
Qed.

(** Twelve bytes are reported, the size field says 16, and the four bytes that
    were never sent are decoded as part of the result. *)
Theorem c35_refuted :
  exists (tpm1 tpm2 : connection unit Z) cmd reported,
  wf_connection tpm1 /\ wf_connection tpm2 /\ wf (cmd_ty GetRandom) cmd = true
  /\ (forall command rsp, Z.of_nat (length rsp) = 4096 -> exists rsp1 rsp2,
        transact tpm1 tt command rsp = (tt, rsp1, Ok (length reported))
        /\ transact tpm2 tt command rsp = (tt, rsp2, Ok (length reported))
        /\ firstn (length reported) rsp1 = reported /\ firstn (length reported) rsp2 = reported)
  /\ is_ok (snd (run_command id tpm1 tt GetRandom cmd)) = true
  /\ is_ok (snd (run_command id tpm2 tt GetRandom cmd)) = true
  /\ snd (run_command id tpm1 tt GetRandom cmd) <> snd (run_command id tpm2 tt GetRandom cmd).
Proof.
  set (reported := [x80; x01; x00; x00; x00; x10; x00; x00; x00; x00; x00; x04]).
  set (short := fun (fill : list byte) => {| transact := fun (s : unit) (cmd rsp : list byte) =>
         if Z.of_nat (length rsp) =? 4096 then (s, overwrite (reported ++ fill) rsp, Ok (length reported))
         else (s, rsp, @Err Z nat 1) |}).
  exists (short []), (short [xff]), (VStruct [VInt 4]), reported.
  assert (W : forall fill, (length fill <= 1)%nat -> wf_connection (short fill)).
  { intros fill Hf s cmd rsp s' rsp' r H. unfold short in H. cbn [transact] in H.
    destruct (Z.eqb_spec (Z.of_nat (length rsp)) 4096) as [E|E]; injection H as <- <- <-.
    - assert (length (reported ++ fill) <= length rsp)%nat
        by (rewrite app_length; change (length reported) with 12%nat; lia).
      rewrite overwrite_length by assumption. split; [reflexivity|]. intros n En. injection En as <-.
      rewrite app_length in *. lia.
    - split; [reflexivity|discriminate]. }
  split; [apply W; cbn; lia|]. split; [apply W; cbn; lia|]. split; [reflexivity|]. split.
  { intros command rsp Hl. exists (overwrite (reported ++ []) rsp), (overwrite (reported ++ [xff]) rsp).
    unfold short. cbn [transact]. rewrite Hl. repeat split. }
  split; [vm_compute; reflexivity|]. split; [vm_compute; reflexivity|].
  intros E. vm_compute in E. discriminate.
Qed.

(** ** C36 *)
Theorem c36_new password :
  if (length password <=? 64)%nat
  then exists auth, password_new password = Ok auth /\ wf Tpm2bDigest auth = true
         /\ get_secret auth = Ok password
  else password_new password = Err 0x095.
Proof.
  unfold password_new, get_secret. pose proof (c15_from_bytes 64 password) as H.
  destruct (Nat.leb_spec (length password) 64).
  - destruct (N.leb_spec (N.of_nat (length password)) (N.min 65535 64)); [|lia].
    destruct H as (b & -> & W & _ & _ & G & _). exists b. auto.
  - destruct (N.leb_spec (N.of_nat (length password)) (N.min 65535 64)); [lia|].
    rewrite H. reflexivity.
Qed.

(** What is sent: TPM_RS_PW, no nonce, attributes 0, the password. *)
Theorem c36_auth_command password auth :
  password_new password = Ok auth ->
  wf_session (password_session auth)
  /\ enc TpmsAuthCommand (auth_command (password_session auth))
     = be_bytes 4 0x40000009 ++ be_bytes 2 0 ++ be_bytes 1 0
       ++ be_bytes 2 (Z.of_nat (length password)) ++ password.
Proof.
  intros H. pose proof (c36_new password) as N.
  destruct (Nat.leb_spec (length password) 64); [|congruence].
  destruct N as (auth' & E & W & G). assert (auth' = auth) by congruence. subst auth'.
  unfold wf_session. cbn [auth_command password_session]. unfold password_auth_command.
  split.
  - assert (X : forall h, wf Tpm2bDigest h = true -> wf TpmsAuthCommand
                  (VStruct [VStruct [VInt RS_PW]; tpm2b_default 64; VStruct [VInt 0]; h]) = true).
    { intros h Hh. change (wf TpmsAuthCommand (VStruct [VStruct [VInt RS_PW]; tpm2b_default 64; VStruct [VInt 0]; h]))
        with (in_range false 4 RS_PW && true && (wf Tpm2bDigest (tpm2b_default 64)
              && (in_range false 1 0 && true && (wf Tpm2bDigest h && true)))).
      rewrite Hh. reflexivity. }
    apply X. assumption.
  - unfold password_new in E. unfold from_bytes in E.
    destruct (N.min 65535 64 <? N.of_nat (length password))%N eqn:?; [discriminate|].
    cbn [omap_err] in E. injection E as <-.
    rewrite Z.mod_small by lia.
    assert (X : forall z l h, enc TpmsAuthCommand
                  (VStruct [VStruct [VInt z]; VTpm2b 0 l; VStruct [VInt 0]; h])
                = be_bytes 4 z ++ be_bytes 2 0 ++ be_bytes 1 0 ++ enc Tpm2bDigest h).
    { intros. cbn -[be_bytes]. rewrite ?app_nil_r. reflexivity. }
    unfold tpm2b_default. rewrite X. do 3 f_equal. cbn -[be_bytes overwrite repeat N.to_nat].
    f_equal. rewrite Nat2Z.id. unfold overwrite. apply firstn_app_exact.
Qed.

(** What is accepted: no nonce, continueSession set, no hmac. *)
Theorem c36_validate auth resp :
  wf TpmsAuthResponse resp = true ->
  validate (password_session auth) resp
  = if list_eq_dec Byte.byte_eq_dec (enc TpmsAuthResponse resp) [x00; x00; x01; x00; x00]
    then Ok tt else Err 0x2003.
Proof.
  intros Hw. apply auth_response_shape in Hw.
  destruct Hw as (n & ln & at_ & h & lh & -> & Rn & Ra & Rh & Ln & Lh).
  assert (E : enc TpmsAuthResponse (VStruct [VTpm2b n ln; VStruct [VInt at_]; VTpm2b h lh])
              = be_bytes 2 n ++ firstn (Z.to_nat n) ln ++ be_bytes 1 at_
                ++ be_bytes 2 h ++ firstn (Z.to_nat h) lh).
  { cbn -[be_bytes]. rewrite ?app_nil_r, <- ?app_assoc. reflexivity. }
  rewrite E. cbn [validate password_session password_validate get_size].
  destruct (list_eq_dec _ _ _) as [Heq|Hne].
  - assert (Hn : n = 0).
    { assert (X : be_val (be_bytes 2 n) = 0).
      { apply (f_equal (firstn 2)) in Heq.
        rewrite firstn_app_exact' in Heq by (rewrite be_bytes_length; reflexivity).
        rewrite Heq. reflexivity. }
      rewrite be_val_bytes, Z.mod_small in X; assumption. }
    subst n. cbn [Z.to_nat firstn app] in Heq. apply (f_equal (skipn 2)) in Heq.
    rewrite skipn_app_exact' in Heq by (rewrite be_bytes_length; reflexivity). cbn [skipn] in Heq.
    assert (Ha : at_ = 1).
    { assert (X : be_val (be_bytes 1 at_) = 1).
      { apply (f_equal (firstn 1)) in Heq.
        rewrite firstn_app_exact' in Heq by (rewrite be_bytes_length; reflexivity).
        rewrite Heq. reflexivity. }
      rewrite be_val_bytes, Z.mod_small in X; assumption. }
    subst at_. apply (f_equal (skipn 1)) in Heq.
    rewrite skipn_app_exact' in Heq by (rewrite be_bytes_length; reflexivity). cbn [skipn] in Heq.
    assert (Hh : h = 0).
    { assert (X : be_val (be_bytes 2 h) = 0).
      { apply (f_equal (firstn 2)) in Heq.
        rewrite firstn_app_exact' in Heq by (rewrite be_bytes_length; reflexivity).
        rewrite Heq. reflexivity. }
      rewrite be_val_bytes, Z.mod_small in X; assumption. }
    subst h. reflexivity.
  - destruct (Z.eqb_spec n 0), (Z.eqb_spec at_ 1), (Z.eqb_spec h 0); try reflexivity.
    subst. contradiction Hne.
Qed.

Example c36_example :
  exists auth, password_new (repeat x70 64) = Ok auth /\ password_new (repeat x70 65) = Err 0x095
  /\ password_validate (VStruct [v2b 64 []; vi 1; v2b 64 []]) = Ok tt
  /\ password_validate (VStruct [v2b 64 []; vi 0; v2b 64 []]) = Err 0x2003
  /\ wf TpmsAuthResponse (VStruct [v2b 64 []; vi 1; v2b 64 []]) = true.
Proof. exists (v2b 64 (repeat x70 64)). vm_compute. auto. Qed.

(** ** C37 *)
Theorem c37_too_long S E (from_tss : Z -> E) (tpm : connection S E) s log c cmd handles a :
  valid_call c cmd handles a ->
  ~ fits (command_frame c cmd handles a) ->
  fst (run_command_with_handles from_tss (recording tpm) (s, log) c cmd handles a) = (s, log)
  /\ (snd (run_command_with_handles from_tss (recording tpm) (s, log) c cmd handles a)
       = Err (from_tss 0x904)
     \/ snd (run_command_with_handles from_tss (recording tpm) (s, log) c cmd handles a) = Panic).
Proof.
  intros V L. unfold run_command_with_handles.
  destruct (build_too_long _ _ _ _ V L) as [-> | ->]; cbn; auto.
Qed.

(** The commands of the library always fit, with any sessions. *)
Theorem c37_library_fits c cmd handles a :
  In c library_commands -> valid_call c cmd handles a ->
  fits (command_frame c cmd handles a).
Proof.
  intros Hin (_ & Hw & Hh & Ha). unfold fits. rewrite frame_length. unfold command_body. rewrite !app_length.
  pose proof (enc_size_of _ _ Hw) as B1. pose proof (enc_size_of _ _ Hh) as B2.
  assert (size_of (cmd_ty c) <= 1000)%N
    by (cbn in Hin; decompose [or] Hin; try contradiction; subst c; vm_compute; discriminate).
  assert (size_of (handles_ty c) <= 1000)%N
    by (cbn in Hin; decompose [or] Hin; try contradiction; subst c; vm_compute; discriminate).
  assert (B3 : (length (auth_area (sessions_of a)) <= 1000)%nat).
  { assert (B : forall s, wf_session s -> (length (enc TpmsAuthCommand (auth_command s)) <= 300)%nat).
    { intros s Hs. pose proof (enc_size_of _ _ Hs).
      assert (size_of TpmsAuthCommand <= 300)%N by (vm_compute; discriminate). lia. }
    unfold auth_area, auth_bytes. unfold wf_area in Ha.
    destruct a as [[[s1|] [s2|]] [s3|]]; cbn [sessions_of flat_map] in *;
      rewrite ?app_length, ?be_bytes_length; cbn [length];
      repeat match goal with H : Forall _ (_ :: _) |- _ => inversion H; subst; clear H end;
      repeat match goal with H : wf_session ?x |- _ => apply B in H end; lia. }
  lia.
Qed.

(** A command made of a 5000-byte buffer: the panic comes from marshalling
    sized buffers (C05). *)
Definition BigCommand : command :=
  {| code := 1; cmd_ty := TTpm2b 5000; handles_ty := TUnit; resp_ty := TUnit; resp_handles_ty := TUnit |}.
Example c37_example :
  valid_call BigCommand (v2b 5000 (repeat x11 4085)) VUnit area0
  /\ (length (command_frame BigCommand (v2b 5000 (repeat x11 4085)) VUnit area0) =? 4097)%nat = true
  /\ build_command BigCommand (v2b 5000 (repeat x11 4085)) VUnit area0 = Panic
  /\ is_ok (build_command BigCommand (v2b 5000 (repeat x11 4084)) VUnit area0) = true.
Proof.
  split.
  - repeat split; try (cbn; lia); try reflexivity; try constructor.
  - vm_compute. auto.
Qed.

(** ** C55 *)
(** An error of the connection is returned as it is. *)
Theorem c55_connection_error S E (from_tss : Z -> E) (tpm : connection S E) s c cmd handles a s' rsp e :
  valid_call c cmd handles a -> fits (command_frame c cmd handles a) ->
  transact tpm s (command_frame c cmd handles a) empty_buffer = (s', rsp, Err e) ->
  run_command_with_handles from_tss tpm s c cmd handles a = (s', Err e).
Proof. intros V L T. erewrite run_transact by eassumption. reflexivity. Qed.
(** However the connection answers, it is called once. *)
Theorem c55_once S E (from_tss : Z -> E) (tpm : connection S E) s c cmd handles a :
  valid_call c cmd handles a -> fits (command_frame c cmd handles a) ->
  let counting := {| transact := fun (x : nat * S) command response =>
    let '(s', rsp, r) := transact tpm (snd x) command response in ((1 + fst x, s')%nat, rsp, r) |} in
  fst (fst (run_command_with_handles from_tss counting (O, s) c cmd handles a)) = 1%nat.
Proof.
  intros V L counting.
  destruct (transact tpm s (command_frame c cmd handles a) empty_buffer) as [[s' rsp] r] eqn:T.
  erewrite run_transact; [|assumption..|].
  2:{ unfold counting. cbn [transact snd fst]. rewrite T. reflexivity. }
  reflexivity.
Qed.

Example c55_example :
  run_command id silent tt Startup (VStruct [vi 1]) = (tt, Err 7).
Proof. vm_compute. reflexivity. Qed.

(** ** C56 *)
(** The errors a response with code zero can lead to. *)
Theorem c56_local_errors_partial S E (from_tss : Z -> E) (tpm : connection S E) s c cmd handles a
    s' tag size rest n err :
  valid_call c cmd handles a -> fits (command_frame c cmd handles a) ->
  header_ok tag size 0 ->
  transact tpm s (command_frame c cmd handles a) empty_buffer
    = (s', response_frame tag size 0 rest, Ok n) ->
  snd (run_command_with_handles from_tss tpm s c cmd handles a) = Err err ->
  exists e, err = from_tss e
  /\ (In e [0x095; 0x904; 0x098; 0x2005; 0x2010]
      \/ exists sess auth, In sess (sessions_of a) /\ validate sess auth = Err e).
Proof.
  intros V L HO T. erewrite run_transact by eassumption. cbn [snd].
  rewrite parse_frame by assumption. cbn [Z.eqb negb].
  destruct (_ <? size) eqn:?.
  { cbn. intros H. injection H as <-. eexists. split; [reflexivity|]. left. cbn. tauto. }
  destruct (size <? 10); [discriminate|].
  set (u := firstn _ rest). clearbody u.
  assert (M : forall e, In (tss_of_merr e) [0x095; 0x904; 0x098; 0x2005; 0x2010])
    by (intros []; cbn; tauto).
  assert (D : forall x, parse_body c a tag u = Err x ->
    In x [0x095; 0x904; 0x098; 0x2005; 0x2010]
      \/ exists sess auth, In sess (sessions_of a) /\ validate sess auth = Err x).
  { intros x. unfold parse_body.
    destruct (unmarshal (resp_handles_ty c) u) as [[h|e|] u1]; cbn [omap_err obind]; try discriminate.
    2:{ intros H. injection H as <-. auto. }
    match goal with |- context [let '(_, _) := ?x in _] => destruct x as [[p|e|] u2] end;
      cbn [omap_err obind]; try discriminate.
    2:{ intros H. injection H as <-. auto. }
    destruct (unmarshal (resp_ty c) u2) as [[r|e|] u3]; cbn [omap_err obind]; try discriminate.
    2:{ intros H. injection H as <-. auto. }
    rewrite read_sessions_all.
    assert (A : forall l b y, read_all l b = Err y -> In y [0x095; 0x904; 0x098; 0x2005; 0x2010]
      \/ exists sess auth, In sess l /\ validate sess auth = Err y).
    { induction l as [|s0 l IH]; intros b y; cbn [read_all]; [discriminate|].
      destruct (read_auth s0 b) as [b1|z|] eqn:R; cbn [obind]; try discriminate.
      - intros H. apply IH in H. destruct H as [H|(se & au & I & W)]; [auto|].
        right. exists se, au. split; [right; assumption|assumption].
      - intros H. injection H as <-. revert R. unfold read_auth.
        destruct (unmarshal TpmsAuthResponse b) as [[v|e|] r']; try discriminate.
        + destruct (validate s0 v) eqn:Ev; cbn; try discriminate.
          intros H. injection H as <-. right. exists s0, v. split; [left; reflexivity|assumption].
        + intros H. injection H as <-. auto. }
    destruct (read_all (sessions_of a) u3) as [u4|z|] eqn:R; cbn [obind]; try discriminate.
    - destruct u4; [discriminate|]. intros H. injection H as <-. left. cbn. tauto.
    - intros H. injection H as <-. eapply A. eassumption. }
  destruct (parse_body c a tag u) as [|x|]; cbn; try discriminate.
  intros H. injection H as <-. exists x. split; [reflexivity|]. apply D. reflexivity.
Qed.

(** Local errors: no body, a buffer longer than its type, bytes left over, and a
    size field beyond the buffer. *)
Example c56_example :
  let rsp hi lo body := [x80; x01; x00; x00; hi; lo; x00; x00; x00; x00] ++ body in
  let answer r := snd (run_command id (canned r) tt GetRandom (VStruct [VInt 2])) in
  answer (rsp x00 x0a []) = Err 0x904
  /\ answer (rsp x00 x4d ([x00; x41] ++ repeat x11 65)) = Err 0x904
  /\ answer (rsp x00 x0d [x00; x00; xff]) = Err 0x2010
  /\ answer (rsp x20 x00 []) = Err 0x2005
  /\ is_ok (answer (rsp x00 x0c [x00; x00])) = true.
Proof.
  cbn zeta. repeat (split; [vm_compute; reflexivity|]). vm_compute. reflexivity.
Qed.

(** A success response that lacks its body, and an error response with code
    TPM_RC_MEMORY, give the same result. *)
Theorem c56_refuted :
  exists success error cmd,
  wf (cmd_ty GetRandom) cmd = true
  /\ firstn 4 (skipn 6 success) = be_bytes 4 0
  /\ firstn 4 (skipn 6 error) = be_bytes 4 0x904
  /\ snd (run_command id (canned success) tt GetRandom cmd)
     = snd (run_command id (canned error) tt GetRandom cmd).
Proof.
  exists [x80; x01; x00; x00; x00; x0a; x00; x00; x00; x00],
         [x80; x01; x00; x00; x00; x0a; x00; x00; x09; x04], (VStruct [VInt 4]).
  vm_compute. auto.
Qed.
