(** Properties of client and server together (C49, C52). *)
From Coq Require Import String ZArith NArith List Lia Bool.
From Coq Require Import Init.Byte.
From Verif Require Import Prelude Types Marshal WireSpec MarshalProofs MarshalFacts Catalogue Errors Tpm2b Client
  ClientSpec ClientProofs ClientFacts Server ServerSpec ServerProofs ServerFacts EndToEnd.
Import ListNotations.
Open Scope Z_scope.

(** A connection to the server is one of the two. *)
Definition to_server {D X E} (dr : Drbg D) (es : EntropySource X) (tpm : connection (context D X) E) : Prop :=
  tpm = direct dr es \/ tpm = in_place dr es.

(** Both hand the command to the server and return what it answers. *)
Lemma to_server_serve {D X E} (dr : Drbg D) (es : EntropySource X) (tpm : connection (context D X) E) ctx cmd rsp :
  to_server dr es tpm -> (length cmd <= length rsp)%nat ->
  exists k, request_of k = cmd /\ length (buffer_of k) = length rsp
    /\ transact tpm ctx cmd rsp
       = let '(c, r, o) := serve dr es ctx k in (c, r, match o with Ok n => Ok n | _ => Panic end).
Proof.
  intros [-> | ->] F.
  - exists (Separate cmd rsp). split; [reflexivity|]. split; reflexivity.
  - exists (InPlace (overwrite cmd rsp) (length cmd)). split; [apply firstn_overwrite|].
    split; [apply overwrite_length; assumption|]. cbn [in_place transact serve].
    destruct (Nat.ltb_spec (length rsp) (length cmd)); [lia|reflexivity].
Qed.

Lemma served_wf {D X} (dr : Drbg D) (es : EntropySource X) ctx q resp c' resp' r :
  served dr es ctx q resp (c', resp', r) ->
  length resp' = length resp /\ forall n, r = Ok n -> (n <= length resp)%nat.
Proof.
  unfold served. destruct (verdict_of q (length resp)) as [rc|n] eqn:V.
  - intros S. assert (resp' = error_response resp rc) by congruence.
    assert (r = Ok (error_size resp)) by congruence. subst. rewrite error_response_length.
    split; [reflexivity|]. intros n E. injection E as <-. unfold error_size.
    destruct (Nat.ltb_spec (length resp) 10); lia.
  - apply verdict_room in V.
    destruct (try_get_random dr es ctx (firstn n (skipn 10 resp))) as [[c1 out] o].
    intros [Lo S]. assert (B : length (firstn 10 resp ++ out ++ skipn (10 + n) resp) = length resp).
    { rewrite !app_length, firstn_length, skipn_length. lia. }
    destruct o as [u|e|].
    + assert (E1 : resp' = random_response resp out) by congruence.
      assert (E2 : r = Ok (10 + n)%nat) by congruence. rewrite E1, random_response_length by lia.
      split; [reflexivity|]. intros m E. rewrite E in E2. assert (m = 10 + n)%nat by congruence. lia.
    + assert (E1 : resp' = firstn 10 resp ++ out ++ skipn (10 + n) resp) by congruence.
      split; [congruence|]. intros m E. rewrite E in S. congruence.
    + assert (E1 : resp' = firstn 10 resp ++ out ++ skipn (10 + n) resp) by congruence.
      split; [congruence|]. intros m E. rewrite E in S. congruence.
Qed.

Lemma to_server_wf {D X E} (dr : Drbg D) (es : EntropySource X) (tpm : connection (context D X) E) :
  wf_drbg dr -> to_server dr es tpm -> wf_connection tpm.
Proof.
  intros Hd T ctx cmd rsp s' rsp' r E0.
  destruct (Nat.ltb_spec (length rsp) (length cmd)) as [L|L].
  - destruct T as [-> | ->]; cbn [direct in_place transact] in E0.
    + pose proof (separate_spec dr es Hd ctx cmd rsp) as S.
      destruct (execute_command_separate dr es ctx cmd rsp) as [[c1 r1] o]. injection E0 as -> -> <-.
      apply served_wf in S. split; [apply S|]. intros n E1. destruct o; try discriminate. apply S. congruence.
    + destruct (Nat.ltb_spec (length rsp) (length cmd)); [|lia]. injection E0 as _ <- <-.
      split; [reflexivity|discriminate].
  - destruct (to_server_serve dr es tpm ctx cmd rsp T L) as (k & Rq & Lb & Tr). rewrite E0 in Tr.
    pose proof (serve_spec D X dr es ctx k Hd) as S.
    destruct (serve dr es ctx k) as [[c1 r1] o]. injection Tr as -> -> ->.
    apply served_wf in S. rewrite <- Lb. split; [apply S|]. intros n E1. destruct o; try discriminate. apply S. congruence.
Qed.

Lemma fits_buffer cmd : fits cmd -> (length cmd <= length empty_buffer)%nat.
Proof. unfold fits. rewrite empty_buffer_length. lia. Qed.

Lemma error_frame resp rc : (10 <= length resp)%nat -> 0 <= rc < 2 ^ 32 ->
  exists tag size, header_ok tag size rc /\ error_response resp rc = response_frame tag size rc (skipn 10 resp).
Proof.
  intros L R. exists (be_val (firstn 2 resp)), (be_val (firstn 4 (skipn 2 resp))). split.
  - pose proof (be_val_range (firstn 2 resp)) as R1. pose proof (be_val_range (firstn 4 (skipn 2 resp))) as R2.
    rewrite firstn_length in R1. rewrite firstn_length, skipn_length in R2.
    replace (Nat.min 2 (length resp)) with 2%nat in R1 by lia.
    replace (Nat.min 4 (length resp - 2)) with 4%nat in R2 by lia. split; [exact R1|split; [exact R2|exact R]].
  - unfold error_response, response_frame. destruct (Nat.ltb_spec (length resp) 10); [lia|].
    do 10 (destruct resp as [|? resp]; [cbn in *; lia|]). cbn [firstn skipn app].
    match goal with |- _ = be_bytes 2 (be_val ?l) ++ be_bytes 4 (be_val ?m) ++ _ =>
      pose proof (be_bytes_val l) as Q1; pose proof (be_bytes_val m) as Q2 end.
    cbn [length] in Q1, Q2. rewrite Q1, Q2. reflexivity.
Qed.

Lemma frame_code c cmd handles a : 0 <= code c < 2 ^ 32 -> fits (command_frame c cmd handles a) ->
  10 <= Z.of_nat (length (command_frame c cmd handles a))
  /\ size_field (command_frame c cmd handles a) = Z.of_nat (length (command_frame c cmd handles a))
  /\ code_field (command_frame c cmd handles a) = code c.
Proof.
  intros R F. destruct (c30_fields c cmd handles a R F) as (_ & H2 & H3 & _). split; [|split; assumption].
  unfold command_frame. rewrite !app_length, !be_bytes_length. lia.
Qed.

(** ** C52 *)
(** Any command but GetRandom comes back as TPM_RC_COMMAND_CODE, and the
    server is as it was. *)
Theorem c52_unsupported D X E (from_tss : Z -> E) (dr : Drbg D) (es : EntropySource X) tpm ctx
    c cmd handles a :
  wf_drbg dr -> to_server dr es tpm ->
  valid_call c cmd handles a -> fits (command_frame c cmd handles a) ->
  code c <> 0x17B ->
  run_command_with_handles from_tss tpm ctx c cmd handles a = (ctx, Err (from_tss 0x143)).
Proof.
  intros Hd T V F C.
  destruct (to_server_serve dr es tpm ctx _ _ T (fits_buffer _ F)) as (k & Rq & L & Tr).
  rewrite empty_buffer_length in L.
  destruct (frame_code c cmd handles a (proj1 (proj1 V)) F) as (L10 & Sz & Cd).
  rewrite (c44_code D X dr es ctx k Hd) in Tr; [|rewrite Rq; assumption..|rewrite Rq, Cd; assumption].
  destruct (error_frame (buffer_of k) 0x143) as (tag & size & Hh & Er); [lia|lia|].
  rewrite Er in Tr.
  apply (c32_error_code _ E from_tss tpm ctx c cmd handles a ctx tag size 0x143 _ _ V F Hh ltac:(lia) Tr).
Qed.

(** In particular the three others the library has. *)
Theorem c52_library D X E (from_tss : Z -> E) (dr : Drbg D) (es : EntropySource X) tpm ctx c cmd :
  wf_drbg dr -> to_server dr es tpm ->
  In c [GetCapability; PcrRead; Startup] -> wf (cmd_ty c) cmd = true ->
  run_command from_tss tpm ctx c cmd = (ctx, Err (from_tss 0x143)).
Proof.
  intros Hd T Hin Hw. unfold run_command.
  assert (V : valid_call c cmd (zero_of (handles_ty c)) area0).
  { cbn in Hin. decompose [or] Hin; try contradiction; subst c;
      (split; [repeat split; cbn; lia|]; split; [exact Hw|]; split; [reflexivity|constructor]). }
  rewrite (c52_unsupported D X E from_tss dr es tpm ctx c cmd _ area0 Hd T V); [reflexivity| |].
  - apply (c37_library_fits c cmd _ area0); [|exact V].
    cbn in Hin |- *. tauto.
  - cbn in Hin. decompose [or] Hin; try contradiction; subst c; cbn; lia.
Qed.

(** Startup(CLEAR) to the server with the test generator. *)
Example c52_example :
  wf (cmd_ty Startup) (VStruct [VStruct [VInt 0]]) = true
  /\ run_command id (direct FakeDrbg FakeEntropy) fake Startup (VStruct [VStruct [VInt 0]]) = (fake, Err 0x143)
  /\ run_command id (in_place FakeDrbg FakeEntropy) fake Startup (VStruct [VStruct [VInt 0]]) = (fake, Err 0x143).
Proof. split; [reflexivity|]. split; vm_compute; reflexivity. Qed.

(** ** C49 *)
Lemma random_frame n : 0 <= n < 65536 ->
  command_frame GetRandom (VStruct [VInt n]) (zero_of (handles_ty GetRandom)) area0
  = [x80; x01; x00; x00; x00; x0c; x00; x00; x01; x7b] ++ be_bytes 2 n.
Proof.
  intros R. unfold command_frame, command_body.
  change (enc (handles_ty GetRandom) (zero_of (handles_ty GetRandom))) with (@nil byte).
  change (auth_area (sessions_of area0)) with (@nil byte).
  replace (enc (cmd_ty GetRandom) (VStruct [VInt n])) with (be_bytes 2 n)
    by (change (enc (cmd_ty GetRandom) (VStruct [VInt n])) with (be_bytes 2 n ++ []); symmetry; apply app_nil_r).
  reflexivity.
Qed.

Lemma random_valid n : 0 <= n < 65536 ->
  valid_call GetRandom (VStruct [VInt n]) (zero_of (handles_ty GetRandom)) area0.
Proof.
  intros R. split; [repeat split; cbn; lia|]. split; [|split; [reflexivity|constructor]].
  cbn -[in_range]. rewrite andb_true_r. apply in_range_iff. exact R.
Qed.

Lemma random_asks n : 0 <= n < 65536 ->
  asks_for ([x80; x01; x00; x00; x00; x0c; x00; x00; x01; x7b] ++ be_bytes 2 n) n.
Proof.
  intros R. repeat split.
  - rewrite app_length, be_bytes_length. cbn. lia.
  - unfold count_field. change (skipn 10 ([x80; x01; x00; x00; x00; x0c; x00; x00; x01; x7b] ++ be_bytes 2 n)) with (be_bytes 2 n).
    rewrite firstn_all2 by (rewrite be_bytes_length; lia). rewrite be_val_bytes. apply Z.mod_small. exact R.
Qed.

(** What the client makes of the server's answer to GetRandom for [n] bytes: if
    it takes it at all, the bytes drawn are read as a sized buffer, and what
    the caller gets is two bytes short. *)
Theorem c49_two_short_partial D X E (from_tss : Z -> E) (dr : Drbg D) (es : EntropySource X)
    (tpm : connection (context D X) E) ctx n ctx' resp :
  wf_drbg dr -> to_server dr es tpm -> 0 <= n < 65536 ->
  run_command from_tss tpm ctx GetRandom (VStruct [VInt n]) = (ctx', Ok resp) ->
  exists digest bytes dest out,
    resp = VStruct [digest] /\ get_buffer digest = Ok bytes
    /\ draws dr es ctx dest ctx' out
    /\ out = be_bytes 2 (n - 2) ++ bytes
    /\ Z.of_nat (length bytes) = n - 2.
Proof.
  intros Hd T R H. unfold run_command in H.
  pose proof (random_valid n R) as V. pose proof (random_frame n R) as Fr.
  assert (F : fits (command_frame GetRandom (VStruct [VInt n]) (zero_of (handles_ty GetRandom)) area0)).
  { rewrite Fr. unfold fits. rewrite app_length, be_bytes_length. cbn [length]. lia. }
  destruct (run_command_with_handles from_tss tpm ctx GetRandom (VStruct [VInt n]) (zero_of (handles_ty GetRandom)) area0)
    as [s1 r1] eqn:Run.
  destruct r1 as [[resp1 rh]| |]; try discriminate. injection H as -> ->.
  apply c33_accepted_iff in Run; [|assumption|eapply to_server_wf; eassumption].
  destruct Run as (_ & m & tag & psize & auths & ign & Run). cbn zeta in Run.
  destruct Run as (Tr & Rt & _ & W & _ & Wh & _ & Acc).
  cbn [sessions_of area0] in Acc. inversion Acc. subst auths. clear Acc.
  destruct (to_server_serve dr es tpm ctx _ _ T (fits_buffer _ F)) as (k & Rq & L & Tr2).
  rewrite empty_buffer_length in L. rewrite Tr in Tr2. rewrite Fr in Rq.
  pose proof (random_asks n R) as A. rewrite <- Rq in A.
  pose proof (serve_spec D X dr es ctx k Hd) as S. unfold served in S.
  rewrite (asks_for_verdict _ _ _ A) in S. rewrite L, Z2Nat.id in S by lia.
  set (body := response_body GetRandom tag psize resp rh []) in *.
  destruct (Z.ltb_spec 4096 (10 + n)) as [Big|Small].
  { exfalso. rewrite S in Tr2.
    destruct (error_frame (buffer_of k) 0x904) as (t2 & s2 & Hh & Er); [lia|lia|]. rewrite Er in Tr2.
    assert (Q : response_frame tag (10 + Z.of_nat (length body)) 0 (body ++ ign)
                = response_frame t2 s2 0x904 (skipn 10 (buffer_of k))) by congruence.
    unfold response_frame in Q. apply (f_equal (fun l => firstn 4 (skipn 6 l))) in Q.
    rewrite (app_assoc (be_bytes 2 tag)), (app_assoc (be_bytes 2 t2)) in Q.
    rewrite !skipn_app_exact' in Q by (rewrite app_length, !be_bytes_length; reflexivity).
    rewrite !firstn_app_exact' in Q by (rewrite be_bytes_length; reflexivity). discriminate. }
  destruct (try_get_random dr es ctx (firstn (Z.to_nat n) (skipn 10 (buffer_of k)))) as [[c1 out] o] eqn:Dr.
  destruct S as [Lo S]. destruct o as [[]|e|]; rewrite S in Tr2; [|congruence..].
  assert (c1 = ctx') by congruence. subst c1.
  assert (Q : response_frame tag (10 + Z.of_nat (length body)) 0 (body ++ ign) = random_response (buffer_of k) out)
    by congruence. clear Tr Tr2 S.
  unfold response_frame, random_response in Q.
  assert (Q1 : be_bytes 2 tag = be_bytes 2 0x8001).
  { apply (f_equal (firstn 2)) in Q. rewrite !firstn_app_exact' in Q by (rewrite be_bytes_length; reflexivity). exact Q. }
  apply (f_equal (skipn 2)) in Q. rewrite !skipn_app_exact' in Q by (rewrite be_bytes_length; reflexivity).
  assert (Q2 : be_bytes 4 (10 + Z.of_nat (length body)) = be_bytes 4 (10 + Z.of_nat (length out))).
  { apply (f_equal (firstn 4)) in Q. rewrite !firstn_app_exact' in Q by (rewrite be_bytes_length; reflexivity). exact Q. }
  apply (f_equal (skipn 8)) in Q. rewrite !(app_assoc (be_bytes 4 _)) in Q.
  rewrite !skipn_app_exact' in Q by (rewrite app_length, !be_bytes_length; reflexivity).
  assert (Tag : tag = 0x8001).
  { apply (f_equal be_val) in Q1. rewrite !be_val_bytes in Q1. change (pow256 2) with 65536 in Q1.
    rewrite !Z.mod_small in Q1 by lia. exact Q1. }
  assert (Lb : length body = length out).
  { assert (Bd : Z.of_nat (length body) + Z.of_nat (length ign) = Z.of_nat (length out) + (4096 - (10 + n))).
    { apply (f_equal (@length byte)) in Q. rewrite !app_length, skipn_length in Q. lia. }
    apply (f_equal be_val) in Q2. rewrite !be_val_bytes in Q2. change (pow256 4) with 4294967296 in Q2.
    rewrite !Z.mod_small in Q2 by lia. lia. }
  assert (Qb : body = out).
  { apply (f_equal (firstn (length body))) in Q. rewrite firstn_app_exact in Q.
    rewrite Lb, firstn_app_exact in Q. exact Q. }
  unfold body, response_body in Qb. rewrite Tag in Qb. change (0x8001 =? 0x8002) with false in Qb.
  cbn iota in Qb. cbn [flat_map app] in Qb. rewrite app_nil_r in Qb.
  assert (rh = VUnit) by (destruct rh; try discriminate Wh; reflexivity). subst rh.
  change (enc (resp_handles_ty GetRandom) VUnit) with (@nil byte) in Qb. cbn [app] in Qb.
  destruct resp as [| | |vs| | |]; try discriminate W.
  assert (Sh : exists size field, vs = [VTpm2b size field] /\ 0 <= size < 65536 /\ size <= Z.of_nat (length field)).
  { destruct vs as [|v vs]; [discriminate W|]. cbn -[wf Tpm2bDigest] in W.
    destruct v as [| | | | | |size field]; try discriminate W.
    destruct vs as [|]; [|cbn in W; rewrite andb_false_r in W; discriminate W].
    exists size, field. split; [reflexivity|]. cbn -[in_range] in W. bsplit.
    repeat match goal with
    | X : in_range _ _ _ = true |- _ => apply in_range_iff in X
    | X : (_ <=? _)%N = true |- _ => apply N.leb_le in X
    | X : (_ =? _)%N = true |- _ => apply N.eqb_eq in X end.
    change (pow256 2) with 65536 in *. lia. }
  destruct Sh as (size & field & -> & Rs & Ls).
  change (enc (resp_ty GetRandom) (VStruct [VTpm2b size field]))
    with ((be_bytes 2 size ++ firstn (Z.to_nat size) field) ++ []) in Qb. rewrite app_nil_r in Qb.
  assert (Lf : length (firstn (Z.to_nat size) field) = Z.to_nat size) by (rewrite firstn_length; lia).
  assert (Sz : size = n - 2).
  { apply (f_equal (@length byte)) in Qb. rewrite app_length, be_bytes_length, Lf in Qb. lia. }
  exists (VTpm2b size field), (firstn (Z.to_nat size) field), (firstn (Z.to_nat n) (skipn 10 (buffer_of k))), out.
  split; [reflexivity|]. split.
  { cbn [get_buffer]. unfold usize. rewrite Z.mod_small by lia.
    destruct (N.ltb_spec (N.of_nat (length field)) (Z.to_N size)); [lia|]. f_equal. f_equal. lia. }
  split; [apply try_draws; exact Dr|]. split; [rewrite <- Qb, <- Sz; reflexivity|]. lia.
Qed.

(** What the client makes of the [out] drawn: its first two bytes are taken for
    the size of a digest of at most 64 bytes. *)
Definition taken_for_digest (out : list byte) : outcome Z val :=
  match out with
  | b1 :: b2 :: bytes =>
      let size := be_val [b1; b2] in
      if (Z.of_nat (length bytes) <? size) || (64 <? size) then Err 0x904          (* TPM_RC_MEMORY *)
      else if size <? Z.of_nat (length bytes) then Err 0x2010                      (* bytes left over *)
      else Ok (VStruct [VTpm2b size (bytes ++ repeat x00 (64 - length bytes))])
  | _ => Err 0x904
  end.

Lemma parse_random out :
  parse_body GetRandom area0 0x8001 out = omap (fun v => (v, VUnit)) (taken_for_digest out).
Proof.
  unfold parse_body. change (unmarshal (resp_handles_ty GetRandom) out) with (@Ok merr val VUnit, out).
  cbn [obind omap_err]. change (0x8001 =? st_Sessions) with false. cbn iota. cbn [obind omap_err].
  assert (U : unmarshal (resp_ty GetRandom) out
              = uthen (unm_tpm2b 64 out) (fun v b => (@Ok merr val (VStruct [v]), b))).
  { change (unmarshal (resp_ty GetRandom) out)
      with (umap VStruct (uthen (unm_tpm2b 64 out) (fun v b => umap (cons v) (@Ok merr (list val) [], b)))).
    destruct (unm_tpm2b 64 out) as [[v|e|] b]; reflexivity. }
  rewrite U. clear U.
  unfold unm_tpm2b, unm_int, unm_bytes, buf_get, taken_for_digest.
  destruct out as [|b1 [|b2 bytes]]; [reflexivity|reflexivity|].
  change (N.of_nat 2) with 2%N.
  destruct (N.ltb_spec (N.of_nat (length (b1 :: b2 :: bytes))) 2) as [L|L]; [cbn [length] in L; lia|].
  change (N.to_nat 2) with 2%nat. cbn [firstn skipn omap]. cbn zeta. unfold int_of_be.
  set (size := be_val [b1; b2]).
  assert (R : 0 <= size < 65536) by exact (be_val_range [b1; b2]).
  cbn [andb].
  destruct (N.ltb_spec (N.of_nat (length bytes)) (Z.to_N size)) as [L2|L2];
    destruct (Z.ltb_spec (Z.of_nat (length bytes)) size); try lia; [reflexivity|]. cbn [orb].
  rewrite firstn_length_le by lia.
  destruct (N.ltb_spec 64 (N.of_nat (N.to_nat (Z.to_N size)))); destruct (Z.ltb_spec 64 size); try lia; [reflexivity|].
  cbn [uthen omap_err obind].
  destruct (Z.ltb_spec size (Z.of_nat (length bytes))).
  - destruct (skipn (N.to_nat (Z.to_N size)) bytes) eqn:Es; [|reflexivity].
    apply (f_equal (@length byte)) in Es. rewrite skipn_length in Es. cbn [length] in Es. lia.
  - rewrite skipn_all2, firstn_all2 by lia. unfold overwrite.
    replace (skipn (length bytes) (repeat x00 (N.to_nat 64))) with (repeat x00 (64 - length bytes)); [reflexivity|].
    replace (N.to_nat 64) with (length bytes + (64 - length bytes))%nat by lia.
    rewrite repeat_app, skipn_app, skipn_all2, repeat_length, Nat.sub_diag by (rewrite repeat_length; lia).
    reflexivity.
Qed.

(** Exactly what the caller gets, for every number of bytes and every output of
    the generator: at most one of the 65536 beginnings of the output is taken,
    and every number above 4086 is refused. *)
Theorem c49_exactly_partial D X E (from_tss : Z -> E) (dr : Drbg D) (es : EntropySource X)
    (tpm : connection (context D X) E) ctx n dest ctx' out :
  wf_drbg dr -> ignores_contents dr -> to_server dr es tpm -> 0 <= n < 65536 -> Z.of_nat (length dest) = n ->
  draws dr es ctx dest ctx' out ->
  run_command from_tss tpm ctx GetRandom (VStruct [VInt n])
  = if n <=? 4086 then (ctx', omap_err from_tss (taken_for_digest out)) else (ctx, Err (from_tss 0x904)).
Proof.
  intros Hd Hi T R Ld Dr. unfold run_command.
  pose proof (random_valid n R) as V. pose proof (random_frame n R) as Fr.
  assert (F : fits (command_frame GetRandom (VStruct [VInt n]) (zero_of (handles_ty GetRandom)) area0)).
  { rewrite Fr. unfold fits. rewrite app_length, be_bytes_length. cbn [length]. lia. }
  destruct (to_server_serve dr es tpm ctx _ _ T (fits_buffer _ F)) as (k & Rq & L & Tr).
  rewrite empty_buffer_length in L. rewrite Fr in Rq.
  pose proof (random_asks n R) as A. rewrite <- Rq in A.
  destruct (Z.leb_spec n 4086) as [Small|Big].
  - assert (Dr' : draws dr es ctx (firstn (Z.to_nat n) (skipn 10 (buffer_of k))) ctx' out).
    { assert (Lq : length dest = length (firstn (Z.to_nat n) (skipn 10 (buffer_of k)))).
      { rewrite firstn_length, skipn_length. lia. }
      inversion Dr; subst.
      - eapply Draws_plain; [eassumption|]. rewrite <- (Hi _ _ _ _ Lq). assumption.
      - eapply Draws_reseeded; try eassumption. rewrite <- (Hi _ _ _ _ Lq). assumption. }
    destruct (c45_success D X dr es ctx k n ctx' out Hd A ltac:(lia) Dr') as [Lo Es].
    rewrite Es in Tr. rewrite (run_transact _ _ _ _ _ _ _ _ _ _ _ _ V F Tr).
    change (be_bytes 2 0x8001 ++ be_bytes 4 (10 + n) ++ be_bytes 4 0 ++ out ++ skipn (Z.to_nat (10 + n)) (buffer_of k))
      with (response_frame 0x8001 (10 + n) 0 (out ++ skipn (Z.to_nat (10 + n)) (buffer_of k))).
    rewrite parse_frame by (repeat split; lia). cbn [Z.eqb negb]. rewrite app_length, skipn_length.
    destruct (Z.ltb_spec (10 + Z.of_nat (length out + (length (buffer_of k) - Z.to_nat (10 + n)))) (10 + n)); [lia|].
    destruct (Z.ltb_spec (10 + n) 10); [lia|].
    replace (Z.to_nat (10 + n - 10)) with (length out) by lia. rewrite firstn_app_exact, parse_random.
    destruct (taken_for_digest out); reflexivity.
  - rewrite (c45_no_room D X dr es ctx k n Hd A) in Tr by lia.
    destruct (error_frame (buffer_of k) 0x904) as (tag & size & Hh & Er); [lia|lia|]. rewrite Er in Tr.
    rewrite (c32_error_code _ E from_tss tpm ctx _ _ _ _ ctx tag size 0x904 _ _ V F Hh ltac:(lia) Tr). reflexivity.
Qed.

(** So no caller ever gets the number of bytes they asked for; with the test
    generator the client reports an error for the server's good answer. *)
Theorem c49_refuted :
  exists n, 0 < n /\
  (exists ctx', serve FakeDrbg FakeEntropy fake (Separate get12 empty_buffer)
     = (ctx', random_response empty_buffer (count_up 0 (Z.to_nat n)), Ok (Z.to_nat (10 + n))))
  /\ snd (run_command id (direct FakeDrbg FakeEntropy) fake GetRandom (VStruct [VInt n])) = Err 0x904.
Proof.
  exists 12. split; [lia|]. split; [eexists; vm_compute; reflexivity|]. vm_compute. reflexivity.
Qed.

(** The hypotheses are met: a generator whose output happens to start with a
    fitting size is taken, and ten bytes are returned for twelve. *)
Definition LuckyDrbg : Drbg Z := {|
  entropy_default := []; nonce_default := [];
  instantiate := fun _ _ _ => Ok 0; reseed := fun d _ _ => (d, Ok tt);
  next_u32 := fun d _ => (d, Ok 0); next_u64 := fun d _ => (d, Ok 0);
  fill_bytes := fun d _ dest =>
    (d, firstn (length dest) ([x00; x0a] ++ repeat xab (length dest)), Ok tt);
  requires_reseeding := fun d => (d, false)
|}.
Example c49_example :
  wf_drbg LuckyDrbg /\ ignores_contents LuckyDrbg
  /\ draws LuckyDrbg FakeEntropy fake (repeat x00 12) fake ([x00; x0a] ++ repeat xab 10)
  /\ taken_for_digest ([x00; x0a] ++ repeat xab 10) = Ok (VStruct [VTpm2b 10 (repeat xab 10 ++ repeat x00 54)])
  /\ taken_for_digest ([x00; x0a] ++ repeat xab 11) = Err 0x2010
  /\ taken_for_digest ([x00; x0a] ++ repeat xab 9) = Err 0x904
  /\ run_command id (direct LuckyDrbg FakeEntropy) fake GetRandom (VStruct [VInt 12])
     = (fake, Ok (VStruct [VTpm2b 10 (repeat xab 10 ++ repeat x00 54)]))
  /\ run_command id (direct LuckyDrbg FakeEntropy) fake GetRandom (VStruct [VInt 13]) = (fake, Err 0x2010)
  /\ run_command id (direct LuckyDrbg FakeEntropy) fake GetRandom (VStruct [VInt 4087]) = (fake, Err 0x904).
Proof.
  split; [|split; [|split; [|repeat split; vm_compute; reflexivity]]].
  - intros d ai dest d' out r H. cbn -[firstn] in H. injection H as _ <- _.
    rewrite firstn_length. cbn [length app]. rewrite repeat_length. lia.
  - intros d ai x y L. cbn -[firstn]. rewrite L. reflexivity.
  - eapply Draws_plain; vm_compute; reflexivity.
Qed.
