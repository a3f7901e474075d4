(** Which bytes of the response buffer the client decodes (C35). *)
From Coq Require Import String ZArith NArith List Lia Bool.
From Coq Require Import Init.Byte.
From Verif Require Import Prelude Types Marshal WireSpec MarshalProofs MarshalFacts Catalogue Samples Errors
  Client ClientSpec ClientProofs ClientFacts Tcp TcpSpec SimulatorProofs.
Import ListNotations.
Open Scope Z_scope.

(** The fields of a response header. *)
Definition size_field (rsp : list byte) : Z := be_val (firstn 4 (skipn 2 rsp)).
Definition code_field (rsp : list byte) : Z := be_val (firstn 4 (skipn 6 rsp)).
(** A connection that does not touch the buffer behind the bytes it reports. *)
Definition leaves_rest {S E} (tpm : connection S E) : Prop :=
  forall s cmd rsp s' rsp' n, transact tpm s cmd rsp = (s', rsp', Ok n) -> skipn n rsp' = skipn n rsp.

Lemma size_field_frame tag size rc rest : header_ok tag size rc -> size_field (response_frame tag size rc rest) = size.
Proof.
  intros HO. unfold size_field, response_frame. rewrite skipn_app_exact' by (rewrite be_bytes_length; reflexivity).
  rewrite firstn_app_exact' by (rewrite be_bytes_length; reflexivity).
  rewrite be_val_bytes. apply Z.mod_small. apply HO.
Qed.
Lemma code_field_frame tag size rc rest : header_ok tag size rc -> code_field (response_frame tag size rc rest) = rc.
Proof.
  intros HO. unfold code_field, response_frame. rewrite (app_assoc (be_bytes 2 tag)).
  rewrite skipn_app_exact' by (rewrite app_length, !be_bytes_length; reflexivity).
  rewrite firstn_app_exact' by (rewrite be_bytes_length; reflexivity).
  rewrite be_val_bytes. apply Z.mod_small. apply HO.
Qed.

Lemma parse_same c a rsp1 rsp2 : length rsp1 = length rsp2 -> firstn 10 rsp1 = firstn 10 rsp2 ->
  (code_field rsp1 = 0 ->
   firstn (Z.to_nat (size_field rsp1)) rsp1 = firstn (Z.to_nat (size_field rsp1)) rsp2) ->
  (10 <= length rsp1)%nat -> parse_response c a rsp1 = parse_response c a rsp2.
Proof.
  intros L H10 Hs LL.
  destruct (read_header_cases rsp1) as [(tag & size & rc & rest & HO & ->)|[Ls _]]; [|lia].
  rewrite size_field_frame, code_field_frame in Hs by assumption.
  assert (F : forall r, firstn 10 (response_frame tag size rc r) = response_frame tag size rc []).
  { intros r. unfold response_frame. rewrite !app_assoc, app_nil_r, <- !app_assoc.
    rewrite (app_assoc (be_bytes 4 size)), app_assoc.
    apply firstn_app_exact'. rewrite !app_length, !be_bytes_length. reflexivity. }
  assert (K : forall r, skipn 10 (response_frame tag size rc r) = r).
  { intros r. unfold response_frame. rewrite (app_assoc (be_bytes 4 size)), app_assoc.
    apply skipn_app_exact'. rewrite !app_length, !be_bytes_length. reflexivity. }
  assert (E2 : rsp2 = response_frame tag size rc (skipn 10 rsp2)).
  { rewrite <- (firstn_skipn 10 rsp2) at 1. rewrite <- H10, F. unfold response_frame.
    rewrite app_nil_r, <- !app_assoc. reflexivity. }
  set (rest2 := skipn 10 rsp2) in *. clearbody rest2. subst rsp2.
  rewrite !parse_frame by assumption. rewrite !response_frame_length in L. replace (length rest2) with (length rest) by lia.
  destruct (Z.eqb_spec rc 0) as [->|N]; [|reflexivity]. cbn [negb]. specialize (Hs eq_refl).
  destruct (_ <? size) eqn:?; [reflexivity|]. destruct (Z.ltb_spec size 10); [reflexivity|]. f_equal.
  replace (Z.to_nat size) with (10 + Z.to_nat (size - 10))%nat in Hs by lia.
  apply (f_equal (skipn 10)) in Hs. rewrite !skipn_firstn_comm, !K in Hs.
  replace (10 + Z.to_nat (size - 10) - 10)%nat with (Z.to_nat (size - 10)) in Hs by lia. exact Hs.
Qed.

(** ** C35 *)
(** What the result depends on, whatever is reported: the ten bytes of the
    header and, if the response code is zero, as many bytes as the size field
    says.  The numbers of bytes that the connections report do not matter. *)
Theorem c35_decoded_partial S1 S2 E (from_tss : Z -> E)
    (tpm1 : connection S1 E) (tpm2 : connection S2 E) s1 s2 c cmd handles a s1' s2' rsp1 rsp2 n1 n2 :
  valid_call c cmd handles a -> fits (command_frame c cmd handles a) ->
  wf_connection tpm1 -> wf_connection tpm2 ->
  transact tpm1 s1 (command_frame c cmd handles a) empty_buffer = (s1', rsp1, Ok n1) ->
  transact tpm2 s2 (command_frame c cmd handles a) empty_buffer = (s2', rsp2, Ok n2) ->
  firstn 10 rsp1 = firstn 10 rsp2 ->
  (code_field rsp1 = 0 ->
   firstn (Z.to_nat (size_field rsp1)) rsp1 = firstn (Z.to_nat (size_field rsp1)) rsp2) ->
  snd (run_command_with_handles from_tss tpm1 s1 c cmd handles a)
  = snd (run_command_with_handles from_tss tpm2 s2 c cmd handles a).
Proof.
  intros V L C1 C2 T1 T2 H10 Hs.
  erewrite run_transact by eassumption. erewrite (run_transact S2) by eassumption. cbn [snd].
  apply C1 in T1. apply C2 in T2. destruct T1 as [L1 _]. destruct T2 as [L2 _].
  rewrite empty_buffer_length in *. f_equal. apply parse_same; try assumption; lia.
Qed.

(** A connection that leaves the rest of the buffer alone makes the property
    true: the client gives it a buffer of zeros, so equal reported bytes give
    equal results, however long they are and whatever their size field says. *)
Theorem c35_rest_left S1 S2 E (from_tss : Z -> E)
    (tpm1 : connection S1 E) (tpm2 : connection S2 E) s1 s2 c cmd handles a s1' s2' rsp1 rsp2 n :
  valid_call c cmd handles a -> fits (command_frame c cmd handles a) ->
  leaves_rest tpm1 -> leaves_rest tpm2 ->
  transact tpm1 s1 (command_frame c cmd handles a) empty_buffer = (s1', rsp1, Ok n) ->
  transact tpm2 s2 (command_frame c cmd handles a) empty_buffer = (s2', rsp2, Ok n) ->
  firstn n rsp1 = firstn n rsp2 ->
  snd (run_command_with_handles from_tss tpm1 s1 c cmd handles a)
  = snd (run_command_with_handles from_tss tpm2 s2 c cmd handles a).
Proof.
  intros V L C1 C2 T1 T2 En.
  erewrite run_transact by eassumption. erewrite (run_transact S2) by eassumption. cbn [snd].
  apply C1 in T1. apply C2 in T2.
  rewrite <- (firstn_skipn n rsp1), <- (firstn_skipn n rsp2), T1, T2, En. reflexivity.
Qed.

Lemma read_loop_all {W H C} (sys : world W H C) fuel : forall h n w w' bs,
  read_loop sys fuel h n w = (w', bs, Ok tt) -> length bs = n.
Proof.
  induction fuel as [|fuel IH]; intros h n w w' bs; destruct n as [|n]; cbn [read_loop].
  1,3: intros E; injection E as <- <-; reflexivity.
  { discriminate. }
  destruct (read sys w h (S n)) as [w1 [ps|e|]]; try discriminate. destruct ps as [|p ps]; [discriminate|].
  destruct (Nat.ltb_spec (S n) (length (p :: ps))); [discriminate|].
  destruct (read_loop sys fuel h (S n - length (p :: ps)) w1) as [[w2 rest] r] eqn:R.
  intros E. injection E as <- <- ->. apply IH in R. rewrite app_comm_cons, app_length. lia.
Qed.

(** The TCP connection of the library is of that kind, over every network. *)
Theorem c35_tcp_leaves_rest : forall (W H C : Type) (sys : world W H C) (c : tcp H), leaves_rest (tcp_connection sys c).
Proof.
  intros W H C sys c w command response w' response' n. cbn [tcp_connection transact]. unfold tcp_transact.
  destruct (2 ^ 32 <=? Z.of_nat (length command)); [discriminate|].
  destruct (io_bind _ _ w) as [w1 [len|e|]]; try discriminate.
  destruct (Z.of_nat (length response) <? len); [discriminate|]. unfold read_exact.
  destruct (read_loop sys (Z.to_nat len) (tpm_tcp c) (Z.to_nat len) w1) as [[w2 bs] [[]|e|]] eqn:R; try discriminate.
  destruct (check_response_end sys (tpm_tcp c) w2) as [w3 r3].
  intros E. assert (E1 : response' = overwrite bs response) by congruence.
  assert (E2 : omap (fun _ => Z.to_nat len) r3 = Ok n) by congruence.
  destruct r3; try discriminate. injection E2 as <-. apply read_loop_all in R. subst response'.
  unfold overwrite. rewrite R. apply skipn_app_exact'. symmetry. exact R.
Qed.

(** So over TCP the result depends on nothing but the reported bytes: two
    networks and two TPMs that answer a command with the same bytes give the
    same result. *)
Theorem c35_over_tcp W1 H1 C1 W2 H2 C2 (sys1 : world W1 H1 C1) (sys2 : world W2 H2 C2) (c1 : tcp H1) (c2 : tcp H2)
    (from_tss : Z -> io_error) w1 w2 c cmd handles a w1' w2' rsp1 rsp2 n :
  valid_call c cmd handles a -> fits (command_frame c cmd handles a) ->
  transact (tcp_connection sys1 c1) w1 (command_frame c cmd handles a) empty_buffer = (w1', rsp1, Ok n) ->
  transact (tcp_connection sys2 c2) w2 (command_frame c cmd handles a) empty_buffer = (w2', rsp2, Ok n) ->
  firstn n rsp1 = firstn n rsp2 ->
  snd (run_command_with_handles from_tss (tcp_connection sys1 c1) w1 c cmd handles a)
  = snd (run_command_with_handles from_tss (tcp_connection sys2 c2) w2 c cmd handles a).
Proof.
  intros V L T1 T2 En.
  exact (c35_rest_left _ _ _ from_tss _ _ _ _ _ _ _ _ _ _ _ _ _ V L
           (c35_tcp_leaves_rest _ _ _ sys1 c1) (c35_tcp_leaves_rest _ _ _ sys2 c2) T1 T2 En).
Qed.

(** Even then it need not be what the TPM sent: the TPM answers with twelve
    bytes whose size field says 16 and that announce four random bytes, and
    the caller gets four zeros, here in pieces of one byte and of two. *)
Example c35_tcp_example :
  let answer := [x80; x01; x00; x00; x00; x10; x00; x00; x00; x00; x00; x04] in
  let w := ([x00; x00; x00; x0c] ++ answer ++ [x00; x00; x00; x00], []) in
  let c := {| tpm_tcp := true; plat_tcp := false; locality := 0 |} in
  let conn k := tcp_connection (pipe (fun _ => k)) c in
  let cmd := VStruct [VInt 4] in
  valid_call GetRandom cmd VUnit area0 /\ fits (command_frame GetRandom cmd VUnit area0)
  /\ (let '(_, rsp, r) := transact (conn 1%nat) w (command_frame GetRandom cmd VUnit area0) empty_buffer in
      firstn 12 rsp = answer /\ r = Ok 12%nat)
  /\ (let '(_, rsp, r) := transact (conn 2%nat) w (command_frame GetRandom cmd VUnit area0) empty_buffer in
      firstn 12 rsp = answer /\ r = Ok 12%nat)
  /\ snd (run_command (fun _ => InvalidData) (conn 1%nat) w GetRandom cmd) = Ok (VStruct [v2b 64 [x00; x00; x00; x00]])
  /\ snd (run_command (fun _ => InvalidData) (conn 2%nat) w GetRandom cmd) = Ok (VStruct [v2b 64 [x00; x00; x00; x00]]).
Proof.
  cbn zeta. split; [repeat split; try (cbn; lia); try reflexivity; try constructor|].
  split; [vm_compute; congruence|]. split; [vm_compute; auto|]. split; [vm_compute; auto|].
  split; vm_compute; reflexivity.
Qed.
