(** Properties of the TCP transport and the simulator process
    (C38-C42, C59-C63). *)
From Coq Require Import String ZArith NArith List Lia Bool.
From Coq Require Import Init.Byte.
From Verif Require Import Prelude Client ClientSpec Tcp TcpSpec TcpProofs SimulatorProofs.
Import ListNotations.
Open Scope Z_scope.

(** The frame of a command: code 8, locality, length, command. *)
Definition command_frame {H} (c : tcp H) (command : list byte) : list byte :=
  u32be 8 ++ be_bytes 1 (locality c) ++ u32be (Z.of_nat (length command)) ++ command.
(** The frame of a response: length, payload, four zero bytes. *)
Definition response_frame (payload : list byte) : list byte :=
  u32be (Z.of_nat (length payload)) ++ payload ++ [x00; x00; x00; x00].

(** A connection to the well-behaved peer, and things to try it with. *)
Definition ends (l : Z) : tcp bool := {| tpm_tcp := true; plat_tcp := false; locality := l |}.
Definition get_random_cmd : list byte := [x80; x01; x00; x00; x00; x0c; x00; x00; x01; x7b; x00; x02].
Definition random_rsp : list byte :=
  [x80; x01; x00; x00; x00; x0e; x00; x00; x00; x00; x00; x02; xaa; xbb].
Definition byte_by_byte : nat -> nat := fun _ => 1%nat.
Lemma pipe_wf pieces : wf_world (pipe pieces).
Proof.
  split.
  - intros w h buf w' n E. cbn in E. injection E as _ <-. apply le_n.
  - intros w h n w' bs E. cbn in E. injection E as _ <-.
    match goal with |- (length (firstn ?k ?l) <= _)%nat => pose proof (firstn_le_length k l); pose proof (firstn_length k l) end. lia.
Qed.
Lemma pipe_quiet pieces : quiet_world (pipe pieces).
Proof. split; [apply pipe_wf|]. repeat split; intros; reflexivity. Qed.

(** ** C38 *)

(** Whatever the peer does: the bytes said are a prefix of the frame, in order,
    on the TPM port; and unless all of it was said, nothing is read and the
    result is no success. *)
Theorem c38_frame : forall (W H C : Type) (sys : world W H C) (c : tcp H) (w : W) (l : list (event H C)) command response,
  wf_world sys ->
  exists w' response' seen r,
    tcp_transact (watched sys) c (w, l) command response = ((w', l ++ seen), response', r)
    /\ (exists more, said seen ++ more = send (tpm_tcp c) (command_frame c command))
    /\ (said seen = send (tpm_tcp c) (command_frame c command)
        \/ seen = said seen /\ is_ok r = false /\ response' = response).
Proof.
  intros W H C sys c w l command response Hw.
  destruct (transact_spec sys Hw c w l command response) as (w' & response' & seen & r & E & P & D & _).
  exists w', response', seen, r. auto.
Qed.
Example c38_frame_case :
  let '((_, l), _, r) := tcp_transact (watched (pipe byte_by_byte)) (ends 3)
                           ((response_frame random_rsp, []), []) get_random_cmd (repeat x00 20) in
  (firstn 21 l, r)
  = (map (Out true) ([x00; x00; x00; x08] ++ [x03] ++ [x00; x00; x00; x0c] ++ get_random_cmd), Ok 14%nat).
Proof. vm_compute. reflexivity. Qed.

(** The stream takes fewer bytes: an error, at once. *)
Theorem c38_short : forall (W H C : Type) (sys : world W H C) (c : tcp H) (w w1 : W) command response n,
  Z.of_nat (length command) < 2 ^ 32 ->
  write sys w (tpm_tcp c) (command_frame c command) = (w1, Ok n) -> n <> length (command_frame c command) ->
  tcp_transact sys c w command response = (w1, response, Err WriteZero).
Proof.
  intros W H C sys c w w1 command response n Hl E Ne. unfold tcp_transact.
  replace (2 ^ 32 <=? Z.of_nat (length command)) with false by (symmetry; apply Z.leb_gt; exact Hl).
  change (u32_bytes SendCommand ++ be_bytes 1 (locality c) ++ u32_bytes (Z.of_nat (length command)) ++ command)
    with (command_frame c command).
  unfold io_bind at 1, write_whole, io_bind. rewrite E.
  replace (n =? length (command_frame c command))%nat with false by (symmetry; apply Nat.eqb_neq; exact Ne).
  reflexivity.
Qed.
Example c38_short_case :
  (* a stream that takes ten bytes at a time *)
  let lazy : world (list byte) unit unit := {|
    tcp_connect := fun w _ _ => (w, Ok tt);
    write := fun w _ buf => (w ++ firstn 10 buf, Ok (Nat.min 10 (length buf)));
    read := fun w _ _ => (w, Ok []); shutdown := fun w _ => (w, Ok tt); sleep_one_second := fun w => w;
    read_to_string := fun w _ => (w, Ok []); spawn := fun w _ _ _ => (w, Ok tt); kill := fun w _ => (w, Ok tt) |} in
  tcp_transact lazy {| tpm_tcp := tt; plat_tcp := tt; locality := 0 |} [] get_random_cmd [x55]
  = ([x00; x00; x00; x08; x00; x00; x00; x00; x0c; x80], [x55], Err WriteZero).
Proof. vm_compute. reflexivity. Qed.

(** The stream refuses: its own error is returned. *)
Theorem c38_refused : forall (W H C : Type) (sys : world W H C) (c : tcp H) (w w1 : W) command response e,
  Z.of_nat (length command) < 2 ^ 32 ->
  write sys w (tpm_tcp c) (command_frame c command) = (w1, Err e) ->
  tcp_transact sys c w command response = (w1, response, Err e).
Proof.
  intros W H C sys c w w1 command response e Hl E. unfold tcp_transact.
  replace (2 ^ 32 <=? Z.of_nat (length command)) with false by (symmetry; apply Z.leb_gt; exact Hl).
  change (u32_bytes SendCommand ++ be_bytes 1 (locality c) ++ u32_bytes (Z.of_nat (length command)) ++ command)
    with (command_frame c command).
  unfold io_bind at 1, write_whole, io_bind. rewrite E. reflexivity.
Qed.

(** A command whose length does not fit the frame is refused before anything is
    written. *)
Theorem c38_too_long : forall (W H C : Type) (sys : world W H C) (c : tcp H) (w : W) command response,
  2 ^ 32 <= Z.of_nat (length command) ->
  tcp_transact sys c w command response = (w, response, Err InvalidInput).
Proof.
  intros W H C sys c w command response Hl. unfold tcp_transact.
  replace (2 ^ 32 <=? Z.of_nat (length command)) with true by (symmetry; apply Z.leb_le; exact Hl). reflexivity.
Qed.

(** ** C39 *)

(** A success consumed one response frame, and returned its payload in the
    front of the buffer; the rest of the buffer is as it was. *)
Theorem c39_success : forall (W H C : Type) (sys : world W H C) (c : tcp H) (w : W) (l : list (event H C)) command response
    w' l' response' n,
  wf_world sys ->
  tcp_transact (watched sys) c (w, l) command response = ((w', l'), response', Ok n) ->
  exists payload,
    response' = payload ++ skipn (length payload) response
    /\ n = length payload /\ (n <= length response)%nat
    /\ l' = l ++ send (tpm_tcp c) (command_frame c command) ++ receive (tpm_tcp c) (response_frame payload).
Proof.
  intros W H C sys c w l command response w' l' response' n Hw E.
  destruct (transact_spec sys Hw c w l command response) as (w1 & response1 & seen & r & E1 & _ & _ & L & G).
  rewrite E in E1. assert (r = Ok n) by congruence. assert (response1 = response') by congruence.
  assert (l' = l ++ seen) by congruence. subst. clear E E1.
  destruct (G n eq_refl) as (Ln & _ & Sk & ->). exists (firstn n response').
  assert (Lf : length (firstn n response') = n) by (rewrite firstn_length; lia). rewrite Lf.
  split; [rewrite <- Sk; symmetry; apply firstn_skipn|]. split; [reflexivity|]. split; [exact Ln|].
  unfold response_frame. rewrite Lf. rewrite (app_assoc (u32be _)), (receive_app _ (u32be _ ++ _)). reflexivity.
Qed.
Example c39_success_case :
  let '((_, l), rsp, r) := tcp_transact (watched (pipe byte_by_byte)) (ends 0)
                           ((response_frame random_rsp ++ [x77], []), []) get_random_cmd (repeat x55 16) in
  (skipn 21 l, rsp, r)
  = (map (In true) ([x00; x00; x00; x0e] ++ random_rsp ++ [x00; x00; x00; x00]), random_rsp ++ [x55; x55], Ok 14%nat).
Proof. vm_compute. reflexivity. Qed.

(** Over any history of successful calls of any kind, all that is said and
    heard is exactly the conversations of the calls, one after the other. *)
Theorem c39_history : forall (W H C : Type) (sys : world W H C) os (c : tcp H) (w : W) (l : list (event H C)) c' w' l' rs,
  wf_world sys ->
  perform_all (watched sys) c os (w, l) = (c', (w', l'), Some rs) ->
  l' = l ++ conversations c os rs /\ Forall2 answers os rs.
Proof.
  intros W H C sys os c w l c' w' l' rs Hw. revert c w l rs.
  induction os as [|o os IH]; intros c w l rs E; cbn [perform_all] in E.
  - assert (rs = []) by congruence. assert (l' = l) by congruence. subst. cbn. rewrite app_nil_r. auto.
  - destruct (perform_spec sys Hw c o w l) as (w1 & seen & r & E1 & _ & G). rewrite E1 in E.
    destruct r as [a|e|]; try discriminate. destruct (G a eq_refl) as [A ->].
    match type of E with context [perform_all _ ?c1 os _] => set (c1' := c1) in * end.
    destruct (perform_all (watched sys) c1' os (w1, l ++ conversation c o a)) as [[c2 [w2 l2]] [rs2|]] eqn:E2; [|discriminate].
    cbn [option_map] in E. assert (rs = a :: rs2) by congruence. assert (l2 = l') by congruence.
    assert (w2 = w') by congruence. assert (c2 = c') by congruence. subst.
    destruct (IH _ _ _ _ E2) as [-> F]. cbn [conversations]. rewrite <- app_assoc. split; [reflexivity|]. constructor; assumption.
Qed.

(** And if the peer has the answers to a history in store, cut in whatever
    pieces, the caller gets exactly these answers, and what follows them stays
    in the stream. *)
Theorem c39_answers : forall pieces os rs l w,
  Forall2 answers os rs -> Forall writable os ->
  perform_all (pipe pieces) (ends l) os (in_store (@conversations bool unit (ends l) os rs) w)
  = (ends (fold_left locality_after os l), w, Some rs).
Proof.
  intros pieces os rs l w F. revert l. induction F as [|o a os rs A F IH]; intros l Hw.
  - cbn. destruct w; reflexivity.
  - cbn [perform_all conversations fold_left]. rewrite in_store_app.
    unfold ends at 1 2. rewrite (pipe_performs pieces l o a _ A (Forall_inv Hw)).
    change {| tpm_tcp := true; plat_tcp := false; locality := locality_after l o |} with (ends (locality_after l o)).
    unfold ends at 2. cbn [tpm_tcp plat_tcp locality].
    change {| tpm_tcp := true; plat_tcp := false; locality := locality_after l o |} with (ends (locality_after l o)).
    rewrite (IH _ (Forall_inv_tail Hw)). reflexivity.
Qed.
Example c39_answers_case :
  let os := [Signal PowerOn; Locality 2; Transact get_random_cmd (repeat x00 20); ActSignaled 1; ResponseSizes;
             Transact get_random_cmd (repeat x00 14)] in
  let rs := [Done; Done; Payload random_rsp; Number 7; Sizes 4096 1 4096 2; Payload random_rsp] in
  Forall2 answers os rs /\ Forall writable os
  /\ perform_all (pipe byte_by_byte) (ends 0) os (in_store (@conversations bool unit (ends 0) os rs) ([xee], []))
     = (ends 2, ([xee], []), Some rs).
Proof.
  split; [|split].
  - repeat constructor; vm_compute; intuition congruence.
  - repeat constructor; vm_compute; reflexivity.
  - vm_compute. reflexivity.
Qed.

(** The transport is a connection in the sense of the client's properties. *)
Theorem c39_connection : forall (W H C : Type) (sys : world W H C) (c : tcp H), wf_connection (tcp_connection sys c).
Proof. intros W H C sys c. apply tcp_wf. Qed.

(** ** C40 *)

(** Whoever answers a command with a payload that is too long for the buffer
    and looks like a response frame decides what the next command returns: the
    next call reads the payload, not its own answer in [w]. *)
Theorem c40_smuggled : forall pieces l command1 response1 command2 response2 q w,
  Z.of_nat (length command1) < 2 ^ 32 -> Z.of_nat (length command2) < 2 ^ 32 ->
  Z.of_nat (length (response_frame q)) < 2 ^ 32 ->
  (length response1 < length (response_frame q))%nat -> (length q <= length response2)%nat ->
  exists w1 w2,
    perform (pipe pieces) (ends l) (Transact command1 response1) (response_frame (response_frame q) ++ fst w, snd w)
    = (ends l, w1, Err InvalidInput)
    /\ perform (pipe pieces) (ends l) (Transact command2 response2) w1 = (ends l, w2, Ok (Payload q)).
Proof.
  intros pieces l command1 response1 command2 response2 q w H1 H2 Hq L1 L2.
  set (w1 := give true (response_frame q ++ [x00; x00; x00; x00]) w).
  set (w2 := give true [x00; x00; x00; x00] w).
  assert (Lq : length (response_frame q) = (4 + length q + 4)%nat).
  { unfold response_frame. rewrite !app_length. unfold u32be. rewrite be_bytes_length. cbn [length]. lia. }
  exists w1, w2. split.
  - cbn [perform]. unfold tcp_transact.
    replace (2 ^ 32 <=? Z.of_nat (length command1)) with false by (symmetry; apply Z.leb_gt; exact H1).
    replace (response_frame (response_frame q) ++ fst w, snd w)
      with (give true (u32be (Z.of_nat (length (response_frame q)))) w1).
    2: { unfold w1. rewrite <- give_app. reflexivity. }
    rewrite (io_then _ _ _ _ _ _ (pipe_write_whole pieces (tpm_tcp (ends l)) _ _)
               (pipe_read_u32 pieces true (Z.of_nat (length (response_frame q))) w1 ltac:(unfold u32_ok; lia))).
    replace (Z.of_nat (length response1) <? Z.of_nat (length (response_frame q))) with true by (symmetry; apply Z.ltb_lt; lia).
    reflexivity.
  - assert (A : answers (Transact command2 response2) (Payload q)).
    { cbn [answers]. unfold u32_ok. split; [exact L2|]. lia. }
    pose proof (pipe_performs pieces l (Transact command2 response2) (Payload q) w2 A H2) as P. cbn zeta in P.
    unfold ends. cbn [locality_after] in P. rewrite <- P. f_equal. cbn [conversation tpm_tcp].
    rewrite in_store_app, in_store_send, in_store_app, in_store_receive, in_store_ack.
    unfold w1, w2, response_frame. rewrite !give_app. reflexivity.
Qed.

(** So the property is false: the second call's own answer is [random_rsp]. *)
Theorem c40_refuted :
  exists payload1 : list byte,
    let w := (response_frame payload1 ++ response_frame random_rsp, []) in
    exists w1 w2 bogus,
      perform (pipe byte_by_byte) (ends 0) (Transact get_random_cmd (repeat x00 14)) w = (ends 0, w1, Err InvalidInput)
      /\ perform (pipe byte_by_byte) (ends 0) (Transact get_random_cmd (repeat x00 14)) w1
         = (ends 0, w2, Ok (Payload bogus))
      /\ bogus <> random_rsp.
Proof.
  exists (response_frame [x80; x01; x00; x00; x00; x0e; x00; x00; x00; x00; x00; x02; x66; x66]). cbn zeta.
  destruct (c40_smuggled byte_by_byte 0 get_random_cmd (repeat x00 14) get_random_cmd (repeat x00 14)
              [x80; x01; x00; x00; x00; x0e; x00; x00; x00; x00; x00; x02; x66; x66] (response_frame random_rsp, []))
    as (w1 & w2 & E1 & E2).
  1-3: vm_compute; reflexivity.
  1,2: apply Nat.leb_le; vm_compute; reflexivity.
  exists w1, w2. eexists. split; [exact E1|]. split; [exact E2|]. discriminate.
Qed.

(** What remains true: a command that is refused because it is too long leaves
    the stream alone, so that what follows is as if it had not been tried. *)
Theorem c40_partial : forall (W H C : Type) (sys : world W H C) (c : tcp H) (w : W) command response o,
  2 ^ 32 <= Z.of_nat (length command) ->
  perform sys c o (snd (fst (perform sys c (Transact command response) w))) = perform sys c o w.
Proof.
  intros W H C sys c w command response o Hl. cbn [perform]. rewrite c38_too_long by exact Hl. reflexivity.
Qed.

(** Exactly what is left in the stream, for every answer: a response that fits
    is consumed with its acknowledgement, whether or not that is right, so the
    next call is not affected.  Only a payload that is too long stays there. *)
Theorem c40_left_partial : forall pieces l command response payload ack w,
  Z.of_nat (length command) < 2 ^ 32 -> Z.of_nat (length payload) < 2 ^ 32 -> 0 <= ack < 2 ^ 32 ->
  perform (pipe pieces) (ends l) (Transact command response)
    (u32be (Z.of_nat (length payload)) ++ payload ++ u32be ack ++ fst w, snd w)
  = if (length payload <=? length response)%nat
    then (ends l, w, if ack =? 0 then Ok (Payload payload) else Err InvalidData)
    else (ends l, (payload ++ u32be ack ++ fst w, snd w), Err InvalidInput).
Proof.
  intros pieces l command response payload ack w H1 H2 Ha. cbn [perform]. unfold tcp_transact.
  replace (2 ^ 32 <=? Z.of_nat (length command)) with false by (symmetry; apply Z.leb_gt; exact H1).
  set (w2 := give true (u32be ack) w). set (w1 := give true payload w2).
  replace (u32be (Z.of_nat (length payload)) ++ payload ++ u32be ack ++ fst w, snd w)
    with (give true (u32be (Z.of_nat (length payload))) w1).
  2:{ unfold w1, w2. destruct w. reflexivity. }
  rewrite (io_then _ _ _ _ _ _ (pipe_write_whole pieces (tpm_tcp (ends l)) _ _)
             (pipe_read_u32 pieces true (Z.of_nat (length payload)) w1 ltac:(unfold u32_ok; lia))).
  destruct (Nat.leb_spec (length payload) (length response)) as [L|L];
    destruct (Z.ltb_spec (Z.of_nat (length response)) (Z.of_nat (length payload))); try lia.
  - rewrite Nat2Z.id. unfold read_exact. unfold w1. change (tpm_tcp (ends l)) with true.
    rewrite (pipe_read pieces true payload) by lia.
    unfold check_response_end, io_bind at 1. unfold w2.
    rewrite pipe_read_u32 by exact Ha. destruct (ack =? 0); cbn [omap].
    + unfold overwrite, io_ret. cbn beta iota. cbn [omap]. rewrite firstn_app_exact. reflexivity.
    + reflexivity.
  - reflexivity.
Qed.

Example c40_left_case :
  perform (pipe byte_by_byte) (ends 0) (Transact get_random_cmd (repeat x00 2))
    ([x00; x00; x00; x02; x0a; x0b; x00; x00; x00; x01; x77], []) = (ends 0, ([x77], []), Err InvalidData)
  /\ perform (pipe byte_by_byte) (ends 0) (Transact get_random_cmd [x00])
    ([x00; x00; x00; x02; x0a; x0b; x00; x00; x00; x00; x77], [])
    = (ends 0, ([x0a; x0b; x00; x00; x00; x00; x77], []), Err InvalidInput).
Proof. vm_compute. auto. Qed.

(** ** C41 *)

(** Every call, against every peer: a success means that the documented
    conversation took place, acknowledgements included; whatever happens,
    nothing else is said than the beginning of what the call says; and the
    connection changes in its locality only. *)
Theorem c41_calls : forall (W H C : Type) (sys : world W H C) (c : tcp H) o (w : W) (l : list (event H C)),
  wf_world sys ->
  exists w' seen r,
    perform (watched sys) c o (w, l)
    = ({| tpm_tcp := tpm_tcp c; plat_tcp := plat_tcp c; locality := locality_after (locality c) o |}, (w', l ++ seen), r)
    /\ (forall a, answers o a -> exists more, said seen ++ more = said (conversation c o a))
    /\ (forall a, r = Ok a -> answers o a /\ seen = conversation c o a).
Proof. intros W H C sys c o w l Hw. apply perform_spec. exact Hw. Qed.
Example c41_calls_case :
  let '(_, (_, l), r) := perform (watched (pipe byte_by_byte)) (ends 0) Reinit
        (([], [x00; x00; x00; x00; x00; x00; x00; x00; x00; x00; x00; x00; x00; x00; x00; x00]), []) in
  (l, r) = (flat_map (fun b => map (Out false) [x00; x00; x00; b] ++ map (In false) [x00; x00; x00; x00])
                     [x0c; x02; x01; x0b], Ok Done).
Proof. vm_compute. reflexivity. Qed.

(** With a peer that gives them, all answers arrive. *)
Theorem c41_answered : forall pieces l o a w,
  answers o a -> writable o ->
  perform (pipe pieces) (ends l) o (in_store (@conversation bool unit (ends l) o a) w)
  = (ends (locality_after l o), w, Ok a).
Proof. intros pieces l o a w A Hw. apply pipe_performs; assumption. Qed.

(** The acknowledgements a call waits for: the port, and what it has heard
    there before. *)
Definition acknowledgements (o : operation) (a : answer) : list (bool * list byte) :=
  let zeros k := repeat x00 (4 * k) in
  match o, a with
  | Transact _ _, Payload bytes => [(true, u32be (Z.of_nat (length bytes)) ++ bytes)]
  | Hcrtm _, Done => [(true, zeros 0); (true, zeros 1); (true, zeros 2)]%nat
  | Handshake _, Versions x y => [(true, u32be x ++ u32be y)]
  | AlternativeResult _, Done => [(true, [])]
  | (Signal _ | FailureMode | FirmwareHash _ | FirmwareSvn _), Done => [(false, [])]
  | Reinit, Done => [(false, zeros 0); (false, zeros 1); (false, zeros 2); (false, zeros 3)]%nat
  | ResponseSizes, Sizes x1 x2 x3 x4 => [(false, u32be 16 ++ le_bytes 4 x1 ++ u32be x2 ++ le_bytes 4 x3 ++ u32be x4)]
  | ActSignaled _, Number z => [(false, u32be z)]
  | _, _ => []
  end.
(** These are the acknowledgements in the documented conversation. *)
Theorem c41_acknowledgements : forall l o a h before,
  answers o a -> List.In (h, before) (acknowledgements o a) ->
  exists pre post, @conversation bool unit (ends l) o a = pre ++ ack h ++ post /\ heard h pre = before
    /\ (acknowledgements o a = [(h, before)] -> post = []).
Proof.
  assert (Hs : forall h bs, heard h (@send bool unit h bs) = []) by (intros; apply heard_send).
  intros l o a h before A B.
  destruct o as [command response|data|v|z|s| | | |z|z|z|lo| |], a as [|bytes|y|y1 y2|y1 y2 y3 y4]; try contradiction;
    cbn [conversation ends tpm_tcp plat_tcp acknowledgements] in *; unfold signalled in *.
  1,3,4,5,7,8,9,10,11: destruct B as [B|[]]; injection B as <- <-;
    first [eexists _, []; split; [rewrite app_nil_r; first [rewrite app_assoc|idtac]; reflexivity|];
           split; [rewrite ?heard_app, ?heard_send, ?heard_receive; reflexivity|reflexivity]].
  - destruct B as [B|[B|[B|[]]]]; injection B as <- <-.
    + exists (send true (u32be 5)). eexists. split; [rewrite <- app_assoc; reflexivity|]. split; [apply Hs|discriminate].
    + exists ((send true (u32be 5) ++ ack true) ++ send true (u32be 6 ++ u32be (Z.of_nat (length data)) ++ data)).
      eexists. split; [rewrite <- (app_assoc (send true (u32be 5) ++ ack true)); reflexivity|].
      split; [rewrite !heard_app, !heard_send, heard_ack; reflexivity|discriminate].
    + exists ((send true (u32be 5) ++ ack true) ++ (send true (u32be 6 ++ u32be (Z.of_nat (length data)) ++ data) ++ ack true)
              ++ send true (u32be 7)), [].
      split; [rewrite app_nil_r, <- !app_assoc; reflexivity|].
      split; [rewrite !heard_app, !heard_send, !heard_ack; reflexivity|discriminate].
  - destruct B as [B|[B|[B|[B|[]]]]]; injection B as <- <-.
    + exists (send false (u32be 12)). eexists. split; [rewrite <- app_assoc; reflexivity|]. split; [apply Hs|discriminate].
    + exists ((send false (u32be 12) ++ ack false) ++ send false (u32be 2)). eexists.
      split; [rewrite <- !app_assoc; reflexivity|].
      split; [rewrite !heard_app, !heard_send, heard_ack; reflexivity|discriminate].
    + exists ((send false (u32be 12) ++ ack false) ++ (send false (u32be 2) ++ ack false) ++ send false (u32be 1)). eexists.
      split; [rewrite <- !app_assoc; reflexivity|].
      split; [rewrite !heard_app, !heard_send, !heard_ack; reflexivity|discriminate].
    + exists ((send false (u32be 12) ++ ack false) ++ (send false (u32be 2) ++ ack false)
              ++ (send false (u32be 1) ++ ack false) ++ send false (u32be 11)), [].
      split; [rewrite app_nil_r, <- !app_assoc; reflexivity|].
      split; [rewrite !heard_app, !heard_send, !heard_ack; reflexivity|discriminate].
Qed.
(** A wrong one is an error, whichever it is, and is consumed. *)
Theorem c41_wrong_acknowledgement : forall pieces l o a h before b1 b2 b3 b4 (w : list byte * list byte),
  answers o a -> writable o -> List.In (h, before) (acknowledgements o a) ->
  [b1; b2; b3; b4] <> [x00; x00; x00; x00] ->
  let coming := before ++ [b1; b2; b3; b4] in
  perform (pipe pieces) (ends l) o (if h then (coming ++ fst w, snd w) else (fst w, coming ++ snd w))
  = (ends l, w, Err InvalidData).
Proof.
  intros pieces l o a h before b1 b2 b3 b4 w A Wr B Hb coming. change (if h then (coming ++ fst w, snd w) else (fst w, coming ++ snd w)) with (give h coming w).
  unfold coming. rewrite give_app. clear coming.
  assert (Ne : be_val [b1; b2; b3; b4] <> 0).
  { intros E. apply Hb. pose proof (be_bytes_val [b1; b2; b3; b4]) as Q. rewrite E in Q. exact (eq_sym Q). }
  assert (Ce : forall h, check_response_end (pipe pieces) h (give h [b1; b2; b3; b4] w) = (w, Err InvalidData)).
  { intros h'. unfold check_response_end. eapply io_then.
    - unfold read_u32. eapply io_then; [apply pipe_read_bytes; reflexivity|reflexivity].
    - destruct (Z.eqb_spec (be_val [b1; b2; b3; b4]) 0); [contradiction|reflexivity]. }
  assert (Cs : forall h code (k : unit -> io (list byte * list byte) unit),
            (write_all (pipe pieces) h (u32_bytes code) ;; (check_response_end (pipe pieces) h >>= k)) (give h [b1; b2; b3; b4] w)
            = (w, Err InvalidData)).
  { intros h' code k. eapply io_then; [apply pipe_write|]. unfold io_bind. rewrite Ce. reflexivity. }
  assert (C1 : forall h code, (write_all (pipe pieces) h (u32_bytes code) ;; check_response_end (pipe pieces) h)
                                (give h [b1; b2; b3; b4] w) = (w, Err InvalidData)).
  { intros h' code. eapply io_then; [apply pipe_write|]. apply Ce. }
  assert (C2 : forall h bs, (write_whole (pipe pieces) h bs ;; check_response_end (pipe pieces) h)
                              (give h [b1; b2; b3; b4] w) = (w, Err InvalidData)).
  { intros h' bs. eapply io_then; [apply pipe_write_whole|]. apply Ce. }
  assert (Stop : forall (m : io (list byte * list byte) unit) (k : unit -> io (list byte * list byte) unit) w0,
            m w0 = (w, Err InvalidData) -> (m >>= k) w0 = (w, Err InvalidData)).
  { intros m k w0 E. unfold io_bind. rewrite E. reflexivity. }
  destruct o as [command response|data|v|z|s| | | |z|z|z|lo| |], a as [|bytes|y|y1 y2|y1 y2 y3 y4]; try contradiction;
    cbn [perform acknowledgements] in *; unfold ends; cbn [tpm_tcp plat_tcp].
  - destruct B as [B|[]]; apply pair_equal_spec in B; destruct B as [<- <-]. destruct A as [Hl Hu]. cbn [writable] in Wr. unfold tcp_transact.
    replace (2 ^ 32 <=? Z.of_nat (length command)) with false by (symmetry; apply Z.leb_gt; exact Wr).
    rewrite give_app. set (w1 := give true [b1; b2; b3; b4] w). cbn [tpm_tcp].
    rewrite (io_then (write_whole (pipe pieces) true _) _ _ _ _ _ (pipe_write_whole pieces true _ _)
              (pipe_read_u32 pieces true (Z.of_nat (length bytes)) (give true bytes w1) Hu)).
    replace (Z.of_nat (length response) <? Z.of_nat (length bytes)) with false by (symmetry; apply Z.ltb_ge; lia).
    rewrite Nat2Z.id. unfold read_exact. rewrite pipe_read by lia. subst w1. rewrite Ce. reflexivity.
  - unfold unit_answer, hcrtm_sequence. cbn [tpm_tcp].
    assert (E : forall k, (k <= 2)%nat ->
       (write_all (pipe pieces) true (u32_bytes SignalHashStart) ;; check_response_end (pipe pieces) true ;;
        write_whole (pipe pieces) true (u32_bytes SignalHashData ++ u32_bytes (Z.of_nat (length data) mod 2 ^ 32) ++ data) ;;
        check_response_end (pipe pieces) true ;;
        write_all (pipe pieces) true (u32_bytes SignalHashEnd) ;; check_response_end (pipe pieces) true)
         (give true (repeat x00 (4 * k)) (give true [b1; b2; b3; b4] w)) = (w, Err InvalidData)).
    { intros [|[|[|k]]] Hk; [| | |lia]; cbn [Nat.mul Nat.add repeat].
      - change (give true [] ?x) with x. destruct (give true [b1; b2; b3; b4] w) as [q1 q2] eqn:Q. cbn [give app fst snd].
        rewrite <- Q. apply Cs.
      - eapply io_then; [apply pipe_write|]. eapply io_then; [apply pipe_end|].
        eapply io_then; [apply pipe_write_whole|]. apply Stop. apply Ce.
      - change [x00; x00; x00; x00; x00; x00; x00; x00] with ([x00; x00; x00; x00] ++ [x00; x00; x00; x00]).
        rewrite give_app. eapply io_then; [apply pipe_write|]. eapply io_then; [apply pipe_end|].
        eapply io_then; [apply pipe_write_whole|]. eapply io_then; [apply pipe_end|]. apply C1. }
    destruct B as [B|[B|[B|[]]]]; apply pair_equal_spec in B; destruct B as [<- <-]; [rewrite (E 0%nat) by lia|rewrite (E 1%nat) by lia|rewrite (E 2%nat) by lia];
      reflexivity.
  - destruct B as [B|[]]; apply pair_equal_spec in B; destruct B as [<- <-]. unfold remote_handshake. cbn [tpm_tcp].
    assert (L : length (u32be y1 ++ u32be y2) = 8%nat) by reflexivity.
    assert (E : forall k : unit -> io (list byte * list byte) (Z * Z),
      (check_response_end (pipe pieces) true >>= k) (give true [b1; b2; b3; b4] w) = (w, Err InvalidData)).
    { intros k. unfold io_bind. rewrite Ce. reflexivity. }
    rewrite (io_then _ _ _ _ _ _ (pipe_write_whole pieces true _ _)
               (io_then _ _ _ _ _ _ (pipe_read_bytes pieces true 8 _ _ L) (E _))). reflexivity.
  - destruct B as [B|[]]; apply pair_equal_spec in B; destruct B as [<- <-]. unfold unit_answer, set_alternative_result. cbn [tpm_tcp].
    assert (G : give true [] (give true [b1; b2; b3; b4] w) = give true [b1; b2; b3; b4] w) by (destruct w; reflexivity).
    rewrite G, C2. reflexivity.
  - destruct B as [B|[]]; apply pair_equal_spec in B; destruct B as [<- <-]. unfold unit_answer, platform_signal. cbn [plat_tcp].
    assert (G : give false [] (give false [b1; b2; b3; b4] w) = give false [b1; b2; b3; b4] w) by (destruct w; reflexivity).
    rewrite G, C1. reflexivity.
  - unfold unit_answer, reinit.
    assert (Sg : forall s w0, platform_signal (pipe pieces) {| tpm_tcp := true; plat_tcp := false; locality := l |} s
                   (give false [x00; x00; x00; x00] w0) = (w0, Ok tt)).
    { intros s w0. unfold platform_signal. cbn [plat_tcp]. apply pipe_signal. }
    assert (Sb : forall s, platform_signal (pipe pieces) {| tpm_tcp := true; plat_tcp := false; locality := l |} s
                   (give false [b1; b2; b3; b4] w) = (w, Err InvalidData)).
    { intros s. unfold platform_signal. cbn [plat_tcp]. apply C1. }
    set (c := {| tpm_tcp := true; plat_tcp := false; locality := l |}) in *.
    assert (E : forall k, (k <= 3)%nat -> (platform_signal (pipe pieces) c NvOff ;; platform_signal (pipe pieces) c PowerOff ;;
        platform_signal (pipe pieces) c PowerOn ;; platform_signal (pipe pieces) c NvOn)
         (give false (repeat x00 (4 * k)) (give false [b1; b2; b3; b4] w)) = (w, Err InvalidData)).
    { intros k Hk. set (z := [x00; x00; x00; x00]).
      assert (G0 : forall w0, give false [] w0 = w0) by (intros [q1 q2]; reflexivity).
      assert (R : repeat x00 (4 * k) = concat (repeat z k)) by (destruct k as [|[|[|[|k]]]]; [reflexivity..|lia]).
      rewrite R. clear R.
      destruct k as [|[|[|[|k]]]]; [| | | |lia]; cbn [repeat concat]; rewrite ?app_nil_r, ?give_app, ?G0; unfold z.
      - apply Stop. apply Sb.
      - eapply io_then; [apply Sg|]. apply Stop. apply Sb.
      - eapply io_then; [apply Sg|]. eapply io_then; [apply Sg|]. apply Stop. apply Sb.
      - eapply io_then; [apply Sg|]. eapply io_then; [apply Sg|]. eapply io_then; [apply Sg|]. apply Sb. }
    destruct B as [B|[B|[B|[B|[]]]]]; apply pair_equal_spec in B; destruct B as [<- <-];
      [rewrite (E 0%nat) by lia|rewrite (E 1%nat) by lia|rewrite (E 2%nat) by lia|rewrite (E 3%nat) by lia]; reflexivity.
  - destruct B as [B|[]]; apply pair_equal_spec in B; destruct B as [<- <-]. unfold unit_answer, test_failure_mode. cbn [plat_tcp].
    assert (G : give false [] (give false [b1; b2; b3; b4] w) = give false [b1; b2; b3; b4] w) by (destruct w; reflexivity).
    rewrite G, C1. reflexivity.
  - destruct B as [B|[]]; apply pair_equal_spec in B; destruct B as [<- <-]. rewrite give_app.
    set (bs := le_bytes 4 y1 ++ u32be y2 ++ le_bytes 4 y3 ++ u32be y4).
    unfold get_command_response_sizes. cbn [plat_tcp].
    assert (L : length bs = 16%nat) by reflexivity.
    assert (E : forall k : unit -> io (list byte * list byte) (Z * Z * Z * Z),
      (check_response_end (pipe pieces) false >>= k) (give false [b1; b2; b3; b4] w) = (w, Err InvalidData)).
    { intros k. unfold io_bind. rewrite Ce. reflexivity. }
    rewrite (io_then (write_all (pipe pieces) false _) _ _ _ _ _ (pipe_write pieces false _ _)
               (io_then (read_u32 (pipe pieces) false) _ _ _ _ _ (pipe_read_u32 pieces false 16 _ ltac:(split; [discriminate|reflexivity]))
                 (io_then (read_bytes (pipe pieces) false 16) _ _ _ _ _ (pipe_read_bytes pieces false 16 bs _ L) (E _)))).
    reflexivity.
  - destruct B as [B|[]]; apply pair_equal_spec in B; destruct B as [<- <-]. cbn [answers] in A. unfold act_get_signaled. cbn [plat_tcp].
    assert (E : forall k : unit -> io (list byte * list byte) Z,
      (check_response_end (pipe pieces) false >>= k) (give false [b1; b2; b3; b4] w) = (w, Err InvalidData)).
    { intros k. unfold io_bind. rewrite Ce. reflexivity. }
    rewrite (io_then _ _ _ _ _ _ (pipe_write_whole pieces false _ _)
               (io_then _ _ _ _ _ _ (pipe_read_u32 pieces false y _ A) (E _))). reflexivity.
  - destruct B as [B|[]]; apply pair_equal_spec in B; destruct B as [<- <-]. unfold unit_answer, set_firmware_hash. cbn [plat_tcp].
    assert (G : give false [] (give false [b1; b2; b3; b4] w) = give false [b1; b2; b3; b4] w) by (destruct w; reflexivity).
    rewrite G, C2. reflexivity.
  - destruct B as [B|[]]; apply pair_equal_spec in B; destruct B as [<- <-]. unfold unit_answer, set_firmware_svn. cbn [plat_tcp].
    assert (G : give false [] (give false [b1; b2; b3; b4] w) = give false [b1; b2; b3; b4] w) by (destruct w; reflexivity).
    rewrite G, C2. reflexivity.
Qed.
Example c41_wrong_acknowledgement_case :
  perform (pipe byte_by_byte) (ends 0) (Signal NvOn) ([], [x00; x00; x00; x01; x02]) = (ends 0, ([], [x02]), Err InvalidData).
Proof. vm_compute. reflexivity. Qed.

(** One thing that is not right: the length announced for hash data of 2^32
    bytes or more is not their number, and the call succeeds all the same. *)
Theorem c41_hash_length_wraps : forall pieces l data w,
  2 ^ 32 <= Z.of_nat (length data) ->
  perform (pipe pieces) (ends l) (Hcrtm data) (in_store (@conversation bool unit (ends l) (Hcrtm data) Done) w)
  = (ends l, w, Ok Done)
  /\ @conversation bool unit (ends l) (Hcrtm data) Done
     = signalled true 5 ++ (send true (u32be 6 ++ u32be (Z.of_nat (length data)) ++ data) ++ ack true) ++ signalled true 7
  /\ be_val (u32be (Z.of_nat (length data))) < Z.of_nat (length data).
Proof.
  intros pieces l data w Hl. split; [|split].
  - apply (c41_answered pieces l (Hcrtm data) Done w I I).
  - cbn [conversation ends tpm_tcp]. rewrite <- !app_assoc. reflexivity.
  - unfold u32be. rewrite be_val_bytes. change (pow256 4) with (2 ^ 32).
    pose proof (Z.mod_pos_bound (Z.of_nat (length data)) (2 ^ 32) ltac:(reflexivity)). lia.
Qed.

(** ** C42 *)

(** [connect_with_retries] is its [k]-th attempt for the first [k] that does not
    fail, or the fourth. *)
Theorem c42_attempts : forall (W H C : Type) (sys : world W H C) ip tpm_port plat_port (w : W),
  let try k := attempt sys (connect sys ip tpm_port plat_port) k w in
  exists k, (k <= 3)%nat
    /\ connect_with_retries sys ip tpm_port plat_port w = try k
    /\ (forall j, (j < k)%nat -> failed (snd (try j)))
    /\ (failed (snd (try k)) -> k = 3%nat).
Proof.
  intros W H C sys ip tp pp w try.
  destruct (retry_spec sys (connect sys ip tp pp) 4 1 w ltac:(lia) ltac:(lia)) as (k & Hk & E & F & L).
  exists k. split; [lia|]. split; [exact E|]. split; [exact F|]. intros D. specialize (L D). lia.
Qed.

(** A world that refuses a number of connections. *)
Definition late : world nat Z unit := {|
  tcp_connect := fun w _ port => match w with O => (O, Ok port) | S w' => (w', Err (System 111)) end;
  write := fun w _ buf => (w, Ok (length buf)); read := fun w _ _ => (w, Ok []); shutdown := fun w _ => (w, Ok tt);
  sleep_one_second := fun w => w; read_to_string := fun w _ => (w, Err (System 2));
  spawn := fun w _ _ _ => (w, Ok tt); kill := fun w _ => (w, Ok tt) |}.
Example c42_attempts_case :
  connect_with_retries late [x3a] (Some 7) None 3%nat = (O, Ok {| tpm_tcp := 7; plat_tcp := 2322; locality := 0 |})
  /\ connect_with_retries late [x3a] (Some 7) None 4%nat = (O, Err (System 111)).
Proof. split; vm_compute; reflexivity. Qed.

(** What is seen of it: each attempt dials the TPM port and, if that is
    answered, the platform port; a second passes between two attempts. *)
Theorem c42_seen : forall (W H C : Type) (sys : world W H C) ip tpm_port plat_port (w : W) (l : list (event H C)),
  exists w' seen r,
    connect_with_retries (watched sys) ip tpm_port plat_port (w, l) = ((w', l ++ seen), r)
    /\ attempts (dialled ip (or_default 2321 tpm_port) (or_default 2322 plat_port)) seen r.
Proof. intros W H C sys ip tp pp w l. exact (retries_leave sys _ _ (connect_leaves sys ip tp pp) w l). Qed.
Example c42_seen_case :
  connect_with_retries (watched late) [x3a] (Some 7) None (1%nat, [])
  = ((O, [Dial [x3a] 7 None; Slept; Dial [x3a] 7 (Some 7); Dial [x3a] 2322 (Some 2322)]),
     Ok {| tpm_tcp := 7; plat_tcp := 2322; locality := 0 |}).
Proof. vm_compute. reflexivity. Qed.

(** ** C59 *)

(** A port file is accepted exactly if it is a number up to 65535 in decimal,
    with white space around it and perhaps a plus sign. *)
Theorem c59_text : forall (W H C : Type) (sys : world W H C) path (w w1 : W) text,
  read_to_string sys w path = (w1, Ok text) ->
  (forall port, port_text text port -> read_port sys path w = (w1, Ok port))
  /\ ((forall port, ~ port_text text port) -> read_port sys path w = (w1, Err InvalidData)).
Proof.
  intros W H C sys path w w1 text E.
  assert (R : retry_loop sys 4 1 (fun w => read_to_string sys w path) w = (w1, Ok text)) by (cbn [retry_loop]; rewrite E; reflexivity).
  split.
  - intros port P. apply port_spec in P. unfold read_port, io_bind. rewrite R, P. reflexivity.
  - intros N. unfold read_port, io_bind. rewrite R. destruct (parse_u16 (trim text)) as [port|] eqn:P; [|reflexivity].
    apply port_spec in P. exfalso. exact (N port P).
Qed.
Example c59_text_case :
  (* "\t 02321\n" with a no-break space; "+65535"; "65536"; "+"; "23 21" *)
  parse_u16 (trim [x09; xc2; xa0; x30; x32; x33; x32; x31; x0a]) = Some 2321
  /\ port_text [x09; xc2; xa0; x30; x32; x33; x32; x31; x0a] 2321
  /\ parse_u16 (trim [x2b; x36; x35; x35; x33; x35]) = Some 65535
  /\ parse_u16 (trim [x36; x35; x35; x33; x36]) = None
  /\ parse_u16 (trim [x2b]) = None
  /\ parse_u16 (trim [x32; x33; x20; x32; x31]) = None.
Proof. repeat split; try (vm_compute; reflexivity). apply port_spec. vm_compute. reflexivity. Qed.

(** A text denotes one port at most. *)
Theorem c59_unique : forall text p q, port_text text p -> port_text text q -> p = q.
Proof. intros text p q P Q. apply port_spec in P. apply port_spec in Q. congruence. Qed.

(** The file is read again, after a second, while it cannot be read, four times
    in all; a file that can be read is read once. *)
Theorem c59_seen : forall (W H C : Type) (sys : world W H C) path (w : W) (l : list (event H C)),
  exists w' seen r, read_port (watched sys) path (w, l) = ((w', l ++ seen), r) /\ port_read path seen r.
Proof. intros W H C sys path w l. exact (port_leaves sys path w l). Qed.
Example c59_seen_case :
  read_port (watched late) [x61] (0%nat, [])
  = ((O, [ReadFile [x61] None; Slept; ReadFile [x61] None; Slept; ReadFile [x61] None; Slept; ReadFile [x61] None]),
     Err (System 2)).
Proof. vm_compute. reflexivity. Qed.

(** ** C60 *)

(** Whatever [TcpSimulator::new] returns, it has killed nothing. *)
Theorem c60_never_killed : forall (W H C : Type) (sys : world W H C) bin args cwd ip (w : W) (l : list (event H C)),
  exists w' seen r, simulator_new (watched sys) bin args cwd ip (w, l) = ((w', l ++ seen), r) /\ Forall not_killed seen.
Proof.
  intros W H C sys bin args cwd ip w l. destruct (new_leaves sys bin args cwd ip w l) as (w' & seen & r & E & S).
  exists w', seen, r. split; [exact E|]. exact (started_not_killed _ _ _ _ _ _ S).
Qed.
(** So a failure after the start leaves the process running. *)
Theorem c60_refuted :
  exists (sys : world nat Z unit) w' seen e,
    simulator_new (watched sys) [x62] [] [x63] [x69] (O, []) = ((w', seen), Err e)
    /\ List.In (Spawned [x62] [] [x63] tt) seen /\ ~ List.In (Killed tt) seen.
Proof.
  exists late. do 3 eexists. split; [vm_compute; reflexivity|]. split; [left; reflexivity|].
  vm_compute. intuition congruence.
Qed.

(** What remains true: if the process cannot be started, nothing else is done. *)
Theorem c60_partial : forall (W H C : Type) (sys : world W H C) bin args cwd ip (w w1 : W) e,
  spawn sys w bin args cwd = (w1, Err e) -> simulator_new sys bin args cwd ip w = (w1, Err e).
Proof. intros W H C sys bin args cwd ip w w1 e E. unfold simulator_new, io_bind. rewrite E. reflexivity. Qed.
(** If it can, it is started once, with the given program, arguments and
    directory, and it goes on running whatever happens then. *)
Theorem c60_left_running : forall (W H C : Type) (sys : world W H C) bin args cwd ip (w w1 : W) c (l : list (event H C)),
  spawn sys w bin args cwd = (w1, Ok c) ->
  exists w' seen r, simulator_new (watched sys) bin args cwd ip (w, l) = ((w', l ++ seen), r)
    /\ filter of_processes seen = [Spawned bin args cwd c].
Proof.
  intros W H C sys bin args cwd ip w w1 c l Es. destruct (new_leaves sys bin args cwd ip w l) as (w' & seen & r & E & S).
  exists w', seen, r. split; [exact E|].
  assert (Q : exists rest, snd (fst (simulator_new (watched sys) bin args cwd ip (w, l))) = l ++ Spawned bin args cwd c :: rest).
  { unfold simulator_new. unfold io_bind at 1. cbn [spawn watched fst snd]. rewrite Es. unfold io_bind at 1.
    destruct (port_leaves sys (join cwd command_port) w1 (l ++ [Spawned bin args cwd c])) as (w2 & s1 & r1 & -> & _).
    rewrite <- app_assoc. destruct r1 as [p1|e|]; [|eexists; reflexivity|eexists; reflexivity].
    unfold io_bind at 1.
    destruct (port_leaves sys (join cwd platform_port) w2 (l ++ [Spawned bin args cwd c] ++ s1)) as (w3 & s2 & r2 & -> & _).
    rewrite <- !app_assoc. destruct r2 as [p2|e|]; [|eexists; reflexivity|eexists; reflexivity].
    unfold io_bind, connect_with_retries.
    destruct (retries_leave sys _ _ (connect_leaves sys ip (Some p1) (Some p2)) w3 (l ++ [Spawned bin args cwd c] ++ s1 ++ s2))
      as (w4 & s3 & r3 & -> & _).
    rewrite <- !app_assoc. destruct r3; eexists; reflexivity. }
  destruct Q as [rest0 Q]. rewrite E in Q. cbn [fst snd] in Q. apply app_inv_head in Q.
  destruct (started_process _ _ _ _ _ _ S) as [->|(ch & rest & -> & F)]; [discriminate|].
  injection Q as -> _. cbn [filter of_processes]. f_equal. clear -F.
  induction F as [|e rest D F IH]; [reflexivity|]. cbn [filter]. destruct e; cbn [of_processes]; try exact IH; destruct D.
Qed.
Example c60_left_running_case :
  filter of_processes (snd (fst (simulator_new (watched late) [x62] [[x78]] [x63] [x69] (O, [])))) = [Spawned [x62] [[x78]] [x63] tt]
  /\ is_ok (snd (simulator_new late [x62] [[x78]] [x63] [x69] O)) = false.
Proof. vm_compute. auto. Qed.

(** ** C61 *)
Lemma quiet_watched {W H C} (sys : world W H C) : quiet_world sys -> quiet_world (watched sys).
Proof.
  intros ([A B] & C1 & C2 & C3 & C4 & C5 & C6 & C7). split; [split|repeat split].
  - intros w h buf w' n E. cbn in E. destruct (write sys (fst w) h buf) as [w1 r] eqn:E1. injection E as _ ->. exact (A _ _ _ _ _ E1).
  - intros w h n w' bs E. cbn in E. destruct (read sys (fst w) h n) as [w1 r] eqn:E1. injection E as _ ->. exact (B _ _ _ _ _ E1).
  - intros w ip port. cbn. specialize (C1 (fst w) ip port). destruct (tcp_connect sys (fst w) ip port). exact C1.
  - intros w h buf. cbn. specialize (C2 (fst w) h buf). destruct (write sys (fst w) h buf). exact C2.
  - intros w h n. cbn. specialize (C3 (fst w) h n). destruct (read sys (fst w) h n). exact C3.
  - intros w h. cbn. specialize (C4 (fst w) h). destruct (shutdown sys (fst w) h). exact C4.
  - intros w p. cbn. specialize (C5 (fst w) p). destruct (read_to_string sys (fst w) p). exact C5.
  - intros w bin args cwd. cbn. specialize (C6 (fst w) bin args cwd). destruct (spawn sys (fst w) bin args cwd). exact C6.
  - intros w c. cbn. specialize (C7 (fst w) c). destruct (kill sys (fst w) c). exact C7.
Qed.

(** Dropping a simulator: either both ports were told to stop and shut down, or
    the process is killed. *)
Theorem c61_drop : forall (W H C : Type) (sys : world W H C) (s : @simulator H C) (w : W) (l : list (event H C)),
  quiet_world sys ->
  let goodbye := conversation (conn s) StopSimulator Done in
  exists w' seen,
    simulator_drop (watched sys) s (w, l) = (w', l ++ seen)
    /\ (seen = goodbye
        \/ exists part more, seen = part ++ [Killed (child s)] /\ said part ++ more = said goodbye).
Proof.
  intros W H C sys s w l Hq goodbye. unfold simulator_drop, stop_nicely.
  destruct (perform_spec sys (proj1 Hq) (conn s) StopSimulator w l) as (w1 & seen & r & E & P & G).
  pose proof (calm_perform (watched sys) (quiet_watched sys Hq) (conn s) StopSimulator (w, l)) as Q.
  rewrite E in Q. cbn [snd] in Q. cbn [perform] in E. unfold unit_answer in E.
  destruct (stop_simulator (watched sys) (conn s) (w, l)) as [[w2 l2] r2]. cbn [fst snd] in E.
  assert (l2 = l ++ seen) by congruence. assert (r = omap (fun _ => Done) r2) by congruence. subst.
  destruct r2 as [u|e|]; [|cbn [simulator_stop]|discriminate Q].
  - exists w2, seen. split; [reflexivity|]. left. destruct (G Done eq_refl) as [_ ->]. reflexivity.
  - destruct (P Done I) as [more Pm]. unfold simulator_stop. cbn [kill watched fst snd].
    destruct (kill sys w2 (child s)) as [w3 r3]. exists w3, (seen ++ [Killed (child s)]). rewrite app_assoc.
    split; [reflexivity|]. right. exists seen, more. auto.
Qed.
Example c61_drop_case :
  simulator_drop (watched (pipe byte_by_byte)) {| child := tt; conn := ends 0 |} (([], []), [])
  = (([], []), map (Out true) [x00; x00; x00; x15] ++ [Shut true] ++ map (Out false) [x00; x00; x00; x15] ++ [Shut false]).
Proof. vm_compute. reflexivity. Qed.

(** [stop] kills the process once and reports whether that succeeded;
    [stop_nicely] reports success only if both ports were told to stop. *)
Theorem c61_stop : forall (W H C : Type) (sys : world W H C) (s : @simulator H C) (w : W) (l : list (event H C)),
  exists w' r,
    simulator_stop (watched sys) s (w, l) = ((w', l ++ [Killed (child s)]), r)
    /\ kill sys w (child s) = (w', snd (kill sys w (child s)))
    /\ (r = Ok tt <-> snd (kill sys w (child s)) = Ok tt)
    /\ ((exists e, r = Err e) <-> exists e, snd (kill sys w (child s)) = Err e).
Proof.
  intros W H C sys s w l. unfold simulator_stop. cbn [kill watched fst snd].
  destruct (kill sys w (child s)) as [w' [[]|e|]]; eexists _, _; cbn [fst snd omap_err];
    (split; [reflexivity|split; [reflexivity|split; split]]); intros;
    try discriminate; try reflexivity; try (destruct H0; discriminate); eauto.
Qed.
Theorem c61_stop_nicely : forall (W H C : Type) (sys : world W H C) (s : @simulator H C) (w : W) (l : list (event H C)) w' l',
  quiet_world sys ->
  stop_nicely (watched sys) s (w, l) = ((w', l'), Ok tt) ->
  l' = l ++ conversation (conn s) StopSimulator Done.
Proof.
  intros W H C sys s w l w' l' Hq E1.
  destruct (perform_spec sys (proj1 Hq) (conn s) StopSimulator w l) as (w1 & seen & r & E & P & G).
  cbn [perform] in E. unfold unit_answer in E. unfold stop_nicely in E1. rewrite E1 in E. cbn [fst snd] in E.
  assert (l' = l ++ seen) by congruence. assert (Er : r = Ok Done) by (cbn in E; congruence). subst r.
  destruct (G Done eq_refl) as [_ <-]. assumption.
Qed.
Example c61_stop_case :
  stop_nicely (watched (pipe byte_by_byte)) {| child := tt; conn := ends 0 |} (([], []), [])
  = ((([], []), conversation (ends 0) StopSimulator Done), Ok tt).
Proof. vm_compute. reflexivity. Qed.

(** ** C62 *)

(** No call panics, whatever the peer, the files and the processes do. *)
Theorem c62_calls : forall (W H C : Type) (sys : world W H C) (c : tcp H) o (w : W),
  quiet_world sys -> is_panic (snd (perform sys c o w)) = false.
Proof. intros W H C sys c o w Hq. exact (calm_perform sys Hq c o w). Qed.
Theorem c62_connecting : forall (W H C : Type) (sys : world W H C) ip tpm_port plat_port (w : W),
  quiet_world sys -> is_panic (snd (connect_with_retries sys ip tpm_port plat_port w)) = false.
Proof. intros W H C sys ip tp pp w Hq. exact (calm_retry sys _ (calm_connect sys Hq ip tp pp) w). Qed.
Theorem c62_starting : forall (W H C : Type) (sys : world W H C) bin args cwd ip (w : W),
  quiet_world sys -> is_panic (snd (simulator_new sys bin args cwd ip w)) = false.
Proof. intros W H C sys bin args cwd ip w Hq. exact (calm_new sys Hq bin args cwd ip w). Qed.
Theorem c62_stopping : forall (W H C : Type) (sys : world W H C) (s : @simulator H C) (w : W),
  quiet_world sys ->
  is_panic (snd (simulator_stop sys s w)) = false /\ is_panic (snd (stop_nicely sys s w)) = false.
Proof.
  intros W H C sys s w Hq. split.
  - unfold simulator_stop. destruct Hq as (_ & _ & _ & _ & _ & _ & _ & K). specialize (K w (child s)).
    destruct (kill sys w (child s)) as [w' [u|e|]]; [reflexivity..|discriminate K].
  - pose proof (c62_calls W H C sys (conn s) StopSimulator w Hq) as K. cbn [perform] in K. unfold unit_answer in K.
    unfold stop_nicely. destruct (stop_simulator sys (conn s) w) as [w' [u|e|]]; [reflexivity..|exact K].
Qed.
Example c62_case : quiet_world (pipe byte_by_byte).
Proof. apply pipe_quiet. Qed.

(** ** C63 *)

(** A simulator that was started is the given program, and is talked to on the
    ports that it left in its two files. *)
Theorem c63_started : forall (W H C : Type) (sys : world W H C) bin args cwd ip (w : W) (l : list (event H C)) w' l' s,
  simulator_new (watched sys) bin args cwd ip (w, l) = ((w', l'), Ok s) ->
  exists read1 p1 read2 p2 dials,
    l' = l ++ [Spawned bin args cwd (child s)] ++ read1 ++ read2 ++ dials
    /\ port_read (file_in cwd (list_byte_of_string "command.port")) read1 (Ok p1)
    /\ port_read (file_in cwd (list_byte_of_string "platform.port")) read2 (Ok p2)
    /\ attempts (dialled ip p1 p2) dials (Ok (conn s)).
Proof.
  intros W H C sys bin args cwd ip w l w' l' s E.
  destruct (new_leaves sys bin args cwd ip w l) as (w1 & seen & r & E1 & S). rewrite E in E1.
  assert (l' = l ++ seen) by congruence. assert (r = Ok s) by congruence. subst. clear E E1.
  destruct S as [[_ D]|(ch & rest & -> & K)]; [discriminate D|].
  destruct K as [(s1 & r1 & _ & _ & _ & D)|(s1 & p1 & rest' & -> & P1 & K)]; [discriminate D|].
  destruct K as [(r2 & _ & _ & D)|(s2 & p2 & s3 & r3 & -> & P2 & A & R)]; [discriminate D|].
  destruct r3 as [c| |]; try discriminate R. injection R as ->. cbn [child conn].
  exists s1, p1, s2, p2, s3. split; [reflexivity|]. rewrite <- !join_spec. auto.
Qed.
(** A simulator that writes "2321" and "2322" in its files. *)
Definition tidy : world nat Z nat := {|
  tcp_connect := fun w _ port => (w, Ok port);
  write := fun w _ buf => (w, Ok (length buf)); read := fun w _ _ => (w, Ok []); shutdown := fun w _ => (w, Ok tt);
  sleep_one_second := fun w => w;
  read_to_string := fun w path => (w, Ok (list_byte_of_string (if (length path =? 15)%nat then "2321 " else "2322")));
  spawn := fun w _ _ _ => (S w, Ok w); kill := fun w _ => (w, Ok tt) |}.
Example c63_started_case :
  simulator_new (watched tidy) [x62] [] [x2f; x74] [x69] (5%nat, [])
  = ((6%nat, [Spawned [x62] [] [x2f; x74] 5%nat;
              ReadFile (list_byte_of_string "/t/command.port") (Some (list_byte_of_string "2321 "));
              ReadFile (list_byte_of_string "/t/platform.port") (Some (list_byte_of_string "2322"));
              Dial [x69] 2321 (Some 2321); Dial [x69] 2322 (Some 2322)]),
     Ok {| child := 5%nat; conn := {| tpm_tcp := 2321; plat_tcp := 2322; locality := 0 |} |})
  /\ file_in [x2f; x74; x2f] [x61] = [x2f; x74; x2f; x61] /\ file_in [] [x61] = [x61].
Proof. vm_compute. auto. Qed.
