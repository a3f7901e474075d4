(** Authorization areas of the program's own (C99). *)
From Coq Require Import String ZArith NArith List Lia Bool.
From Coq Require Import Init.Byte.
From Verif Require Import Prelude Types Marshal WireSpec MarshalProofs WriteSpec MarshalWrite MarshalFacts Catalogue Samples Errors Tpm2b Client ClientSpec
  ClientProofs ClientFacts Sessions SessionsFacts Own.
Import ListNotations.
Open Scope Z_scope.

(** A call a program can make: whatever sessions the area comes up with, their
    authorizations are of their type. *)
Definition own_call {W} (c : command) (cmd handles : val) (a : own W) : Prop :=
  wf_command c /\ wf (cmd_ty c) cmd = true /\ wf (handles_ty c) handles = true
  /\ forall w, honest (snd (parts a w)).
(** What an area answers that is asked twice whether it is empty and, unless it
    said so the second time, for its sessions, which are asked for their
    authorizations: the two answers, the authorizations if any, and the world
    after that. *)
Record answers (W : Type) := {
  empty1 : bool; empty2 : bool; given : option (list val); asked_world : W
}.
Arguments empty1 {W} _.
Arguments empty2 {W} _.
Arguments given {W} _.
Arguments asked_world {W} _.
Definition ask {W} (a : own W) (w : W) : answers W :=
  let '(w1, e1) := says_empty a w in
  let '(w2, e2) := says_empty a w1 in
  if e2 then {| empty1 := e1; empty2 := e2; given := None; asked_world := w2 |}
  else let '(w3, d) := parts a w2 in
       let '(w4, vs) := give_all (live_sessions d) w3 in
       {| empty1 := e1; empty2 := e2; given := Some vs; asked_world := w4 |}.
(** A command with any tag and any bytes for the authorization area. *)
Definition frame_with (c : command) (cmd handles : val) (tag : Z) (area : list byte) : list byte :=
  let body := enc (handles_ty c) handles ++ area ++ enc (cmd_ty c) cmd in
  be_bytes 2 tag ++ be_bytes 4 (Z.of_nat (10 + length body)) ++ be_bytes 4 (code c) ++ body.
(** An authorization area with any number of authorizations, or none. *)
Definition given_bytes (g : option (list val)) : list byte :=
  match g with
  | None => []
  | Some vs => let l := flat_map (enc TpmsAuthCommand) vs in be_bytes 4 (Z.of_nat (length l)) ++ l
  end.
(** The command that is sent for these answers. *)
Definition own_frame {W} (c : command) (cmd handles : val) (x : answers W) : list byte :=
  frame_with c cmd handles (if empty1 x then 0x8001 else 0x8002) (given_bytes (given x)).
(** Commands as Part 1 has them: tag TPM_ST_NO_SESSIONS and no authorization
    area, or TPM_ST_SESSIONS and one to three authorizations. *)
Definition regular (c : command) (cmd handles : val) (bytes : list byte) : Prop :=
  exists vs, (length vs <= 3)%nat /\ Forall (fun v => wf TpmsAuthCommand v = true) vs
  /\ bytes = command_frame c cmd handles (standing vs).

Lemma auth_not_empty v : wf TpmsAuthCommand v = true -> length (enc TpmsAuthCommand v) <> 0%nat.
Proof.
  destruct v as [| | |vs| | |]; try discriminate.
  destruct vs as [|v1 vs]; [discriminate|]. destruct v1 as [| | |ws| | |]; try discriminate.
  destruct ws as [|x ws]; [discriminate|]. destruct x; discriminate.
Qed.

(** *** The frame *)
Definition build_with (c : command) (cmd handles : val) (tag : Z) (f : list byte -> cres) : outcome Z (list byte) :=
  let '(buf, r) :=
    cthen (tss_err (marshal CmdHeader (cmd_header tag 0 (code c)) (repeat x00 CMD_BUFFER_SIZE)))
      (fun w buf =>
    cthen (cseq (fun b => tss_err (marshal (handles_ty c) handles b)) w buf) (fun w buf =>
    cthen (cseq f w buf) (fun w buf =>
    cseq (fun b => tss_err (marshal (cmd_ty c) cmd b)) w buf))) in
  match r with
  | Ok written =>
      let '(buf, r2) :=
        tss_err (marshal CmdHeader (cmd_header tag (Z.of_nat written mod 2 ^ 32) (code c)) buf) in
      match r2 with
      | Ok _ => if (length buf <? written)%nat then Panic else Ok (firstn written buf)
      | Err e => Err e
      | Panic => Panic
      end
  | Err e => Err e
  | Panic => Panic
  end.
Lemma frame_with_length c cmd handles tag ea :
  length (frame_with c cmd handles tag ea)
  = (10 + (length (enc (handles_ty c) handles) + length ea + length (enc (cmd_ty c) cmd)))%nat.
Proof. unfold frame_with. rewrite !app_length, !be_bytes_length. lia. Qed.

Lemma build_with_spec c cmd handles tag f ea :
  0 <= code c < 2 ^ 32 -> wf (cmd_ty c) cmd = true -> wf (handles_ty c) handles = true ->
  0 <= tag < 2 ^ 16 -> writes f ea ->
  (fits (frame_with c cmd handles tag ea) -> build_with c cmd handles tag f = Ok (frame_with c cmd handles tag ea))
  /\ (~ fits (frame_with c cmd handles tag ea) ->
      build_with c cmd handles tag f = Err 0x904 \/ build_with c cmd handles tag f = Panic).
Proof.
  intros Hc Hcmd Hh Ht Wa. unfold fits. rewrite frame_with_length.
  assert (Bz : Z.of_nat CMD_BUFFER_SIZE = 4096) by (vm_compute; reflexivity).
  unfold build_with. generalize dependent CMD_BUFFER_SIZE. intros B Bz.
  set (h0 := enc CmdHeader (cmd_header tag 0 (code c))).
  assert (Hl0 : length h0 = 10%nat).
  { unfold h0. rewrite cmd_header_enc, !app_length, !be_bytes_length. reflexivity. }
  rewrite marshal_fits.
  2:{ apply cmd_header_wf; [assumption|lia|assumption]. }
  2:{ fold h0. rewrite repeat_length. lia. }
  fold h0. unfold tss_err at 1. cbn [fst snd omap_err cthen]. unfold overwrite.
  set (eh := enc (handles_ty c) handles). set (ec := enc (cmd_ty c) cmd).
  pose proof (writes_marshal _ _ Hh) as Wh. fold eh in Wh.
  pose proof (writes_marshal _ _ Hcmd) as Wc. fold ec in Wc.
  set (rest := skipn (length h0) (repeat x00 B)).
  assert (Lr : length rest = (B - 10)%nat) by (unfold rest; rewrite skipn_length, repeat_length; lia).
  set (fin := fun r : cres => let '(buf, r) := r in
       match r with
       | Ok written =>
           let '(buf, r2) :=
             tss_err (marshal CmdHeader (cmd_header tag (Z.of_nat written mod 2 ^ 32) (code c)) buf) in
           match r2 with
           | Ok _ => if (length buf <? written)%nat then Panic else Ok (firstn written buf)
           | Err e => Err e
           | Panic => Panic
           end
       | Err e => Err e
       | Panic => Panic
       end).
  match goal with |- (_ -> ?x = _) /\ _ => match x with let '(_, _) := ?r in _ => change x with (fin r) end end.
  match goal with |- _ /\ (_ -> ?x = _ \/ _) => match x with let '(_, _) := ?r in _ => change x with (fin r) end end.
  assert (FF : forall r, fails r -> fin r = Err 0x904 \/ fin r = Panic).
  { intros [b r] [E|E]; cbn in E; subst r; cbn; auto. }
  set (goalF := fun r : cres =>
    (Z.of_nat (10 + (length eh + length ea + length ec)) <= 4096 -> fin r = Ok (frame_with c cmd handles tag ea))
    /\ (~ Z.of_nat (10 + (length eh + length ea + length ec)) <= 4096 -> fin r = Err 0x904 \/ fin r = Panic)).
  match goal with |- (_ -> fin ?r = _) /\ _ => change (goalF r) end.
  apply (step _ eh _ h0 rest goalF); [assumption| |].
  2:{ intros Hs r Hr. split; [lia|auto]. }
  intros L1. apply (step _ ea _ (h0 ++ eh) _ goalF); [assumption| |]; rewrite skipn_length.
  2:{ intros Hs r Hr. split; [lia|auto]. }
  intros L2. rewrite skipn_skipn'.
  destruct (Nat.le_gt_cases (length ec) (length (skipn (length eh + length ea) rest))) as [L3|L3].
  2:{ split; [rewrite skipn_length in L3; lia|]. intros _. apply FF. eapply cseq_short; eassumption. }
  rewrite (cseq_ok _ ec) by assumption. unfold goalF. split; [|intros; exfalso; rewrite skipn_length in L3; lia].
  intros _. clear goalF FF. unfold fin. clear fin.
  set (w := length (((h0 ++ eh) ++ ea) ++ ec)).
  assert (Ew : w = (10 + (length eh + length ea + length ec))%nat).
  { unfold w. rewrite !app_length, Hl0. lia. }
  rewrite skipn_length in L3.
  set (size := Z.of_nat w mod 2 ^ 32).
  assert (Es : size = Z.of_nat w) by (unfold size; apply Z.mod_small; lia).
  rewrite marshal_fits.
  2:{ apply cmd_header_wf; [assumption|rewrite Es; lia|assumption]. }
  2:{ rewrite cmd_header_enc, !app_length, !be_bytes_length. lia. }
  unfold tss_err. cbn [fst snd omap_err].
  rewrite cmd_header_enc. set (h1 := be_bytes 2 tag ++ be_bytes 4 size ++ be_bytes 4 (code c)).
  assert (Hl1 : length h1 = 10%nat).
  { unfold h1. rewrite !app_length, !be_bytes_length. reflexivity. }
  unfold overwrite. rewrite Hl1, <- !app_assoc.
  rewrite skipn_app_exact' by auto.
  match goal with |- context [(?x <? w)%nat] => destruct (Nat.ltb_spec x w) as [X|X] end.
  { rewrite !app_length in X. lia. }
  f_equal. unfold frame_with. fold eh ec.
  replace (10 + length (eh ++ ea ++ ec))%nat with w by (rewrite Ew, !app_length; lia). rewrite <- Es.
  replace (h1 ++ eh ++ ea ++ ec ++ skipn (length ec) (skipn (length eh + length ea) rest))
    with ((h1 ++ eh ++ ea ++ ec) ++ skipn (length ec) (skipn (length eh + length ea) rest))
    by (rewrite <- !app_assoc; reflexivity).
  rewrite firstn_app_exact' by (rewrite Ew, !app_length, Hl1; lia).
  unfold h1. rewrite <- !app_assoc. reflexivity.
Qed.

(** *** The authorization area *)
Definition holds (v : val) : session := {| auth_command := v; validate := fun _ => Ok tt |}.
Definition write_given (g : option (list val)) (buf : list byte) : cres :=
  match g with None => (buf, Ok 0%nat) | Some vs => write_rest (map holds vs) 4 buf end.
Lemma auth_bytes_holds vs : auth_bytes (map holds vs) = flat_map (enc TpmsAuthCommand) vs.
Proof. unfold auth_bytes. induction vs as [|v vs IH]; cbn [map flat_map]; [reflexivity|]. rewrite IH. reflexivity. Qed.
Lemma writes_given g : match g with None => True | Some vs => Forall (fun v => wf TpmsAuthCommand v = true) vs end ->
  writes (write_given g) (given_bytes g).
Proof.
  destruct g as [vs|]; [|intros _ b; cbn; split; [reflexivity|lia]].
  intros F b. unfold write_given, given_bytes. rewrite <- auth_bytes_holds.
  assert (F' : Forall wf_session (map holds vs)).
  { apply Forall_map. exact F. }
  set (l := map holds vs) in *. clearbody l. clear F vs. rewrite app_length, be_bytes_length.
  destruct (Nat.le_gt_cases 4 (length b)) as [H4|H4].
  - destruct (overwrite_split [] b H4) as (pre & rest & -> & Hp).
    destruct (write_rest_spec l F' pre [] rest Hp) as [H1 H2].
    rewrite !app_nil_r, Hp in H1, H2. cbn [app] in H1, H2.
    rewrite app_length, Hp. split; intros Hl.
    + rewrite H1 by lia. rewrite (app_length (be_bytes _ _)), be_bytes_length. apply f_equal2; [|reflexivity].
      apply (tail_final pre); [assumption|reflexivity|lia].
    + apply H2. lia.
  - split; [lia|]. intros _. destruct l as [|s l'].
    + cbn [write_rest fold_right]. unfold marshal_auth_size.
      destruct (writes_marshal u32 (VInt ((Z.of_nat 4 - 4) mod 2 ^ 32)) eq_refl b) as [_ H].
      cbn -[tss_err marshal fails] in H. specialize (H H4).
      destruct (tss_err _) as [b' r]. unfold fails in *. cbn in *. destruct H as [-> | ->]; cbn; auto.
    + change (write_rest (s :: l') 4 b) with (cthen (write_auth s 4 b) (write_rest l')).
      apply fails_cthen. unfold write_auth, cseq.
      destruct (Nat.ltb_spec (length b) 4); [|lia]. right. reflexivity.
Qed.
Lemma standing_sessions vs : (length vs <= 3)%nat -> sessions_of (standing vs) = map holds vs.
Proof. intros H. destruct vs as [|v1 [|v2 [|v3 [|v4 l]]]]; cbn in *; try lia; reflexivity. Qed.

Lemma own_write {W} (a : own W) buf w :
  let '(w2, e2) := says_empty a w in
  let '(w3, d) := parts a w2 in
  let '(w4, vs) := give_all (live_sessions d) w3 in
  let g := if e2 then None else Some vs in
  exists w', own_write_command_sessions a buf w = (w', write_given g buf)
    /\ (is_ok (snd (write_given g buf)) = true -> w' = if e2 then w2 else w4).
Proof.
  unfold own_write_command_sessions.
  destruct (says_empty a w) as [w2 e2]. destruct (parts a w2) as [w3 d].
  destruct (give_all (live_sessions d) w3) as [w4 vs] eqn:G. cbn zeta. destruct e2.
  { exists w2. split; [reflexivity|auto]. }
  destruct d as [[[s1|] s2] s3].
  2:{ cbn in G. injection G as <- <-. exists w3. split; reflexivity || auto. }
  destruct (write_sessions_live (Some s1, s2, s3) buf w3) as (k & E & K1 & K2).
  change (live_write_command_sessions (Some s1, s2, s3) buf w3) with
    (live_then (live_write_auth s1 4 buf w3) (fun off b w =>
      match s2 with
      | None => (w, marshal_auth_size off b)
      | Some s2 =>
          live_then (live_write_auth s2 off b w) (fun off b w =>
          match s3 with
          | None => (w, marshal_auth_size off b)
          | Some s3 => live_then (live_write_auth s3 off b w) (fun off b w => (w, marshal_auth_size off b))
          end)
      end)) in E.
  rewrite G in E, K2. cbn [snd] in E, K2. rewrite write_sessions_rest, standing_sessions in E, K2.
  2-3: pose proof (give_all_length (live_sessions (Some s1, s2, s3)) w3) as L; rewrite G in L; cbn [snd] in L;
    rewrite L; apply sessions_at_most_3.
  assert (N : exists v vs', vs = v :: vs').
  { destruct vs as [|v vs']; [|eauto]. pose proof (give_all_length (live_sessions (Some s1, s2, s3)) w3) as L.
    rewrite G in L. destruct s2, s3; discriminate. }
  destruct N as (v & vs' & ->). cbn [map] in E, K2.
  eexists. split; [exact E|]. intros O. specialize (K2 O). subst k. rewrite firstn_all, G. reflexivity.
Qed.

Lemma own_build {W} c cmd handles (a : own W) w :
  let x := ask a w in
  exists w', own_build_command c cmd handles a w
    = (w', build_with c cmd handles (cmd_header_tag (empty1 x)) (write_given (given x)))
    /\ (is_ok (build_with c cmd handles (cmd_header_tag (empty1 x)) (write_given (given x))) = true -> w' = asked_world x).
Proof.
  unfold ask, own_build_command, build_with.
  destruct (says_empty a w) as [w1 e1].
  pose proof (fun buf => own_write a buf w1) as OW.
  destruct (says_empty a w1) as [w2 e2]. destruct (parts a w2) as [w3 d].
  destruct (give_all (live_sessions d) w3) as [w4 vs]. cbn zeta in OW |- *.
  match goal with |- context [if e2 then ?p else ?q] => set (x := if e2 then p else q) end.
  assert (X1 : empty1 x = e1) by (unfold x; destruct e2; reflexivity).
  assert (X2 : given x = if e2 then None else Some vs) by (unfold x; destruct e2; reflexivity).
  assert (X3 : asked_world x = if e2 then w2 else w4) by (unfold x; destruct e2; reflexivity).
  rewrite X1, X2, X3. clearbody x. clear x X1 X2 X3. set (g := if e2 then None else Some vs) in *. clearbody g.
  destruct (tss_err (marshal CmdHeader _ _)) as [b0 [n0|e0|]]; cbn [live_then cthen].
  2-3: eexists; split; [reflexivity|discriminate].
  destruct (cseq _ n0 b0) as [b1 [n1|?|]]; cbn [live_then cthen].
  2-3: eexists; split; [reflexivity|discriminate].
  assert (C : cseq (write_given g) n1 b1
              = if (length b1 <? n1)%nat then (b1, Panic)
                else let '(sub, r) := write_given g (skipn n1 b1) in
                     (firstn n1 b1 ++ sub, omap (fun m => (n1 + m)%nat) r)) by reflexivity.
  rewrite C. clear C.
  destruct (length b1 <? n1)%nat.
  { eexists; split; [reflexivity|discriminate]. }
  destruct (OW (skipn n1 b1)) as (w' & E & K). rewrite E.
  destruct (write_given g (skipn n1 b1)) as [sub [m|e|]]; cbn [omap live_then cthen].
  2-3: eexists; split; [reflexivity|discriminate].
  specialize (K eq_refl). subst w'.
  destruct (cseq _ (n1 + m)%nat (firstn n1 b1 ++ sub)) as [b2 r2].
  eexists; split; [reflexivity|reflexivity].
Qed.
Lemma given_wf {W} c cmd handles (a : own W) w : own_call c cmd handles a ->
  match given (ask a w) with None => True | Some vs => Forall (fun v => wf TpmsAuthCommand v = true) vs end.
Proof.
  intros (_ & _ & _ & H). unfold ask.
  destruct (says_empty a w) as [w1 e1]. destruct (says_empty a w1) as [w2 e2]. destruct e2; [exact I|].
  specialize (H w2). destruct (parts a w2) as [w3 d]. cbn [snd] in H.
  pose proof (give_all_wf _ H w3) as F. destruct (give_all (live_sessions d) w3). exact F.
Qed.

(** ** C99 *)
(** Whatever an area answers: if the command fits, then this is handed to the
    connection, once the area was asked twice whether it is empty and, if it was
    not the second time, its sessions for their authorizations; else nothing is
    handed over. *)
Theorem c99_sent W E (from_tss : Z -> E) (tpm : connection W E) w c cmd handles (a : own W) :
  own_call c cmd handles a ->
  let frame := own_frame c cmd handles (ask a w) in
  (fits frame ->
   own_run from_tss tpm w c cmd handles a
   = let '(w', rsp, r) := transact tpm (asked_world (ask a w)) frame empty_buffer in
     match r with
     | Ok _ => let '(w'', r) := own_parse_response c a rsp w' in (w'', omap_err from_tss r)
     | Err e => (w', Err e)
     | Panic => (w', Panic)
     end)
  /\ (~ fits frame -> forall tpm', exists w',
      own_run from_tss tpm' w c cmd handles a = (w', Err (from_tss 0x904))
      \/ own_run from_tss tpm' w c cmd handles a = (w', Panic)).
Proof.
  intros V. cbn zeta. pose proof (writes_given _ (given_wf _ _ _ _ w V)) as Wg.
  destruct (own_build c cmd handles a w) as (w' & B & K).
  destruct V as ((Hc & _) & H1 & H2 & _).
  assert (Tg : cmd_header_tag (empty1 (ask a w)) = if empty1 (ask a w) then 0x8001 else 0x8002) by reflexivity.
  assert (Rt : 0 <= cmd_header_tag (empty1 (ask a w)) < 2 ^ 16) by (rewrite Tg; destruct (empty1 _); lia).
  destruct (build_with_spec c cmd handles _ _ _ Hc H1 H2 Rt Wg) as [P1 P2].
  fold (own_frame c cmd handles (ask a w)) in P1, P2. rewrite Tg in P1, P2, B, K.
  change (frame_with c cmd handles (if empty1 (ask a w) then 0x8001 else 0x8002) (given_bytes (given (ask a w))))
    with (own_frame c cmd handles (ask a w)) in P1, P2.
  split.
  - intros L. unfold own_run. rewrite B. rewrite (P1 L) in *. specialize (K eq_refl). subst w'.
    rewrite (proj2 buffer_size). fold empty_buffer. reflexivity.
  - intros L tpm'. exists w'. unfold own_run. rewrite B. destruct (P2 L) as [-> | ->]; auto.
Qed.

(** What is sent is a regular command exactly if the area answered the same both
    times and had a session if it said it was not empty. *)
Theorem c99_regular_iff W c cmd handles (a : own W) w :
  own_call c cmd handles a ->
  (regular c cmd handles (own_frame c cmd handles (ask a w))
   <-> empty1 (ask a w) = empty2 (ask a w) /\ given (ask a w) <> Some []).
Proof.
  intros V. pose proof (given_wf _ _ _ _ w V) as F. unfold own_frame.
  assert (X : match given (ask a w) with None => empty2 (ask a w) = true
              | Some vs => empty2 (ask a w) = false /\ (length vs <= 3)%nat end).
  { unfold ask. destruct (says_empty a w) as [w1 e1]. destruct (says_empty a w1) as [w2 e2]. destruct e2; [reflexivity|].
    destruct (parts a w2) as [w3 d]. pose proof (give_all_length (live_sessions d) w3) as L.
    destruct (give_all (live_sessions d) w3) as [w4 vs]. cbn in L |- *. rewrite L.
    split; [reflexivity|apply sessions_at_most_3]. }
  generalize dependent (ask a w). intros [e1 e2 g w']. cbn [empty1 empty2 given]. intros F X.
  assert (FW : forall vs, (length vs <= 3)%nat -> command_frame c cmd handles (standing vs)
             = frame_with c cmd handles (match vs with [] => 0x8001 | _ => 0x8002 end)
                 (given_bytes (match vs with [] => None | _ => Some vs end))).
  { intros vs L. unfold command_frame, command_body, frame_with, auth_area. rewrite standing_sessions by assumption.
    destruct vs as [|v vs]; [reflexivity|]. rewrite auth_bytes_holds. reflexivity. }
  split.
  - intros (vs & L & Fv & E). rewrite FW in E by assumption.
    pose proof (f_equal (@length byte) E) as El. rewrite !frame_with_length in El.
    assert (Et : (if e1 then 0x8001 else 0x8002) = match vs with [] => 0x8001 | _ => 0x8002 end).
    { unfold frame_with in E. apply (f_equal (firstn 2)) in E. rewrite !firstn_app_exact' in E by reflexivity.
      destruct e1, vs; try reflexivity; vm_compute in E; discriminate. }
    clear E. destruct g as [gs|].
    + destruct X as [-> Lg]. destruct vs as [|v vs].
      * exfalso. cbn [given_bytes length] in El. rewrite app_length, be_bytes_length in El. lia.
      * destruct e1; [discriminate|]. split; [reflexivity|]. intros Eg. injection Eg as ->.
        cbn [given_bytes flat_map length] in El. rewrite !app_length, !be_bytes_length in El. cbn [length] in El.
        assert (Ev : length (enc TpmsAuthCommand v) = 0%nat) by lia.
        inversion Fv as [|? ? Wv _]; subst. exact (auth_not_empty _ Wv Ev).
    + subst e2. destruct vs as [|v vs].
      * destruct e1; [|discriminate]. split; [reflexivity|discriminate].
      * exfalso. cbn [given_bytes length] in El. rewrite app_length, be_bytes_length in El. lia.
  - intros [-> G]. destruct g as [gs|].
    + destruct X as [-> Lg]. exists gs. split; [assumption|]. split; [assumption|]. rewrite FW by assumption.
      destruct gs; [contradiction|]. reflexivity.
    + subst e2. exists []. split; [cbn; lia|]. split; [constructor|]. rewrite FW by (cbn; lia). reflexivity.
Qed.

(** The areas of the crate, and any other that leaves [is_empty] alone and always
    has the same sessions, are those of C89. *)
Theorem c99_ordinary W E (from_tss : Z -> E) (tpm : connection W E) w c cmd handles (a : live_area W) :
  own_run from_tss tpm w c cmd handles (ordinary a) = live_run from_tss tpm w c cmd handles a.
Proof.
  unfold own_run, live_run.
  assert (B : own_build_command c cmd handles (ordinary a) w = live_build_command c cmd handles a w).
  { unfold own_build_command, live_build_command. cbn [says_empty ordinary].
    destruct (tss_err (marshal CmdHeader _ _)) as [b0 [n0|e0|]]; cbn [live_then]; reflexivity. }
  rewrite B. reflexivity.
Qed.

(** *** The response *)
Definition own_rest {W} (a : own W) (p : val * val * list byte) (w : W) : W * outcome Z (val * val) :=
  let '(resp, rh, u3) := p in
  let '(w, d) := parts a w in
  live_bind (live_read_all (live_sessions d) u3 w) (fun u4 w =>
    match u4 with [] => (w, Ok (resp, rh)) | _ :: _ => (w, Err 0x2010) end).
Lemma own_parse_frame {W} c (a : own W) tag size rc rest w : header_ok tag size rc ->
  own_parse_response c a (response_frame tag size rc rest) w
  = if negb (rc =? 0) then (w, Err rc)
    else if 10 + Z.of_nat (length rest) <? size then (w, Err 0x2005)
    else if size <? 10 then (w, Panic)
    else live_bind (w, parse_front c tag (firstn (Z.to_nat (size - 10)) rest)) (own_rest a).
Proof.
  intros H. unfold own_parse_response. rewrite read_header_app by assumption.
  destruct H as (H1 & H2 & H3).
  destruct (rc =? 0); cbn [negb live_bind]; [|reflexivity].
  rewrite usize_u32 by assumption. rewrite response_frame_length.
  destruct (N.ltb_spec (N.of_nat (10 + length rest)) (Z.to_N size));
    destruct (Z.ltb_spec (10 + Z.of_nat (length rest)) size); try lia; [reflexivity|].
  destruct (N.ltb_spec (Z.to_N size) (N.of_nat 10)); destruct (Z.ltb_spec size 10);
    try lia; [reflexivity|].
  unfold parse_front.
  replace (skipn 10 (firstn (N.to_nat (Z.to_N size)) (response_frame tag size rc rest)))
    with (firstn (Z.to_nat (size - 10)) rest).
  2:{ replace (N.to_nat (Z.to_N size)) with (10 + Z.to_nat (size - 10))%nat by lia. reflexivity. }
  destruct (unmarshal (resp_handles_ty c) (firstn (Z.to_nat (size - 10)) rest)) as [[h|e|] u1]; cbn [omap_err obind live_bind]; try reflexivity.
  destruct (if tag =? st_Sessions then unm_int false 4 u1 else (Ok 0, u1)) as [[p|e|] u2]; cbn [omap_err obind live_bind]; try reflexivity.
  destruct (unmarshal (resp_ty c) u2) as [[r|e|] u3]; cbn [omap_err obind live_bind]; try reflexivity.
  cbn [own_rest]. unfold own_read_response_sessions. destruct (parts a w) as [w' d].
  rewrite live_read_sessions_all. reflexivity.
Qed.

(** A call succeeds exactly if the command fits and a response without error
    comes back with one authorization for each of the sessions the area has at
    that time, and these accept them.  Which sessions the command was sent for
    does not matter. *)
Theorem c99_accepted_iff W E (from_tss : Z -> E) (tpm : connection W E) w c cmd handles (a : own W) w' resp rh :
  own_call c cmd handles a -> wf_connection tpm ->
  let frame := own_frame c cmd handles (ask a w) in
  (own_run from_tss tpm w c cmd handles a = (w', Ok (resp, rh))
   <-> fits frame
       /\ exists w2 n tag psize auths ignored,
          let body := response_body c tag psize resp rh auths in
          let '(w3, now) := parts a w2 in
          transact tpm (asked_world (ask a w)) frame empty_buffer
            = (w2, response_frame tag (10 + Z.of_nat (length body)) 0 (body ++ ignored), Ok n)
          /\ 0 <= tag < 2 ^ 16 /\ 0 <= psize < 2 ^ 32
          /\ wf (resp_ty c) resp = true /\ canonical (resp_ty c) resp
          /\ wf (resp_handles_ty c) rh = true /\ canonical (resp_handles_ty c) rh
          /\ length auths = length (live_sessions now) /\ Forall proper auths
          /\ take_all (combine (live_sessions now) auths) w3 = (w', Ok tt)).
Proof.
  intros V HC. pose proof (c99_sent _ _ from_tss tpm w c cmd handles a V) as R.
  pose proof V as ((_ & _ & _ & T1 & T2) & _).
  cbn zeta in R |- *. set (w1 := asked_world (ask a w)) in *. clearbody w1.
  destruct R as [R1 R2]. set (frame := own_frame c cmd handles (ask a w)) in *. clearbody frame. split.
  - intros H. destruct (Z.le_gt_cases (Z.of_nat (length frame)) 4096) as [L|L].
    2:{ exfalso. destruct (R2 ltac:(unfold fits; lia) tpm) as (k & [R|R]); rewrite R in H; discriminate. }
    split; [assumption|]. rewrite (R1 L) in H.
    destruct (transact tpm w1 frame empty_buffer) as [[w2 rsp] r] eqn:T.
    destruct r as [n|e|]; [|discriminate..]. apply HC in T. destruct T as [Lr _].
    rewrite empty_buffer_length in Lr.
    destruct (read_header_cases rsp) as [(tag & size & rc & rest & HO & ->)|[Ls _]]; [|lia].
    rewrite own_parse_frame in H by assumption. rewrite response_frame_length in Lr.
    destruct (rc =? 0) eqn:Erc; [|discriminate]. apply Z.eqb_eq in Erc. subst rc. cbn [negb] in H.
    destruct (Z.ltb_spec (10 + Z.of_nat (length rest)) size); [discriminate|].
    destruct (Z.ltb_spec size 10); [discriminate|].
    destruct (parse_front c tag (firstn (Z.to_nat (size - 10)) rest)) as [[[resp' rh'] u3]|e|] eqn:P;
      try discriminate. cbn [live_bind own_rest] in H.
    destruct (parts a w2) as [wd d] eqn:D.
    destruct (live_read_all (live_sessions d) u3 wd) as [w3 [u4|e|]] eqn:Q; try discriminate.
    cbn [live_bind] in H. destruct u4; [|discriminate]. cbn in H. injection H as <- <- <-.
    apply live_read_all_ok in Q. destruct Q as (auths & La & Fa & Ta & ->). rewrite app_nil_r in P.
    apply parse_front_ok in P; [|assumption..].
    destruct P as (ps & Rps & W1 & C1 & W2 & C2 & Eb).
    exists w2, n, tag, ps, auths, (skipn (Z.to_nat (size - 10)) rest). rewrite D.
    assert (Eb' : firstn (Z.to_nat (size - 10)) rest = response_body c tag ps resp' rh' auths) by exact Eb.
    rewrite <- Eb'.
    split.
    { rewrite firstn_skipn. do 4 f_equal. rewrite firstn_length. lia. }
    repeat (split; [solve [assumption|apply HO]|]). assumption.
  - intros (L & w2 & n & tag & ps & auths & ign & X).
    destruct (parts a w2) as [w3 d] eqn:D.
    destruct X as (T & Rt & Rps & W1 & C1 & W2 & C2 & La & Fa & Ta).
    pose proof (HC _ _ _ _ _ _ T) as [Lr _]. rewrite empty_buffer_length, response_frame_length, app_length in Lr.
    rewrite (R1 L), T.
    rewrite own_parse_frame by (repeat split; lia). cbn [Z.eqb negb].
    rewrite app_length.
    match goal with |- context [?x <? ?y] => destruct (Z.ltb_spec x y); [lia|] end.
    match goal with |- context [?x <? 10] => destruct (Z.ltb_spec x 10); [lia|] end.
    rewrite firstn_app_exact' by lia.
    assert (P : parse_front c tag (response_body c tag ps resp rh auths)
                = Ok (resp, rh, flat_map (enc TpmsAuthResponse) auths)).
    { apply parse_front_ok; [assumption..|]. exists ps. repeat (split; [assumption|]). reflexivity. }
    rewrite P. cbn [live_bind own_rest]. rewrite D.
    assert (Q : live_read_all (live_sessions d) (flat_map (enc TpmsAuthResponse) auths) w3 = (w', Ok [])).
    { apply live_read_all_ok. exists auths. rewrite app_nil_r. auto. }
    rewrite Q. reflexivity.
Qed.

(** *** What the area is asked, and when *)
Inductive question :=
| Empty (b : bool)              (* [is_empty], and the answer *)
| Apart                         (* [decompose_ref] *)
| Exchange.                     (* [transact] *)
Definition lifted {W} (s : live W) : live (W * list question) := {|
  give := fun x => let '(w, v) := give s (fst x) in ((w, snd x), v);
  take := fun x auth => let '(w, r) := take s (fst x) auth in ((w, snd x), r)
|}.
Definition lifted_area {W} (a : live_area W) : live_area (W * list question) :=
  let '(s1, s2, s3) := a in (option_map lifted s1, option_map lifted s2, option_map lifted s3).
(** The same, noting it. *)
Definition asked {W} (a : own W) : own (W * list question) := {|
  says_empty := fun x => let '(w, b) := says_empty a (fst x) in ((w, snd x ++ [Empty b]), b);
  parts := fun x => let '(w, d) := parts a (fst x) in ((w, snd x ++ [Apart]), lifted_area d)
|}.
Definition exchanged {W E} (tpm : connection W E) : connection (W * list question) E := {|
  transact := fun x cmd rsp =>
    let '(w, rsp', r) := transact tpm (fst x) cmd rsp in ((w, snd x ++ [Exchange]), rsp', r)
|}.
(** All the questions of a call that succeeds. *)
Definition questions (e1 e2 : bool) : list question :=
  [Empty e1; Empty e2] ++ (if e2 then [] else [Apart]) ++ [Exchange; Apart].

Lemma lifted_write_auth {W} (s : live W) off buf x :
  let r := live_write_auth s off buf (fst x) in
  live_write_auth (lifted s) off buf x = ((fst r, snd x), snd r).
Proof. unfold live_write_auth. cbn [give lifted]. destruct (give s (fst x)). reflexivity. Qed.
Lemma lifted_read_all {W} (l : list (live W)) : forall b x,
  let r := live_read_all l b (fst x) in
  live_read_all (map lifted l) b x = ((fst r, snd x), snd r).
Proof.
  induction l as [|s l IH]; intros b x; cbn zeta in *; cbn [map live_read_all]; [destruct x; reflexivity|].
  unfold live_read_auth. destruct (unmarshal TpmsAuthResponse b) as [[auth|e|] rest]; cbn [live_bind]; [|destruct x; reflexivity..].
  cbn [take lifted]. destruct (take s (fst x) auth) as [w1 [u|e|]]; cbn [omap live_bind]; [|reflexivity..].
  rewrite IH. reflexivity.
Qed.
Lemma lifted_sessions {W} (d : live_area W) : live_sessions (lifted_area d) = map lifted (live_sessions d).
Proof. destruct d as [[[s1|] [s2|]] [s3|]]; reflexivity. Qed.

Lemma asked_write {W} (a : own W) buf x :
  let '(w, e2) := says_empty a (fst x) in
  let r := own_write_command_sessions a buf (fst x) in
  own_write_command_sessions (asked a) buf x
  = ((fst r, snd x ++ [Empty e2] ++ (if e2 then [] else [Apart])), snd r).
Proof.
  unfold own_write_command_sessions. cbn [says_empty asked parts].
  destruct (says_empty a (fst x)) as [w [|]]; [reflexivity|]. cbn [fst snd].
  destruct (parts a w) as [w3 [[s1 s2] s3]]. cbn [lifted_area]. rewrite <- app_assoc. cbn [app].
  destruct s1 as [s1|]; [|reflexivity]. cbn [option_map].
  rewrite lifted_write_auth. cbn [fst snd].
  destruct (live_write_auth s1 4 buf w3) as [w4 [b4 [n4|e|]]]; cbn [fst snd live_then]; try reflexivity.
  destruct s2 as [s2|]; [|reflexivity]. cbn [option_map].
  rewrite lifted_write_auth. cbn [fst snd].
  destruct (live_write_auth s2 n4 b4 w4) as [w5 [b5 [n5|e|]]]; cbn [fst snd live_then]; try reflexivity.
  destruct s3 as [s3|]; [|reflexivity]. cbn [option_map].
  rewrite lifted_write_auth. cbn [fst snd].
  destruct (live_write_auth s3 n5 b5 w5) as [w6 [b6 [n6|e|]]]; cbn [fst snd live_then]; reflexivity.
Qed.
Lemma asked_build {W} c cmd handles (a : own W) x :
  let e1 := empty1 (ask a (fst x)) in
  let e2 := empty2 (ask a (fst x)) in
  let r := own_build_command c cmd handles a (fst x) in
  exists qs, own_build_command c cmd handles (asked a) x = ((fst r, snd x ++ qs), snd r)
  /\ (qs = [Empty e1] \/ qs = [Empty e1; Empty e2] ++ (if e2 then [] else [Apart]))
  /\ (is_ok (snd r) = true -> qs = [Empty e1; Empty e2] ++ (if e2 then [] else [Apart])).
Proof.
  cbn zeta. unfold own_build_command. cbn [says_empty asked].
  assert (X : empty1 (ask a (fst x)) = snd (says_empty a (fst x))
              /\ empty2 (ask a (fst x)) = snd (says_empty a (fst (says_empty a (fst x))))).
  { unfold ask. destruct (says_empty a (fst x)) as [w1 e1]. cbn [fst snd]. destruct (says_empty a w1) as [w2 e2].
    destruct e2; [split; reflexivity|]. destruct (parts a w2) as [w3 d]. destruct (give_all _ w3). split; reflexivity. }
  destruct X as [-> ->]. destruct (says_empty a (fst x)) as [w1 e1]. cbn [fst snd].
  destruct (tss_err (marshal CmdHeader _ _)) as [b0 [n0|e0|]]; cbn [live_then fst snd].
  2-3: exists [Empty e1]; split; [reflexivity|split; [auto|discriminate]].
  destruct (cseq _ n0 b0) as [b1 [n1|?|]]; cbn [live_then fst snd].
  2-3: exists [Empty e1]; split; [reflexivity|split; [auto|discriminate]].
  destruct (length b1 <? n1)%nat; cbn [live_then fst snd].
  { exists [Empty e1]; split; [reflexivity|split; [auto|discriminate]]. }
  pose proof (asked_write a (skipn n1 b1) (w1, snd x ++ [Empty e1])) as A. cbn [fst snd] in A.
  destruct (says_empty a w1) as [w2 e2]. cbn [snd]. rewrite A. clear A.
  destruct (own_write_command_sessions a (skipn n1 b1) w1) as [w' [sub r]]. cbn [fst snd].
  exists ([Empty e1; Empty e2] ++ (if e2 then [] else [Apart])).
  destruct r as [m|e|]; cbn [omap live_then fst snd].
  2-3: rewrite <- app_assoc; split; [reflexivity|split; [auto|discriminate]].
  destruct (cseq _ (n1 + m)%nat (firstn n1 b1 ++ sub)) as [b2 r2]. cbn [fst snd].
  rewrite <- app_assoc. split; [reflexivity|]. split; auto.
Qed.
Lemma asked_parse {W} c (a : own W) rsp x :
  let r := own_parse_response c a rsp (fst x) in
  exists qs, own_parse_response c (asked a) rsp x = ((fst r, snd x ++ qs), snd r)
  /\ (qs = [] \/ qs = [Apart]) /\ (is_ok (snd r) = true -> qs = [Apart]).
Proof.
  cbn zeta. unfold own_parse_response.
  assert (Z0 : forall r : outcome Z (val * val), is_ok r = false -> exists qs,
     (x, r) = ((fst (fst x, r), snd x ++ qs), snd (fst x, r)) /\ (qs = [] \/ qs = [Apart])
     /\ (is_ok (snd (fst x, r)) = true -> qs = [Apart])).
  { intros r Hr. exists []. rewrite app_nil_r. destruct x. cbn [fst snd]. repeat split; auto. congruence. }
  destruct (read_response_header rsp) as [[[tag size] read]|e|]; cbn [live_bind]; try (apply Z0; reflexivity).
  destruct (N.of_nat (length rsp) <? usize size)%N; [apply Z0; reflexivity|].
  destruct (usize size <? N.of_nat read)%N; [apply Z0; reflexivity|].
  destruct (unmarshal (resp_handles_ty c) _) as [[h|e|] u1]; cbn [omap_err live_bind]; try (apply Z0; reflexivity).
  destruct (if tag =? st_Sessions then unm_int false 4 u1 else (Ok 0, u1)) as [[p|e|] u2];
    cbn [omap_err live_bind]; try (apply Z0; reflexivity).
  destruct (unmarshal (resp_ty c) u2) as [[resp|e|] u3]; cbn [omap_err live_bind]; try (apply Z0; reflexivity).
  clear Z0. exists [Apart]. unfold own_read_response_sessions. cbn [parts asked].
  destruct (parts a (fst x)) as [w1 d].
  rewrite !live_read_sessions_all, lifted_sessions, lifted_read_all. cbn [fst snd].
  destruct (live_read_all (live_sessions d) u3 w1) as [w2 [u4|e|]]; cbn [live_bind fst snd]; try (repeat split; auto; fail).
  destruct u4; repeat split; auto.
Qed.

(** The area is asked at most four times: twice whether it is empty; then, unless
    it said yes the second time, for its sessions; and after the exchange with the
    TPM for its sessions again.  In a call that succeeds, it is asked all this. *)
Theorem c99_questions W E (from_tss : Z -> E) (tpm : connection W E) w c cmd handles (a : own W) :
  let qs := questions (empty1 (ask a w)) (empty2 (ask a w)) in
  let r := own_run from_tss tpm w c cmd handles a in
  exists k, own_run from_tss (exchanged tpm) (w, []) c cmd handles (asked a) = ((fst r, firstn k qs), snd r)
  /\ (is_ok (snd r) = true -> firstn k qs = qs).
Proof.
  cbn zeta. unfold own_run.
  destruct (asked_build c cmd handles a (w, [])) as (q1 & B & Q1 & Q2). cbn [fst snd app] in *. rewrite B.
  set (e1 := empty1 (ask a w)) in *. set (e2 := empty2 (ask a w)) in *.
  assert (P1 : exists k, q1 = firstn k (questions e1 e2)).
  { destruct Q1 as [-> | ->]; [exists 1%nat; reflexivity|]. destruct e2; [exists 2%nat|exists 3%nat]; reflexivity. }
  destruct (own_build_command c cmd handles a w) as [w1 [bytes|e|]]; cbn [fst snd] in *.
  2-3: destruct P1 as [k ->]; exists k; split; [reflexivity|discriminate].
  specialize (Q2 eq_refl). subst q1. clear P1 Q1.
  cbn [transact exchanged fst snd].
  destruct (transact tpm w1 bytes (repeat x00 RESP_BUFFER_SIZE)) as [[w2 rsp] [n|e|]].
  2-3: exists (length (questions e1 e2) - 1)%nat; destruct e2; split; reflexivity || discriminate.
  match goal with |- context [own_parse_response c (asked a) rsp ?x] => destruct (asked_parse c a rsp x) as (q2 & P & Q3 & Q4) end.
  cbn [fst snd] in *. rewrite P. destruct (own_parse_response c a rsp w2) as [w3 r3]. cbn [fst snd] in *.
  exists (length (questions e1 e2) - 1 + length q2)%nat. split.
  - destruct e2, Q3 as [-> | ->]; reflexivity.
  - intros O. assert (O' : is_ok r3 = true) by (destruct r3; [reflexivity|discriminate..]).
    specialize (Q4 O'). subst q2. destruct e2; reflexivity.
Qed.

(** An area that says it is not empty the first time only: the tag promises an
    authorization area, and the parameters follow.  One that says it is not empty
    and has no session: an authorization area of size 0.  One that says it is
    empty and has a session: a regular command without sessions, and the response
    of a TPM, which has no authorization, is refused. *)
Definition pw_live {W} : live W := {|
  give := fun w => (w, password_auth_command (v2b 64 [x41]));
  take := fun w auth => (w, password_validate auth) |}.
Definition wavering : own Z :=
  {| says_empty := fun z => (z + 1, 0 <? z); parts := fun z => (z, (Some pw_live, None, None)) |}.
Definition hollow : own Z :=
  {| says_empty := fun z => (z, false); parts := fun z => (z, (None, None, None)) |}.
Definition denying : own Z :=
  {| says_empty := fun z => (z, true); parts := fun z => (z, (Some pw_live, None, None)) |}.
Definition keeping : connection (Z * list byte) Z :=
  {| transact := fun z cmd rsp => ((fst z, cmd), overwrite [x80; x01; x00; x00; x00; x0e; x00; x00; x00; x00; x00; x02; xca; xfe] rsp, Ok 14%nat) |}.
Definition sent_by (a : own Z) : list byte * outcome Z (val * val) :=
  let up (s : live Z) : live (Z * list byte) := {|
     give := fun x => let '(z, v) := give s (fst x) in ((z, snd x), v);
     take := fun x auth => let '(z, r) := take s (fst x) auth in ((z, snd x), r) |} in
  let a' : own (Z * list byte) := {|
     says_empty := fun x => let '(z, b) := says_empty a (fst x) in ((z, snd x), b);
     parts := fun x => let '(z, (s1, s2, s3)) := parts a (fst x) in
       ((z, snd x), (option_map up s1, option_map up s2, option_map up s3)) |} in
  let '(x, r) := own_run id keeping (0, []) GetRandom (VStruct [VInt 2]) VUnit a' in (snd x, r).
Example c99_wavering :
  sent_by wavering = ([x80; x02; x00; x00; x00; x0c; x00; x00; x01; x7b; x00; x02], Err 0x904)
  /\ sent_by hollow = ([x80; x02; x00; x00; x00; x10; x00; x00; x01; x7b; x00; x00; x00; x00; x00; x02],
                       Ok (VStruct [v2b 64 [xca; xfe]], VUnit))
  /\ sent_by denying = ([x80; x01; x00; x00; x00; x0c; x00; x00; x01; x7b; x00; x02], Err 0x904).
Proof. split; [|split]; vm_compute; reflexivity. Qed.
Example c99_calls :
  own_call GetRandom (VStruct [VInt 2]) VUnit wavering /\ own_call GetRandom (VStruct [VInt 2]) VUnit hollow
  /\ own_call GetRandom (VStruct [VInt 2]) VUnit denying
  /\ ~ regular GetRandom (VStruct [VInt 2]) VUnit (own_frame GetRandom (VStruct [VInt 2]) VUnit (ask wavering 0))
  /\ ~ regular GetRandom (VStruct [VInt 2]) VUnit (own_frame GetRandom (VStruct [VInt 2]) VUnit (ask hollow 0))
  /\ regular GetRandom (VStruct [VInt 2]) VUnit (own_frame GetRandom (VStruct [VInt 2]) VUnit (ask denying 0))
  /\ regular GetRandom (VStruct [VInt 2]) VUnit
       (own_frame GetRandom (VStruct [VInt 2]) VUnit (ask (ordinary two_rolling) 7)).
Proof.
  assert (H : wf_command GetRandom) by (repeat split; vm_compute; congruence).
  assert (C1 : own_call GetRandom (VStruct [VInt 2]) VUnit wavering).
  { split; [exact H|]. split; [reflexivity|]. split; [reflexivity|]. intros z. repeat constructor. }
  assert (C2 : own_call GetRandom (VStruct [VInt 2]) VUnit hollow).
  { split; [exact H|]. split; [reflexivity|]. split; [reflexivity|]. intros z. constructor. }
  assert (C3 : own_call GetRandom (VStruct [VInt 2]) VUnit denying).
  { split; [exact H|]. split; [reflexivity|]. split; [reflexivity|]. intros z. repeat constructor. }
  assert (C4 : own_call GetRandom (VStruct [VInt 2]) VUnit (ordinary two_rolling)).
  { split; [exact H|]. split; [reflexivity|]. split; [reflexivity|]. intros z.
    repeat (apply Forall_cons; [intros y; vm_compute; reflexivity|]). apply Forall_nil. }
  split; [exact C1|]. split; [exact C2|]. split; [exact C3|].
  rewrite (c99_regular_iff _ _ _ _ wavering 0 C1), (c99_regular_iff _ _ _ _ hollow 0 C2),
    (c99_regular_iff _ _ _ _ denying 0 C3), (c99_regular_iff _ _ _ _ (ordinary two_rolling) 7 C4).
  cbn -[rolling]. repeat split; try discriminate.
  - intros [X _]. discriminate.
  - intros [_ X]. exact (X eq_refl).
Qed.
