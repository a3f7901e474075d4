(** Sessions that keep state are used once, in order, around one exchange (C89). *)
From Coq Require Import String ZArith NArith List Lia Bool.
From Coq Require Import Init.Byte.
From Verif Require Import Prelude Types Marshal WireSpec MarshalProofs MarshalFacts Catalogue Samples Errors Tpm2b Client ClientSpec ClientProofs
  ClientFacts Sessions.
Import ListNotations.
Open Scope Z_scope.

(** The sessions of an area: those before the first gap. *)
Definition live_sessions {W} (a : live_area W) : list (live W) :=
  match a with
  | (None, _, _) => []
  | (Some s1, None, _) => [s1]
  | (Some s1, Some s2, None) => [s1; s2]
  | (Some s1, Some s2, Some s3) => [s1; s2; s3]
  end.
(** Asking sessions for their authorizations, one after the other. *)
Fixpoint give_all {W} (l : list (live W)) (w : W) : W * list val :=
  match l with
  | [] => (w, [])
  | s :: l' => let '(w', v) := give s w in let '(w'', vs) := give_all l' w' in (w'', v :: vs)
  end.
(** Handing each session its part of the response, until one refuses. *)
Fixpoint take_all {W} (l : list (live W * val)) (w : W) : W * outcome Z unit :=
  match l with
  | [] => (w, Ok tt)
  | (s, v) :: l' =>
      match take s w v with
      | (w', Ok _) => take_all l' w'
      | (w', Err e) => (w', Err e)
      | (w', Panic) => (w', Panic)
      end
  end.
(** An area with given authorizations. *)
Definition standing (vs : list val) : area :=
  let s v := {| auth_command := v; validate := fun _ => Ok tt |} in
  match vs with
  | [] => area0
  | [v1] => area1 (s v1)
  | [v1; v2] => area2 (s v1) (s v2)
  | v1 :: v2 :: v3 :: _ => area3 (s v1) (s v2) (s v3)
  end.
(** Sessions whose authorizations are of their type. *)
Definition honest {W} (a : live_area W) : Prop :=
  Forall (fun s => forall w, wf TpmsAuthCommand (snd (give s w)) = true) (live_sessions a).
Definition live_call {W} (c : command) (cmd handles : val) (a : live_area W) : Prop :=
  wf_command c /\ wf (cmd_ty c) cmd = true /\ wf (handles_ty c) handles = true /\ honest a.

(** *** Building *)
Lemma sessions_at_most_3 {W} (a : live_area W) : (length (live_sessions a) <= 3)%nat.
Proof. destruct a as [[[s1|] [s2|]] [s3|]]; cbn; lia. Qed.

Lemma empty_standing {W} (a : live_area W) w :
  live_is_empty a = area_is_empty (standing (snd (give_all (live_sessions a) w))).
Proof.
  destruct a as [[[s1|] [s2|]] [s3|]]; cbn; try reflexivity;
    repeat match goal with |- context [give ?s ?x] => destruct (give s x) end; reflexivity.
Qed.

Lemma write_sessions_live {W} (a : live_area W) buf w : exists k,
  live_write_command_sessions a buf w
  = (fst (give_all (firstn k (live_sessions a)) w),
     write_command_sessions (standing (snd (give_all (live_sessions a) w))) buf)
  /\ (k <= length (live_sessions a))%nat
  /\ (is_ok (snd (write_command_sessions (standing (snd (give_all (live_sessions a) w))) buf)) = true
      -> k = length (live_sessions a)).
Proof.
  destruct a as [[[s1|] s2] s3]; [|exists 0%nat; cbn; auto].
  unfold live_write_command_sessions, write_command_sessions. cbn [live_is_empty].
  unfold live_write_auth at 1.
  destruct s2 as [s2|]; [|exists 1%nat].
  2:{ cbn [live_sessions give_all firstn length fst snd].
      destruct (give s1 w) as [w1 v1]. cbn [snd fst standing area_is_empty area1]. split; [|split; [lia|reflexivity]].
      unfold write_auth. cbn [auth_command].
      destruct (cseq _ 4 buf) as [b [n|e|]]; reflexivity. }
  destruct (give s1 w) as [w1 v1] eqn:E1.
  destruct (cseq (fun b => tss_err (marshal TpmsAuthCommand v1 b)) 4 buf) as [b1 [n1|e1|]] eqn:C1.
  2-3: exists 1%nat; destruct s3 as [s3|]; cbn [live_sessions give_all firstn length fst snd]; rewrite E1;
      destruct (give s2 w1) as [w2 v2]; try destruct (give s3 w2) as [w3 v3];
      cbn [snd fst standing area_is_empty area1 area2 area3]; unfold write_auth; cbn [auth_command];
      rewrite C1; cbn [live_then cthen fst snd is_ok]; (split; [reflexivity|split; [lia|discriminate]]).
  cbn [live_then]. unfold live_write_auth at 1.
  destruct s3 as [s3|]; [|exists 2%nat].
  2:{ cbn [live_sessions give_all firstn length fst snd]. rewrite E1.
      destruct (give s2 w1) as [w2 v2]. cbn [snd fst standing area_is_empty area2]. split; [|split; [lia|reflexivity]].
      unfold write_auth. cbn [auth_command]. rewrite C1. cbn [cthen].
      destruct (cseq _ n1 b1) as [b [n|e|]]; reflexivity. }
  destruct (give s2 w1) as [w2 v2] eqn:E2.
  destruct (cseq (fun b => tss_err (marshal TpmsAuthCommand v2 b)) n1 b1) as [b2 [n2|e2|]] eqn:C2.
  2-3: exists 2%nat; cbn [live_sessions give_all firstn length fst snd]; rewrite E1, E2;
      destruct (give s3 w2) as [w3 v3];
      cbn [snd fst standing area_is_empty area1 area2 area3]; unfold write_auth; cbn [auth_command];
      rewrite C1; cbn [cthen]; rewrite C2; cbn [live_then cthen fst snd is_ok]; (split; [reflexivity|split; [lia|discriminate]]).
  exists 3%nat. cbn [live_then live_sessions give_all firstn length fst snd]. unfold live_write_auth. rewrite E1, E2.
  destruct (give s3 w2) as [w3 v3]. cbn [snd fst standing area_is_empty area3]. split; [|split; [lia|reflexivity]].
  unfold write_auth. cbn [auth_command]. rewrite C1. cbn [cthen]. rewrite C2. cbn [cthen].
  destruct (cseq _ n2 b2) as [b [n|e|]]; reflexivity.
Qed.

(** What is built is what is built for the authorizations given, and the
    sessions are asked in order; all of them if a command comes out. *)
Lemma build_live {W} c cmd handles (a : live_area W) w : exists k,
  live_build_command c cmd handles a w
  = (fst (give_all (firstn k (live_sessions a)) w),
     build_command c cmd handles (standing (snd (give_all (live_sessions a) w))))
  /\ (k <= length (live_sessions a))%nat
  /\ (is_ok (build_command c cmd handles (standing (snd (give_all (live_sessions a) w)))) = true
      -> k = length (live_sessions a)).
Proof.
  unfold live_build_command, build_command. rewrite (empty_standing a w).
  set (a' := standing (snd (give_all (live_sessions a) w))).
  destruct (tss_err (marshal CmdHeader _ _)) as [b0 [n0|e0|]]; cbn [live_then cthen].
  2-3: exists 0%nat; cbn; (split; [reflexivity|split; [lia|discriminate]]).
  destruct (cseq _ n0 b0) as [b1 [n1|e1|]]; cbn [live_then cthen].
  2-3: exists 0%nat; cbn; (split; [reflexivity|split; [lia|discriminate]]).
  assert (C : cseq (write_command_sessions a') n1 b1
              = if (length b1 <? n1)%nat then (b1, Panic)
                else let '(sub, r) := write_command_sessions a' (skipn n1 b1) in
                     (firstn n1 b1 ++ sub, omap (fun m => (n1 + m)%nat) r)) by reflexivity.
  rewrite C. clear C.
  destruct (length b1 <? n1)%nat.
  { exists 0%nat; cbn; (split; [reflexivity|split; [lia|discriminate]]). }
  destruct (write_sessions_live a (skipn n1 b1) w) as (k & E & K1 & K2). fold a' in E, K2.
  exists k. rewrite E.
  destruct (write_command_sessions a' (skipn n1 b1)) as [sub r].
  destruct r as [m|e|]; cbn [omap live_then cthen].
  2-3: split; [reflexivity|split; [assumption|discriminate]].
  specialize (K2 eq_refl).
  destruct (cseq _ (n1 + m)%nat (firstn n1 b1 ++ sub)) as [b2 r2].
  split; [reflexivity|split; [assumption|intros _; exact K2]].
Qed.

Lemma give_all_wf {W} (l : list (live W)) : Forall (fun s => forall w, wf TpmsAuthCommand (snd (give s w)) = true) l ->
  forall w, Forall (fun v => wf TpmsAuthCommand v = true) (snd (give_all l w)).
Proof.
  induction 1 as [|s l H _ IH]; intros w; cbn [give_all]; [constructor|].
  specialize (H w). destruct (give s w) as [w1 v]. specialize (IH w1).
  destruct (give_all l w1) as [w2 vs]. constructor; assumption.
Qed.
Lemma give_all_length {W} (l : list (live W)) : forall w, length (snd (give_all l w)) = length l.
Proof.
  induction l as [|s l IH]; intros w; cbn [give_all]; [reflexivity|].
  destruct (give s w) as [w1 v]. specialize (IH w1). destruct (give_all l w1). cbn in *. lia.
Qed.
Lemma valid_live {W} c cmd handles (a : live_area W) w : live_call c cmd handles a ->
  valid_call c cmd handles (standing (snd (give_all (live_sessions a) w))).
Proof.
  intros (Hc & H1 & H2 & H3). repeat (split; [assumption|]).
  pose proof (give_all_wf _ H3 w) as F.
  destruct (snd (give_all (live_sessions a) w)) as [|v1 [|v2 [|v3 l]]]; unfold wf_area; cbn;
    repeat match goal with H : Forall _ (_ :: _) |- _ => inversion H; clear H; subst end; repeat constructor; assumption.
Qed.

(** *** Reading *)
Fixpoint live_read_all {W} (l : list (live W)) (b : list byte) (w : W) : W * outcome Z (list byte) :=
  match l with
  | [] => (w, Ok b)
  | s :: l' => live_bind (live_read_auth s b w) (fun b w => live_read_all l' b w)
  end.
Lemma live_read_sessions_all {W} (a : live_area W) b w :
  live_read_response_sessions a b w = live_read_all (live_sessions a) b w.
Proof.
  unfold live_read_response_sessions.
  destruct a as [[[s1|] [s2|]] [s3|]]; cbn [live_sessions live_read_all]; try reflexivity;
    destruct (live_read_auth s1 b w) as [w1 [b1| |]]; cbn [live_bind]; try reflexivity;
    destruct (live_read_auth s2 b1 w1) as [w2 [b2| |]]; cbn [live_bind]; try reflexivity;
    destruct (live_read_auth s3 b2 w2) as [w3 [b3| |]]; reflexivity.
Qed.
Definition proper (auth : val) : Prop := wf TpmsAuthResponse auth = true /\ canonical TpmsAuthResponse auth.
Lemma live_read_all_ok {W} (l : list (live W)) : forall b w w' rest,
  live_read_all l b w = (w', Ok rest)
  <-> exists auths, length auths = length l /\ Forall proper auths
      /\ take_all (combine l auths) w = (w', Ok tt) /\ b = flat_map (enc TpmsAuthResponse) auths ++ rest.
Proof.
  induction l as [|s l IH]; intros b w w' rest; cbn [live_read_all].
  - split.
    + intros H. injection H as <- <-. exists []. auto.
    + intros ([|a auths] & Hl & _ & T & ->); [|discriminate]. cbn in T. injection T as <-. reflexivity.
  - split.
    + unfold live_read_auth. destruct (unmarshal TpmsAuthResponse b) as [[auth|e|] r] eqn:E; [|discriminate..].
      destruct (take s w auth) as [w1 [u|e|]] eqn:T; [|discriminate..]. cbn [omap live_bind]. intros H.
      apply IH in H. destruct H as (auths & Hl & F & T' & ->).
      apply unm_inv in E; [|reflexivity]. destruct E as (Hw & Hc & ->).
      exists (auth :: auths). cbn [length combine take_all flat_map]. rewrite T. rewrite <- app_assoc.
      repeat split; [lia| |assumption]. constructor; [split; assumption|assumption].
    + intros ([|auth auths] & Hl & F & T & ->); [discriminate|].
      inversion F as [|? ? [Hw Hc] F']; subst. cbn [flat_map]. rewrite <- app_assoc.
      unfold live_read_auth. rewrite unm_enc by (reflexivity || assumption).
      unfold canonical in Hc. rewrite Hc. cbn [combine take_all] in T.
      destruct (take s w auth) as [w1 [u|e|]]; [|discriminate..]. cbn [omap live_bind].
      apply IH. exists auths. cbn in Hl. repeat split; [lia|assumption..].
Qed.

(** Handles, parameter size and parameters, before the sessions. *)
Definition parse_front (c : command) (tag : Z) (u0 : list byte) : outcome Z (val * val * list byte) :=
  let '(rh, u1) := unmarshal (resp_handles_ty c) u0 in
  obind (omap_err tss_of_merr rh) (fun resp_handles =>
  let '(rp, u2) := if tag =? st_Sessions then unm_int false 4 u1 else (Ok 0, u1) in
  obind (omap_err tss_of_merr rp) (fun _ =>
  let '(rr, u3) := unmarshal (resp_ty c) u2 in
  obind (omap_err tss_of_merr rr) (fun resp => Ok (resp, resp_handles, u3)))).
Definition live_rest {W} (a : live_area W) (p : val * val * list byte) (w : W) : W * outcome Z (val * val) :=
  let '(resp, rh, u3) := p in
  live_bind (live_read_all (live_sessions a) u3 w) (fun u4 w =>
    match u4 with [] => (w, Ok (resp, rh)) | _ :: _ => (w, Err 0x2010) end).
Lemma live_parse_frame {W} c (a : live_area W) tag size rc rest w : header_ok tag size rc ->
  live_parse_response c a (response_frame tag size rc rest) w
  = if negb (rc =? 0) then (w, Err rc)
    else if 10 + Z.of_nat (length rest) <? size then (w, Err 0x2005)
    else if size <? 10 then (w, Panic)
    else live_bind (w, parse_front c tag (firstn (Z.to_nat (size - 10)) rest)) (live_rest a).
Proof.
  intros H. unfold live_parse_response. rewrite read_header_app by assumption.
  destruct H as (H1 & H2 & H3).
  destruct (rc =? 0); cbn [negb live_bind]; [|reflexivity].
  rewrite usize_u32 by assumption. rewrite response_frame_length.
  destruct (N.ltb_spec (N.of_nat (10 + length rest)) (Z.to_N size));
    destruct (Z.ltb_spec (10 + Z.of_nat (length rest)) size); try lia; [reflexivity|].
  destruct (N.ltb_spec (Z.to_N size) (N.of_nat 10)); destruct (Z.ltb_spec size 10);
    try lia; [reflexivity|].
  unfold parse_front.
  replace (skipn 10 (firstn (N.to_nat (Z.to_N size)) (response_frame tag size rc rest)))
    with (firstn (Z.to_nat (size - 10)) rest).
  2:{ replace (N.to_nat (Z.to_N size)) with (10 + Z.to_nat (size - 10))%nat by lia. reflexivity. }
  destruct (unmarshal (resp_handles_ty c) (firstn (Z.to_nat (size - 10)) rest)) as [[h|e|] u1]; cbn [omap_err obind live_bind]; try reflexivity.
  destruct (if tag =? st_Sessions then unm_int false 4 u1 else (Ok 0, u1)) as [[p|e|] u2]; cbn [omap_err obind live_bind]; try reflexivity.
  destruct (unmarshal (resp_ty c) u2) as [[r|e|] u3]; cbn [omap_err obind live_bind]; try reflexivity.
  cbn [live_rest]. rewrite live_read_sessions_all. reflexivity.
Qed.
Lemma parse_front_ok c tag u resp handles u3 :
  wf_ty (resp_ty c) = true -> wf_ty (resp_handles_ty c) = true ->
  (parse_front c tag u = Ok (resp, handles, u3)
   <-> exists psize, 0 <= psize < 2 ^ 32
       /\ wf (resp_ty c) resp = true /\ canonical (resp_ty c) resp
       /\ wf (resp_handles_ty c) handles = true /\ canonical (resp_handles_ty c) handles
       /\ u = enc (resp_handles_ty c) handles ++ (if tag =? 0x8002 then be_bytes 4 psize else [])
              ++ enc (resp_ty c) resp ++ u3).
Proof.
  intros T1 T2. unfold parse_front. change st_Sessions with 0x8002. split.
  - destruct (unmarshal (resp_handles_ty c) u) as [rh u1] eqn:E1.
    destruct rh as [h|e|]; cbn [omap_err obind]; try discriminate.
    apply unm_inv in E1; [|assumption]. destruct E1 as (W1 & C1 & ->).
    destruct (if tag =? 0x8002 then unm_int false 4 u1 else (Ok 0, u1)) as [rp u2] eqn:E2.
    destruct rp as [p|e|]; cbn [omap_err obind]; try discriminate.
    assert (P : exists ps, 0 <= ps < 2 ^ 32
              /\ u1 = (if tag =? 0x8002 then be_bytes 4 ps else []) ++ u2).
    { destruct (tag =? 0x8002).
      - apply unm_int_inv in E2; [|lia]. destruct E2 as [R ->]. apply in_range_iff in R. eauto.
      - injection E2 as _ <-. exists 0. split; [lia|reflexivity]. }
    destruct P as (ps & Rps & ->). clear E2.
    destruct (unmarshal (resp_ty c) u2) as [rr u4] eqn:E3.
    destruct rr as [r|e|]; cbn [omap_err obind]; try discriminate.
    apply unm_inv in E3; [|assumption]. destruct E3 as (W3 & C3 & ->).
    intros H. injection H as <- <- <-. exists ps. repeat (split; [assumption|]). reflexivity.
  - intros (ps & Rps & W1 & C1 & W2 & C2 & ->).
    rewrite unm_enc by assumption. unfold canonical in C1, C2. rewrite C2. cbn [omap_err obind].
    assert (E2 : (if tag =? 0x8002
                  then unm_int false 4 ((if tag =? 0x8002 then be_bytes 4 ps else []) ++ enc (resp_ty c) resp ++ u3)
                  else (Ok 0, (if tag =? 0x8002 then be_bytes 4 ps else []) ++ enc (resp_ty c) resp ++ u3))
            = (Ok (if tag =? 0x8002 then ps else 0), enc (resp_ty c) resp ++ u3)).
    { destruct (tag =? 0x8002); [|reflexivity]. apply unm_int_app. apply in_range_iff. assumption. }
    rewrite E2. cbn [omap_err obind]. clear E2.
    rewrite unm_enc by assumption. rewrite C1. reflexivity.
Qed.

Lemma live_run_sent {W E} (from_tss : Z -> E) (tpm : connection W E) w c cmd handles a :
  live_call c cmd handles a ->
  let '(w1, vs) := give_all (live_sessions a) w in
  let frame := command_frame c cmd handles (standing vs) in
  (fits frame ->
   live_run from_tss tpm w c cmd handles a
   = let '(w2, rsp, r) := transact tpm w1 frame empty_buffer in
     match r with
     | Ok _ => let '(w', r) := live_parse_response c a rsp w2 in (w', omap_err from_tss r)
     | Err e => (w2, Err e)
     | Panic => (w2, Panic)
     end)
  /\ (~ fits frame -> exists k, (k <= length (live_sessions a))%nat
      /\ (live_run from_tss tpm w c cmd handles a
          = (fst (give_all (firstn k (live_sessions a)) w), Err (from_tss 0x904))
          \/ live_run from_tss tpm w c cmd handles a
             = (fst (give_all (firstn k (live_sessions a)) w), Panic))).
Proof.
  intros V. pose proof (valid_live c cmd handles a w V) as V'.
  destruct (build_live c cmd handles a w) as (k & B & K1 & K2).
  destruct (give_all (live_sessions a) w) as [w1 vs] eqn:G. cbn [snd] in *. cbn zeta. split.
  - intros L. unfold live_run. rewrite B. rewrite (build_frame _ _ _ _ V' L) in *.
    specialize (K2 eq_refl). subst k. rewrite firstn_all, G. cbn [fst].
    rewrite (proj2 buffer_size). fold empty_buffer. reflexivity.
  - intros L. exists k. split; [assumption|]. unfold live_run. rewrite B.
    destruct (build_too_long _ _ _ _ V' L) as [-> | ->]; auto.
Qed.

(** ** C89 *)
(** A call that succeeds: the sessions are asked once each, in order, and their
    authorizations sent; then the response comes in, its authorizations are
    handed to the sessions, once each, in order; every one is accepted, and
    nothing happens to the sessions but this.  And conversely. *)
Theorem c89_accepted_iff W E (from_tss : Z -> E) (tpm : connection W E) w c cmd handles a w' resp rh :
  live_call c cmd handles a -> wf_connection tpm ->
  let '(w1, vs) := give_all (live_sessions a) w in
  let frame := command_frame c cmd handles (standing vs) in
  (live_run from_tss tpm w c cmd handles a = (w', Ok (resp, rh))
   <-> fits frame
       /\ exists w2 n tag psize auths ignored,
          let body := response_body c tag psize resp rh auths in
          transact tpm w1 frame empty_buffer
            = (w2, response_frame tag (10 + Z.of_nat (length body)) 0 (body ++ ignored), Ok n)
          /\ 0 <= tag < 2 ^ 16 /\ 0 <= psize < 2 ^ 32
          /\ wf (resp_ty c) resp = true /\ canonical (resp_ty c) resp
          /\ wf (resp_handles_ty c) rh = true /\ canonical (resp_handles_ty c) rh
          /\ length auths = length (live_sessions a) /\ Forall proper auths
          /\ take_all (combine (live_sessions a) auths) w2 = (w', Ok tt)).
Proof.
  intros V HC. pose proof (live_run_sent from_tss tpm w c cmd handles a V) as R.
  pose proof V as ((_ & _ & _ & T1 & T2) & _).
  destruct (give_all (live_sessions a) w) as [w1 vs]. cbn zeta in R |- *.
  destruct R as [R1 R2]. set (frame := command_frame c cmd handles (standing vs)) in *. clearbody frame. split.
  - intros H. destruct (Z.le_gt_cases (Z.of_nat (length frame)) 4096) as [L|L].
    2:{ exfalso. destruct R2 as (k & _ & [R2|R2]); [unfold fits; lia| |]; rewrite R2 in H; discriminate. }
    split; [assumption|]. rewrite (R1 L) in H.
    destruct (transact tpm w1 frame empty_buffer) as [[w2 rsp] r] eqn:T.
    destruct r as [n|e|]; [|discriminate..]. apply HC in T. destruct T as [Lr _].
    rewrite empty_buffer_length in Lr.
    destruct (read_header_cases rsp) as [(tag & size & rc & rest & HO & ->)|[Ls _]]; [|lia].
    rewrite live_parse_frame in H by assumption. rewrite response_frame_length in Lr.
    destruct (rc =? 0) eqn:Erc; [|discriminate]. apply Z.eqb_eq in Erc. subst rc. cbn [negb] in H.
    destruct (Z.ltb_spec (10 + Z.of_nat (length rest)) size); [discriminate|].
    destruct (Z.ltb_spec size 10); [discriminate|].
    destruct (parse_front c tag (firstn (Z.to_nat (size - 10)) rest)) as [[[resp' rh'] u3]|e|] eqn:P;
      try discriminate. cbn [live_bind live_rest] in H.
    destruct (live_read_all (live_sessions a) u3 w2) as [w3 [u4|e|]] eqn:Q; try discriminate.
    cbn [live_bind] in H. destruct u4; [|discriminate]. cbn in H. injection H as <- <- <-.
    apply live_read_all_ok in Q. destruct Q as (auths & La & Fa & Ta & ->). rewrite app_nil_r in P.
    apply parse_front_ok in P; [|assumption..].
    destruct P as (ps & Rps & W1 & C1 & W2 & C2 & Eb).
    exists w2, n, tag, ps, auths, (skipn (Z.to_nat (size - 10)) rest).
    assert (Eb' : firstn (Z.to_nat (size - 10)) rest = response_body c tag ps resp' rh' auths) by exact Eb.
    rewrite <- Eb'.
    split.
    { rewrite firstn_skipn. do 4 f_equal. rewrite firstn_length. lia. }
    repeat (split; [solve [assumption|apply HO]|]). assumption.
  - intros (L & w2 & n & tag & ps & auths & ign & T & Rt & Rps & W1 & C1 & W2 & C2 & La & Fa & Ta).
    pose proof (HC _ _ _ _ _ _ T) as [Lr _]. rewrite empty_buffer_length, response_frame_length, app_length in Lr.
    rewrite (R1 L), T.
    rewrite live_parse_frame by (repeat split; lia). cbn [Z.eqb negb].
    rewrite app_length.
    match goal with |- context [?x <? ?y] => destruct (Z.ltb_spec x y); [lia|] end.
    match goal with |- context [?x <? 10] => destruct (Z.ltb_spec x 10); [lia|] end.
    rewrite firstn_app_exact' by lia.
    assert (P : parse_front c tag (response_body c tag ps resp rh auths)
                = Ok (resp, rh, flat_map (enc TpmsAuthResponse) auths)).
    { apply parse_front_ok; [assumption..|]. exists ps. repeat (split; [assumption|]). reflexivity. }
    rewrite P. cbn [live_bind live_rest].
    assert (Q : live_read_all (live_sessions a) (flat_map (enc TpmsAuthResponse) auths) w2 = (w', Ok [])).
    { apply live_read_all_ok. exists auths. rewrite app_nil_r. auto. }
    rewrite Q. reflexivity.
Qed.

(** *** What is done to sessions and connection, in order *)
Inductive event :=
| Gave (i : nat) (auth : val)
| Sent (frame : list byte)
| Took (i : nat) (auth : val) (r : outcome Z unit).
(** The same, noting it. *)
Definition noted_session {W} (i : nat) (s : live W) : live (W * list event) := {|
  give := fun x => let '(w, v) := give s (fst x) in ((w, snd x ++ [Gave i v]), v);
  take := fun x auth => let '(w, r) := take s (fst x) auth in ((w, snd x ++ [Took i auth r]), r)
|}.
Definition noted_area {W} (a : live_area W) : live_area (W * list event) :=
  let '(s1, s2, s3) := a in
  (option_map (noted_session 0) s1, option_map (noted_session 1) s2, option_map (noted_session 2) s3).
Definition noted_tpm {W E} (tpm : connection W E) : connection (W * list event) E := {|
  transact := fun x cmd rsp =>
    let '(w, rsp', r) := transact tpm (fst x) cmd rsp in ((w, snd x ++ [Sent cmd]), rsp', r)
|}.

Fixpoint noted_from {W} (i : nat) (l : list (live W)) : list (live (W * list event)) :=
  match l with [] => [] | s :: l' => noted_session i s :: noted_from (S i) l' end.
Lemma noted_sessions {W} (a : live_area W) : live_sessions (noted_area a) = noted_from 0 (live_sessions a).
Proof. destruct a as [[[s1|] [s2|]] [s3|]]; reflexivity. Qed.
Fixpoint gaves (i : nat) (vs : list val) : list event :=
  match vs with [] => [] | v :: vs' => Gave i v :: gaves (S i) vs' end.
Lemma noted_give {W} (l : list (live W)) : forall i w log,
  give_all (noted_from i l) (w, log)
  = ((fst (give_all l w), log ++ gaves i (snd (give_all l w))), snd (give_all l w)).
Proof.
  induction l as [|s l IH]; intros i w log; cbn [noted_from give_all].
  - cbn. rewrite app_nil_r. reflexivity.
  - cbn [give noted_session fst snd]. destruct (give s w) as [w1 v]. rewrite IH.
    destruct (give_all l w1) as [w2 vs]. cbn [fst snd gaves]. rewrite <- app_assoc. reflexivity.
Qed.
Lemma noted_firstn {W} k (l : list (live W)) : forall i, firstn k (noted_from i l) = noted_from i (firstn k l).
Proof.
  revert l; induction k as [|k IH]; intros [|s l] i; cbn; try reflexivity. rewrite IH. reflexivity.
Qed.
Lemma gaves_nth vs : forall i k e, nth_error (gaves i vs) k = Some e -> exists v, e = Gave (i + k) v.
Proof.
  induction vs as [|v vs IH]; intros i [|k] e H; try discriminate.
  - injection H as <-. exists v. f_equal. lia.
  - apply IH in H. destruct H as [v' ->]. exists v'. f_equal. lia.
Qed.
Lemma gaves_length vs : forall i, length (gaves i vs) = length vs.
Proof. induction vs as [|v vs IH]; intros i; cbn; [reflexivity|]. rewrite IH. reflexivity. Qed.
Lemma noted_read {W} (l : list (live W)) : forall i b w log, exists w' takes r,
  live_read_all (noted_from i l) b (w, log) = ((w', log ++ takes), r)
  /\ live_read_all l b w = (w', r)
  /\ (length takes <= length l)%nat
  /\ (is_ok r = true -> length takes = length l)
  /\ forall k e, nth_error takes k = Some e ->
     exists auth o, e = Took (i + k) auth o
       /\ ((k + 1 < length takes)%nat -> o = Ok tt) /\ (is_ok r = true -> o = Ok tt).
Proof.
  induction l as [|s l IH]; intros i b w log; cbn [noted_from live_read_all].
  - exists w, [], (Ok b). rewrite app_nil_r. repeat split; auto. intros [|k] e H; discriminate.
  - unfold live_read_auth. destruct (unmarshal TpmsAuthResponse b) as [[auth|e|] rest].
    2-3: cbn [live_bind]; exists w, []; eexists; rewrite app_nil_r;
      (split; [reflexivity|]); (split; [reflexivity|]);
      (repeat split; [cbn; lia|discriminate|intros [|k] e' H; discriminate]).
    cbn [take noted_session fst snd]. destruct (take s w auth) as [w1 [[]|e|]]; cbn [omap live_bind].
    2-3: do 3 eexists; (split; [reflexivity|]); (split; [reflexivity|]); (split; [cbn; lia|]); (split; [discriminate|]);
      intros [|[|k]] e' H; try discriminate; injection H as <-; exists auth; eexists; split; [f_equal; lia|];
      split; [cbn; lia|discriminate].
    destruct (IH (S i) rest w1 (log ++ [Took i auth (Ok tt)])) as (w' & takes & r & E1 & E2 & L1 & L2 & N).
    exists w', (Took i auth (Ok tt) :: takes), r. rewrite E1, E2, <- app_assoc. repeat split.
    + cbn. lia.
    + intros H. cbn. rewrite (L2 H). reflexivity.
    + intros [|k] e H.
      * injection H as <-. exists auth, (Ok tt). split; [f_equal; lia|]. split; reflexivity.
      * cbn in H. apply N in H. destruct H as (auth' & o & -> & H1 & H2). exists auth', o.
        split; [f_equal; lia|]. split; [cbn; intros; apply H1; lia|assumption].
Qed.
Lemma noted_parse {W} c (a : live_area W) rsp w log : exists w' takes r,
  live_parse_response c (noted_area a) rsp (w, log) = ((w', log ++ takes), r)
  /\ live_parse_response c a rsp w = (w', r)
  /\ (length takes <= length (live_sessions a))%nat
  /\ (is_ok r = true -> length takes = length (live_sessions a))
  /\ forall k e, nth_error takes k = Some e ->
     exists auth o, e = Took k auth o
       /\ ((k + 1 < length takes)%nat -> o = Ok tt) /\ (is_ok r = true -> o = Ok tt).
Proof.
  assert (Stop : forall r : outcome Z (val * val), is_ok r = false -> exists w' takes r',
    ((w, log), r) = ((w', log ++ takes), r')
    /\ (w, r) = (w', r')
    /\ (length takes <= length (live_sessions a))%nat
    /\ (is_ok r' = true -> length takes = length (live_sessions a))
    /\ forall k e, nth_error takes k = Some e ->
       exists auth o, e = Took k auth o /\ ((k + 1 < length takes)%nat -> o = Ok tt) /\ (is_ok r' = true -> o = Ok tt)).
  { intros r Hr. exists w, [], r. rewrite app_nil_r. repeat split; [cbn; lia|congruence|].
    intros [|k] e H; discriminate. }
  unfold live_parse_response.
  destruct (read_response_header rsp) as [[[tag size] read]|e|]; cbn [live_bind]; try (apply Stop; reflexivity).
  destruct (N.of_nat (length rsp) <? usize size)%N; [apply Stop; reflexivity|].
  destruct (usize size <? N.of_nat read)%N; [apply Stop; reflexivity|].
  destruct (unmarshal (resp_handles_ty c) _) as [[h|e|] u1]; cbn [omap_err live_bind]; try (apply Stop; reflexivity).
  destruct (if tag =? st_Sessions then unm_int false 4 u1 else (Ok 0, u1)) as [[p|e|] u2];
    cbn [omap_err live_bind]; try (apply Stop; reflexivity).
  destruct (unmarshal (resp_ty c) u2) as [[resp|e|] u3]; cbn [omap_err live_bind]; try (apply Stop; reflexivity).
  rewrite !live_read_sessions_all, noted_sessions.
  destruct (noted_read (live_sessions a) 0 u3 w log) as (w' & takes & r & E & E' & L1 & L2 & N).
  rewrite E, E'. destruct r as [u4|e|]; cbn [live_bind].
  2-3: do 3 eexists; split; [reflexivity|]; split; [reflexivity|]; split; [assumption|]; split; [discriminate|];
    intros k e' H; apply N in H; destruct H as (auth & o & -> & H1 & H2); exists auth, o; auto.
  destruct u4; do 3 eexists; (split; [reflexivity|]); (split; [reflexivity|]); (split; [assumption|]); (split; [intros _; apply L2; reflexivity|]);
    intros k e' H; apply N in H; destruct H as (auth & o & -> & H1 & H2); exists auth, o; auto.
Qed.

(** However a call ends: the sessions are asked first, each at most once and in
    order; nothing is sent unless all were asked; one command is sent; only
    then are authorizations from the response handed out, each session's once
    and in order, and none after a refusal.  A call succeeds only if every
    session has accepted. *)
Theorem c89_order W E (from_tss : Z -> E) (tpm : connection W E) w c cmd handles a :
  live_call c cmd handles a ->
  let n := length (live_sessions a) in
  let '((w', events), r) := live_run from_tss (noted_tpm tpm) (w, []) c cmd handles (noted_area a) in
  exists given sent taken, events = given ++ sent ++ taken
  /\ (forall k e, nth_error given k = Some e -> exists auth, e = Gave k auth)
  /\ (forall k e, nth_error taken k = Some e ->
        exists auth o, e = Took k auth o
          /\ ((k + 1 < length taken)%nat -> o = Ok tt) /\ (is_ok r = true -> o = Ok tt))
  /\ (length given <= n /\ length taken <= n)%nat
  /\ ((sent = [] /\ taken = [] /\ is_ok r = false)
      \/ (length given = n
          /\ sent = [Sent (command_frame c cmd handles (standing (snd (give_all (live_sessions a) w))))]
          /\ (is_ok r = true -> length taken = n))).
Proof.
  intros V n.
  assert (V' : live_call c cmd handles (noted_area a)).
  { destruct V as (V1 & V2 & V3 & V4). repeat (split; [assumption|]). unfold honest in *. rewrite noted_sessions.
    generalize 0%nat. induction V4 as [|s l H _ IH]; intros i; cbn [noted_from]; constructor; [|apply IH].
    intros [x log]. cbn [give noted_session fst snd]. specialize (H x). destruct (give s x). exact H. }
  pose proof (live_run_sent from_tss (noted_tpm tpm) (w, []) c cmd handles (noted_area a) V') as R.
  rewrite noted_sessions, noted_give in R. cbn [fst snd app] in R. cbn zeta in R. destruct R as [R1 R2].
  set (vs := snd (give_all (live_sessions a) w)) in *.
  assert (Lv : length vs = n) by apply give_all_length.
  destruct (Z.le_gt_cases (Z.of_nat (length (command_frame c cmd handles (standing vs)))) 4096) as [L|L].
  - rewrite (R1 L). cbn [noted_tpm transact fst snd].
    destruct (transact tpm (fst (give_all (live_sessions a) w)) (command_frame c cmd handles (standing vs)) empty_buffer)
      as [[w2 rsp] r].
    assert (G : forall k e, nth_error (gaves 0 vs) k = Some e -> exists auth, e = Gave k auth)
      by (intros k e H; apply gaves_nth in H; exact H).
    destruct r as [m|e|].
    2-3: exists (gaves 0 vs), [Sent (command_frame c cmd handles (standing vs))], []; rewrite gaves_length, app_nil_r;
      (split; [reflexivity|]); (split; [exact G|]); (split; [intros [|k] e' H; discriminate|]);
      (split; [cbn; lia|]); right; (split; [exact Lv|]); (split; [reflexivity|discriminate]).
    destruct (noted_parse c a rsp w2 (gaves 0 vs ++ [Sent (command_frame c cmd handles (standing vs))]))
      as (w3 & takes & r3 & E3 & _ & L1 & L2 & N).
    rewrite E3. exists (gaves 0 vs), [Sent (command_frame c cmd handles (standing vs))], takes.
    rewrite gaves_length. rewrite <- app_assoc. split; [reflexivity|]. split; [exact G|].
    assert (O : is_ok (omap_err from_tss r3) = is_ok r3) by (destruct r3; reflexivity). rewrite O.
    split; [exact N|]. split; [lia|]. right. split; [exact Lv|]. split; [reflexivity|exact L2].
  - destruct R2 as (k & K & R2); [unfold fits; lia|].
    rewrite noted_firstn, noted_give in R2. cbn [fst snd app] in R2.
    set (us := snd (give_all (firstn k (live_sessions a)) w)) in *.
    assert (Lu : (length us <= n)%nat).
    { unfold us. rewrite give_all_length, firstn_length. lia. }
    destruct R2 as [R2|R2]; rewrite R2; exists (gaves 0 us), [], []; rewrite app_nil_r, gaves_length;
      (split; [reflexivity|]); (split; [intros j e H; apply gaves_nth in H; exact H|]);
      (split; [intros [|j] e' H; discriminate|]); (split; [cbn; lia|]); left; auto.
Qed.

(** What was handed to the sessions. *)
Definition handed (events : list event) : list val :=
  flat_map (fun e => match e with Took _ auth _ => [auth] | _ => [] end) events.
Lemma handed_app l1 l2 : handed (l1 ++ l2) = handed l1 ++ handed l2.
Proof. apply flat_map_app. Qed.
Lemma handed_gaves vs : forall i, handed (gaves i vs) = [].
Proof. induction vs as [|v vs IH]; intros i; [reflexivity|]. apply IH. Qed.
Lemma gaves_none vs : forall i k auth o, ~ In (Took k auth o) (gaves i vs).
Proof. induction vs as [|v vs IH]; intros i k auth o; cbn; [tauto|]. intros [H|H]; [discriminate|]. eapply IH; eauto. Qed.
Definition refused {A} (r : outcome Z A) (takes : list event) : Prop :=
  (forall k auth e, In (Took k auth (Err e)) takes -> r = Err e)
  /\ (forall k auth, In (Took k auth Panic) takes -> r = Panic).
Lemma refused_nil {A} (r : outcome Z A) : refused r [].
Proof. split; intros; contradiction. Qed.
Lemma handed_read {W} (l : list (live W)) : forall i b w log, exists w' takes r rest,
  live_read_all (noted_from i l) b (w, log) = ((w', log ++ takes), r)
  /\ b = flat_map (enc TpmsAuthResponse) (handed takes) ++ rest
  /\ Forall proper (handed takes) /\ refused r takes.
Proof.
  induction l as [|s l IH]; intros i b w log; cbn [noted_from live_read_all].
  - exists w, [], (Ok b), b. rewrite app_nil_r. repeat (split; [constructor|]). apply refused_nil.
  - unfold live_read_auth. destruct (unmarshal TpmsAuthResponse b) as [[auth|e|] rest] eqn:E.
    2-3: cbn [live_bind]; exists w, []; do 2 eexists; rewrite app_nil_r; (split; [reflexivity|]);
      (split; [reflexivity|]); (split; [constructor|apply refused_nil]).
    apply unm_inv in E; [|reflexivity]. destruct E as (Hw & Hc & ->).
    cbn [take noted_session fst snd]. destruct (take s w auth) as [w1 [[]|e|]]; cbn [omap live_bind].
    2-3: do 3 eexists; exists rest; (split; [reflexivity|]); cbn [handed flat_map app]; rewrite app_nil_r;
      (split; [reflexivity|]);
      (split; [repeat constructor; assumption|]); split;
      [intros k a' e' [H|[]]|intros k a' [H|[]]]; inversion H; reflexivity.
    destruct (IH (S i) rest w1 (log ++ [Took i auth (Ok tt)])) as (w' & takes & r & rest' & E1 & E2 & F & R1 & R2).
    exists w', (Took i auth (Ok tt) :: takes), r, rest'. rewrite E1, <- app_assoc. split; [reflexivity|].
    cbn [handed flat_map app]. fold (handed takes). rewrite <- app_assoc. split; [f_equal; exact E2|].
    split; [constructor; [split; assumption|assumption]|].
    split; [intros k a' e' [H|H]|intros k a' [H|H]]; try discriminate; eauto.
Qed.

(** However a call ends: what is handed to the sessions are the authorizations
    of the response that came in, from the first on, with nothing skipped or
    handed out of place; and a session's refusal is the result of the call. *)
Theorem c89_handed W E (from_tss : Z -> E) (tpm : connection W E) w c cmd handles a :
  live_call c cmd handles a -> wf_connection tpm ->
  let '(w1, vs) := give_all (live_sessions a) w in
  let frame := command_frame c cmd handles (standing vs) in
  let '((w', events), r) := live_run from_tss (noted_tpm tpm) (w, []) c cmd handles (noted_area a) in
  (handed events <> [] ->
   exists w2 n tag psize resp rh rest ignored,
     let body := response_body c tag psize resp rh (handed events) ++ rest in
     transact tpm w1 frame empty_buffer
       = (w2, response_frame tag (10 + Z.of_nat (length body)) 0 (body ++ ignored), Ok n)
     /\ 0 <= tag < 2 ^ 16 /\ 0 <= psize < 2 ^ 32
     /\ wf (resp_ty c) resp = true /\ canonical (resp_ty c) resp
     /\ wf (resp_handles_ty c) rh = true /\ canonical (resp_handles_ty c) rh
     /\ Forall proper (handed events))
  /\ (forall k auth e, In (Took k auth (Err e)) events -> r = Err (from_tss e))
  /\ (forall k auth, In (Took k auth Panic) events -> r = Panic).
Proof.
  intros V HC.
  assert (V' : live_call c cmd handles (noted_area a)).
  { destruct V as (V1 & V2 & V3 & V4). repeat (split; [assumption|]). unfold honest in *. rewrite noted_sessions.
    generalize 0%nat. induction V4 as [|s l H _ IH]; intros i; cbn [noted_from]; constructor; [|apply IH].
    intros [x log]. cbn [give noted_session fst snd]. specialize (H x). destruct (give s x). exact H. }
  pose proof (live_run_sent from_tss (noted_tpm tpm) (w, []) c cmd handles (noted_area a) V') as R.
  pose proof V as ((_ & _ & _ & T1 & T2) & _).
  rewrite noted_sessions, noted_give in R. cbn [fst snd app] in R. cbn zeta in R. destruct R as [R1 R2].
  destruct (give_all (live_sessions a) w) as [w1 vs]. cbn [fst snd] in *. cbn zeta.
  set (frame := command_frame c cmd handles (standing vs)) in *. clearbody frame.
  assert (None1 : forall us (r : outcome E (val * val)) more,
    handed more = [] -> (forall k auth o, ~ In (Took k auth o) more) ->
    (handed (gaves 0 us ++ more) <> [] ->
     exists w2 n tag psize resp rh rest ignored,
       let body := response_body c tag psize resp rh (handed (gaves 0 us ++ more)) ++ rest in
       transact tpm w1 frame empty_buffer
         = (w2, response_frame tag (10 + Z.of_nat (length body)) 0 (body ++ ignored), Ok n)
       /\ 0 <= tag < 2 ^ 16 /\ 0 <= psize < 2 ^ 32
       /\ wf (resp_ty c) resp = true /\ canonical (resp_ty c) resp
       /\ wf (resp_handles_ty c) rh = true /\ canonical (resp_handles_ty c) rh
       /\ Forall proper (handed (gaves 0 us ++ more)))
    /\ (forall k auth e, In (Took k auth (Err e)) (gaves 0 us ++ more) -> r = Err (from_tss e))
    /\ (forall k auth, In (Took k auth Panic) (gaves 0 us ++ more) -> r = Panic)).
  { intros us r more H1 H2. rewrite handed_app, handed_gaves, H1. split; [intros []; reflexivity|].
    split; [intros k auth e H|intros k auth H]; apply in_app_or in H; destruct H as [H|H];
      try (exfalso; eapply gaves_none; eassumption); exfalso; eapply H2; eassumption. }
  destruct (Z.le_gt_cases (Z.of_nat (length frame)) 4096) as [L|L].
  2:{ destruct R2 as (k & _ & R2); [unfold fits; lia|].
      rewrite noted_firstn, noted_give in R2. cbn [fst snd app] in R2.
      destruct R2 as [R2|R2]; rewrite R2; rewrite <- (app_nil_r (gaves 0 _)); apply None1; auto. }
  rewrite (R1 L). cbn [noted_tpm transact fst snd].
  destruct (transact tpm w1 frame empty_buffer) as [[w2 rsp] [n|e|]] eqn:T.
  2-3: apply None1; [reflexivity|]; intros k auth o [H|[]]; discriminate.
  pose proof (HC _ _ _ _ _ _ T) as [Lr _]. rewrite empty_buffer_length in Lr.
  assert (None2 : forall r : outcome E (val * val), 
    (handed (gaves 0 vs ++ [Sent frame]) <> [] ->
     exists w0 n0 tag psize resp rh rest ignored,
       let body := response_body c tag psize resp rh (handed (gaves 0 vs ++ [Sent frame])) ++ rest in
       (w2, rsp, Ok n)
         = (w0, response_frame tag (10 + Z.of_nat (length body)) 0 (body ++ ignored), @Ok E nat n0)
       /\ 0 <= tag < 2 ^ 16 /\ 0 <= psize < 2 ^ 32
       /\ wf (resp_ty c) resp = true /\ canonical (resp_ty c) resp
       /\ wf (resp_handles_ty c) rh = true /\ canonical (resp_handles_ty c) rh
       /\ Forall proper (handed (gaves 0 vs ++ [Sent frame])))
    /\ (forall k auth e, In (Took k auth (Err e)) (gaves 0 vs ++ [Sent frame]) -> r = Err (from_tss e))
    /\ (forall k auth, In (Took k auth Panic) (gaves 0 vs ++ [Sent frame]) -> r = Panic)).
  { intros r. apply None1; [reflexivity|]. intros k auth o [H|[]]; discriminate. }
  destruct (read_header_cases rsp) as [(tag & size & rc & rest & HO & ->)|[Ls _]]; [|lia].
  rewrite live_parse_frame by assumption. rewrite response_frame_length in Lr.
  destruct (rc =? 0) eqn:Erc; cbn [negb]; [|apply None2].
  apply Z.eqb_eq in Erc. subst rc.
  destruct (Z.ltb_spec (10 + Z.of_nat (length rest)) size); [apply None2|].
  destruct (Z.ltb_spec size 10); [apply None2|].
  destruct (parse_front c tag (firstn (Z.to_nat (size - 10)) rest)) as [[[resp rh] u3]|e|] eqn:P;
    cbn [live_bind]; [|apply None2..].
  cbn [live_rest]. rewrite noted_sessions.
  destruct (handed_read (live_sessions a) 0 u3 w2 (gaves 0 vs ++ [Sent frame]))
    as (w3 & takes & r & more & E1 & E2 & F & Q1 & Q2).
  rewrite E1. apply parse_front_ok in P; [|assumption..].
  destruct P as (ps & Rps & W1 & C1 & W2 & C2 & Eb).
  assert (K : (handed ((gaves 0 vs ++ [Sent frame]) ++ takes) <> [] ->
     exists w0 n0 tag0 psize resp rh rest0 ignored,
       let body := response_body c tag0 psize resp rh (handed ((gaves 0 vs ++ [Sent frame]) ++ takes)) ++ rest0 in
       (w2, response_frame tag size 0 rest, Ok n)
         = (w0, response_frame tag0 (10 + Z.of_nat (length body)) 0 (body ++ ignored), @Ok E nat n0)
       /\ 0 <= tag0 < 2 ^ 16 /\ 0 <= psize < 2 ^ 32
       /\ wf (resp_ty c) resp = true /\ canonical (resp_ty c) resp
       /\ wf (resp_handles_ty c) rh = true /\ canonical (resp_handles_ty c) rh
       /\ Forall proper (handed ((gaves 0 vs ++ [Sent frame]) ++ takes)))).
  { intros _. rewrite !handed_app, handed_gaves. cbn [handed flat_map app]. fold (handed takes).
    exists w2, n, tag, ps, resp, rh, more, (skipn (Z.to_nat (size - 10)) rest).
    assert (Eb' : firstn (Z.to_nat (size - 10)) rest = response_body c tag ps resp rh (handed takes) ++ more).
    { rewrite Eb, E2. unfold response_body. rewrite <- !app_assoc. reflexivity. }
    cbn zeta. rewrite <- Eb'. split.
    { rewrite firstn_skipn. do 4 f_equal. rewrite firstn_length. lia. }
    repeat (split; [solve [assumption|apply HO]|]). assumption. }
  assert (S : forall k auth o, In (Took k auth o) ((gaves 0 vs ++ [Sent frame]) ++ takes) -> In (Took k auth o) takes).
  { intros k auth o H'. apply in_app_or in H'. destruct H' as [H'|H']; [|assumption].
    apply in_app_or in H'. destruct H' as [H'|[H'|[]]]; [exfalso; eapply gaves_none; eassumption|discriminate]. }
  destruct r as [u4|e|]; cbn [live_bind]; [destruct u4|..]; cbn [omap_err]; (split; [exact K|]);
    (split; [intros k auth e' H'|intros k auth H']); apply S in H'; first [apply Q1 in H'|apply Q2 in H']; congruence.
Qed.

(** Noting changes neither what happens nor the result. *)
Theorem c89_noting W E (from_tss : Z -> E) (tpm : connection W E) w log c cmd handles (a : live_area W) :
  let '((w', _), r) := live_run from_tss (noted_tpm tpm) (w, log) c cmd handles (noted_area a) in
  live_run from_tss tpm w c cmd handles a = (w', r).
Proof.
  assert (Wr : forall buf x l, exists l', live_write_command_sessions (noted_area a) buf (x, l)
               = ((fst (live_write_command_sessions a buf x), l'), snd (live_write_command_sessions a buf x))).
  { intros buf x l. unfold live_write_command_sessions, live_write_auth.
    destruct a as [[[s1|] s2] s3]; [|eexists; reflexivity].
    cbn [noted_area option_map live_is_empty give noted_session fst snd].
    destruct (give s1 x) as [x1 v1]. destruct (cseq _ 4 buf) as [b1 [n1|e|]]; cbn [live_then];
      [|eexists; reflexivity..].
    destruct s2 as [s2|]; cbn [option_map]; [|eexists; reflexivity]. cbn [give noted_session fst snd].
    destruct (give s2 x1) as [x2 v2]. destruct (cseq _ n1 b1) as [b2 [n2|e|]]; cbn [live_then];
      [|eexists; reflexivity..].
    destruct s3 as [s3|]; cbn [option_map]; [|eexists; reflexivity]. cbn [give noted_session fst snd].
    destruct (give s3 x2) as [x3 v3]. destruct (cseq _ n2 b2) as [b3 [n3|e|]]; cbn [live_then];
      eexists; reflexivity. }
  assert (Em : live_is_empty (noted_area a) = live_is_empty a) by (destruct a as [[[s1|] s2] s3]; reflexivity).
  assert (Bl : exists l', live_build_command c cmd handles (noted_area a) (w, log)
               = ((fst (live_build_command c cmd handles a w), l'), snd (live_build_command c cmd handles a w))).
  { unfold live_build_command. rewrite Em.
    destruct (tss_err (marshal CmdHeader (cmd_header _ 0 _) _)) as [b0 [n0|?|]]; cbn [live_then]; [|eexists; reflexivity..].
    destruct (cseq _ n0 b0) as [b1 [n1|?|]]; cbn [live_then]; [|eexists; reflexivity..].
    destruct (length b1 <? n1)%nat; [eexists; reflexivity|].
    destruct (Wr (skipn n1 b1) w log) as [l' ->].
    destruct (live_write_command_sessions a (skipn n1 b1) w) as [w' [sub [m|?|]]]; cbn [fst snd omap live_then];
      [|eexists; reflexivity..].
    destruct (cseq _ (n1 + m)%nat (firstn n1 b1 ++ sub)) as [b2 r2]. eexists. reflexivity. }
  unfold live_run. destruct Bl as [l' ->].
  destruct (live_build_command c cmd handles a w) as [w1 [bytes|e|]]; cbn [fst snd]; try reflexivity.
  cbn [transact noted_tpm fst snd].
  destruct (transact tpm w1 bytes (repeat x00 RESP_BUFFER_SIZE)) as [[w2 rsp] [n|e|]]; try reflexivity.
  destruct (noted_parse c a rsp w2 (l' ++ [Sent bytes])) as (w3 & takes & r & E1 & E2 & _).
  rewrite E1, E2. reflexivity.
Qed.

(** Without state this is the client of the other properties. *)
Theorem c89_plain W E (from_tss : Z -> E) (tpm : connection W E) w c cmd handles (a : area) :
  let plain (s : session) : live W := {| give := fun w => (w, auth_command s); take := fun w auth => (w, validate s auth) |} in
  let '(s1, s2, s3) := a in
  live_run from_tss tpm w c cmd handles (option_map plain s1, option_map plain s2, option_map plain s3)
  = run_command_with_handles from_tss tpm w c cmd handles a.
Proof.
  intros plain. destruct a as [[s1 s2] s3]. set (la := (option_map plain s1, option_map plain s2, option_map plain s3)).
  assert (Bw : forall buf x, live_write_command_sessions la buf x = (x, write_command_sessions (s1, s2, s3) buf)).
  { intros buf x. unfold la, live_write_command_sessions, write_command_sessions, write_auth, live_write_auth.
    destruct s1 as [s1|], s2 as [s2|], s3 as [s3|]; cbn [option_map live_is_empty area_is_empty plain give live_then cthen];
      try reflexivity;
      repeat (match goal with |- context [cseq ?f ?n ?b] => destruct (cseq f n b) as [? [?|?|]] end; cbn [live_then cthen]);
      reflexivity. }
  assert (Rd : forall buf x, live_read_response_sessions la buf x = (x, read_response_sessions (s1, s2, s3) buf)).
  { intros buf x. unfold la, live_read_response_sessions, read_response_sessions.
    assert (RA : forall s b y, live_read_auth (plain s) b y = (y, read_auth s b)).
    { intros s b y. unfold live_read_auth, read_auth, plain. cbn [take].
      destruct (unmarshal TpmsAuthResponse b) as [[?|?|] ?]; reflexivity. }
    destruct s1 as [s1|], s2 as [s2|], s3 as [s3|]; cbn [option_map]; rewrite ?RA; try reflexivity;
      repeat (match goal with |- context [read_auth ?s ?b] => destruct (read_auth s b) as [?|?|] end; cbn [live_bind obind];
              rewrite ?RA); reflexivity. }
  assert (Bl : forall x, live_build_command c cmd handles la x = (x, build_command c cmd handles (s1, s2, s3))).
  { intros x. unfold live_build_command, build_command.
    assert (Em : live_is_empty la = area_is_empty (s1, s2, s3)) by (destruct s1; reflexivity). rewrite Em.
    destruct (tss_err (marshal CmdHeader (cmd_header _ 0 _) _)) as [b0 [n0|?|]]; cbn [live_then cthen]; try reflexivity.
    destruct (cseq _ n0 b0) as [b1 [n1|?|]]; cbn [live_then cthen]; try reflexivity.
    assert (C : cseq (write_command_sessions (s1, s2, s3)) n1 b1
                = if (length b1 <? n1)%nat then (b1, Panic)
                  else let '(sub, r) := write_command_sessions (s1, s2, s3) (skipn n1 b1) in
                       (firstn n1 b1 ++ sub, omap (fun m => (n1 + m)%nat) r)) by reflexivity.
    rewrite C. clear C. destruct (length b1 <? n1)%nat; [reflexivity|]. rewrite Bw.
    destruct (write_command_sessions (s1, s2, s3) (skipn n1 b1)) as [sub [m|?|]]; cbn [omap live_then cthen]; try reflexivity.
    destruct (cseq _ (n1 + m)%nat (firstn n1 b1 ++ sub)) as [b2 r2]. reflexivity. }
  assert (Pl : forall rsp x, live_parse_response c la rsp x = (x, parse_response c (s1, s2, s3) rsp)).
  { intros rsp x. unfold live_parse_response, parse_response.
    destruct (read_response_header rsp) as [[[tag size] read]|e|]; cbn [live_bind obind]; try reflexivity.
    destruct (N.of_nat (length rsp) <? usize size)%N; [reflexivity|].
    destruct (usize size <? N.of_nat read)%N; [reflexivity|].
    destruct (unmarshal (resp_handles_ty c) _) as [[h|e|] u1]; cbn [omap_err live_bind obind]; try reflexivity.
    destruct (if tag =? st_Sessions then unm_int false 4 u1 else (Ok 0, u1)) as [[p|e|] u2];
      cbn [omap_err live_bind obind]; try reflexivity.
    destruct (unmarshal (resp_ty c) u2) as [[resp|e|] u3]; cbn [omap_err live_bind obind]; try reflexivity.
    rewrite Rd. destruct (read_response_sessions (s1, s2, s3) u3) as [u4|e|]; cbn [live_bind obind]; try reflexivity.
    destruct u4; reflexivity. }
  unfold live_run, run_command_with_handles. rewrite Bl.
  destruct (build_command c cmd handles (s1, s2, s3)) as [bytes|e|]; try reflexivity.
  destruct (transact tpm w bytes (repeat x00 RESP_BUFFER_SIZE)) as [[w2 rsp] [n|e|]]; try reflexivity.
  rewrite Pl. reflexivity.
Qed.

(** A session whose nonce is a counter, and which wants the next one back; the
    counter is shared.  Two of them: the nonces are 7 and 8 in the command, and
    9 and 10 in the response. *)
Definition rolling : live Z := {|
  give := fun z => (z + 1, VStruct [VStruct [VInt 0x40000009]; v2b 64 (be_bytes 1 z); VStruct [VInt 0]; v2b 64 []]);
  take := fun z auth =>
    (z + 1,
     match auth with
     | VStruct (VTpm2b n b :: _) => if (n =? 1) && (int_of_be false (firstn 1 b) =? z) then Ok tt else Err 0x2009
     | _ => Err 0x2009
     end)
|}.
Definition two_rolling : live_area Z := (Some rolling, Some rolling, None).
Definition random_rsp (n1 n2 : byte) : list byte :=
  [x80; x02; x00; x00; x00; x1e; x00; x00; x00; x00; x00; x00; x00; x04; x00; x02; xca; xfe;
   x00; x01; n1; x00; x00; x00; x00; x01; n2; x00; x00; x00].
Definition says (bytes : list byte) : connection Z Z :=
  {| transact := fun z cmd rsp => (z, overwrite bytes rsp, Ok (length bytes)) |}.
Example c89_example :
  live_call GetRandom (VStruct [VInt 2]) VUnit two_rolling
  /\ live_run id (says (random_rsp x09 x0a)) 7 GetRandom (VStruct [VInt 2]) VUnit two_rolling
     = (11, Ok (VStruct [v2b 64 [xca; xfe]], VUnit))
  /\ live_run id (says (random_rsp x0a x09)) 7 GetRandom (VStruct [VInt 2]) VUnit two_rolling = (10, Err 0x2009)
  /\ map (fun e => match e with Gave i _ => (0, i) | Sent l => (1, length l) | Took i _ _ => (2, i) end)
         (snd (fst (live_run id (noted_tpm (says (random_rsp x09 x0a))) (7, []) GetRandom (VStruct [VInt 2]) VUnit
                      (noted_area two_rolling))))
     = [(0, 0%nat); (0, 1%nat); (1, 36%nat); (2, 0%nat); (2, 1%nat)].
Proof.
  split; [|vm_compute; auto].
  split; [repeat split; vm_compute; congruence|]. split; [reflexivity|]. split; [reflexivity|].
  repeat (apply Forall_cons; [intros z; vm_compute; reflexivity|]). apply Forall_nil.
Qed.
(** The first session refuses: it has been handed the first authorization, the
    second nothing. *)
Example c89_handed_example :
  let '((_, events), r) := live_run id (noted_tpm (says (random_rsp x0a x09))) (7, []) GetRandom (VStruct [VInt 2]) VUnit
                             (noted_area two_rolling) in
  handed events = [VStruct [v2b 64 [x0a]; VStruct [VInt 0]; v2b 64 []]] /\ r = Err 0x2009.
Proof. vm_compute. auto. Qed.
