(** What a call does whose command does not fit into the command buffer,
    exactly (C37). *)
From Coq Require Import String ZArith NArith List Lia Bool.
From Coq Require Import Init.Byte.
From Verif Require Import Prelude Types Marshal WireSpec MarshalProofs WriteSpec MarshalWrite
  Layout Catalogue Samples MarshalFacts Errors Tpm2b Client ClientSpec ClientProofs ClientFacts PiecesFacts.
Import ListNotations.
Open Scope Z_scope.

(** The command in the pieces that are written at once.  The size of the
    authorization area is among those whose room is not checked: the sessions
    are written behind it first, at [buffer[4..]]. *)
Definition auth_pieces (ss : list session) : list piece :=
  match ss with
  | [] => []
  | _ => Contents (be_bytes 4 (Z.of_nat (length (auth_bytes ss))))
         :: flat_map (fun s => pieces TpmsAuthCommand (auth_command s)) ss
  end.
Definition command_pieces (c : command) (cmd handles : val) (a : area) : list piece :=
  [Field (be_bytes 2 (match sessions_of a with [] => 0x8001 | _ => 0x8002 end));
   Field (be_bytes 4 (Z.of_nat (10 + length (command_body c cmd handles a))));
   Field (be_bytes 4 (code c))]
  ++ pieces (handles_ty c) handles ++ auth_pieces (sessions_of a) ++ pieces (cmd_ty c) cmd.

(** ** Auxiliary facts *)

(** The first piece without room. *)
Fixpoint stop (l : list piece) (n : nat) : option piece :=
  match l with
  | [] => None
  | p :: l => if (length (piece_bytes p) <=? n)%nat then stop l (n - length (piece_bytes p)) else Some p
  end.
Definition outcome_of (p : piece) : outcome Z nat :=
  match p with Contents _ => Panic | Field _ => Err 0x904 end.
Notation bytes ps := (flat_map piece_bytes ps).

Lemma stop_app a : forall b n,
  stop (a ++ b) n = match stop a n with Some p => Some p | None => stop b (n - length (bytes a)) end.
Proof.
  induction a as [|p a IH]; intros b n; cbn [app stop flat_map length].
  - now rewrite Nat.sub_0_r.
  - destruct (Nat.leb_spec (length (piece_bytes p)) n); [|reflexivity].
    rewrite IH, app_length. now rewrite Nat.sub_add_distr.
Qed.

Lemma stop_none l : forall n, stop l n = None <-> (length (bytes l) <= n)%nat.
Proof.
  induction l as [|p l IH]; intros n; cbn [stop flat_map length]; [split; [lia|reflexivity]|].
  rewrite app_length. destruct (Nat.leb_spec (length (piece_bytes p)) n).
  - rewrite IH. lia.
  - split; [discriminate|lia].
Qed.

Lemma stop_some l n before p after :
  l = before ++ p :: after ->
  (length (bytes before) <= n < length (bytes before) + length (piece_bytes p))%nat ->
  stop l n = Some p.
Proof.
  intros -> H. rewrite stop_app. replace (stop before n) with (@None piece) by (symmetry; apply stop_none; lia).
  cbn. destruct (Nat.leb_spec (length (piece_bytes p)) (n - length (bytes before))); [lia|reflexivity].
Qed.

Lemma stop_split l : forall n p, stop l n = Some p -> exists before after, l = before ++ p :: after
  /\ (length (bytes before) <= n < length (bytes before) + length (piece_bytes p))%nat.
Proof.
  induction l as [|q l IH]; intros n p; cbn [stop]; [discriminate|].
  destruct (Nat.leb_spec (length (piece_bytes q)) n).
  - intros H1. destruct (IH _ _ H1) as (b & a & -> & Hb). exists (q :: b), a. split; [reflexivity|].
    cbn [flat_map]. rewrite app_length. lia.
  - intros [= ->]. exists [], l. split; [reflexivity|]. cbn. lia.
Qed.

(** [f] writes the pieces [ps], or stops at the first one without room. *)
Definition stops (f : list byte -> cres) (ps : list piece) : Prop :=
  writes f (bytes ps) /\ forall b p, stop ps (length b) = Some p -> snd (f b) = outcome_of p.

Lemma stops_marshal t v : wf t v = true -> stops (fun b => tss_err (marshal t v b)) (pieces t v).
Proof.
  intros Hv. split.
  - rewrite (proj1 (c05_pieces t v Hv)). apply writes_marshal. assumption.
  - intros b p Hs. destruct (stop_split _ _ _ Hs) as (bf & af & E & Hb).
    unfold tss_err. cbn [snd]. rewrite (c05_panics_exactly t v b bf p af Hv E Hb).
    destruct p; reflexivity.
Qed.

Lemma stop_cseq f ps pre rest p : stops f ps -> stop ps (length rest) = Some p ->
  snd (cseq f (length pre) (pre ++ rest)) = outcome_of p.
Proof.
  intros [_ H] Hs. unfold cseq. rewrite app_length.
  destruct (Nat.ltb_spec (length pre + length rest) (length pre)); [lia|].
  rewrite skipn_app_exact. specialize (H rest p Hs). destruct (f rest) as [b r]. cbn in *. subst r.
  destruct p; reflexivity.
Qed.

Lemma stop_cthen r k p : snd r = outcome_of p -> snd (cthen r k) = outcome_of p.
Proof. destruct r as [b r]. cbn. intros ->. destruct p; reflexivity. Qed.

Lemma stop_rest l : Forall wf_session l -> forall pre acc rest p,
  length pre = 4%nat ->
  stop (flat_map (fun s => pieces TpmsAuthCommand (auth_command s)) l) (length rest) = Some p ->
  snd (write_rest l (length (pre ++ acc)) ((pre ++ acc) ++ rest)) = outcome_of p.
Proof.
  induction l as [|s l IH]; intros Hw pre acc rest p Hp; cbn [flat_map]; [discriminate|].
  inversion Hw as [|? ? Hs Hl]; subst. specialize (IH Hl).
  change (write_rest (s :: l)) with (fun off b => cthen (write_auth s off b) (write_rest l)).
  cbn beta. unfold write_auth. pose proof (stops_marshal _ _ Hs) as Hf.
  rewrite stop_app. destruct (stop (pieces TpmsAuthCommand (auth_command s)) (length rest)) as [q|] eqn:E.
  - intros [= ->]. apply stop_cthen. eapply stop_cseq; eassumption.
  - intros H. apply stop_none in E.
    rewrite (cseq_ok _ (bytes (pieces TpmsAuthCommand (auth_command s)))) by (apply Hf || exact E).
    cbn [cthen]. rewrite <- (app_assoc pre acc). apply IH; [assumption|]. now rewrite skipn_length.
Qed.

Lemma flat_auth l : Forall wf_session l ->
  bytes (flat_map (fun s => pieces TpmsAuthCommand (auth_command s)) l) = auth_bytes l.
Proof.
  unfold auth_bytes. induction l as [|s l IH]; intros H; [reflexivity|]. inversion H; subst. cbn [flat_map].
  rewrite flat_map_app, IH by assumption. f_equal. apply c05_pieces. assumption.
Qed.

Lemma auth_pieces_bytes l : Forall wf_session l -> bytes (auth_pieces l) = auth_area l.
Proof.
  intros H. unfold auth_pieces, auth_area. destruct l as [|s l]; [reflexivity|].
  exact (f_equal (app _) (flat_auth (s :: l) H)).
Qed.

Lemma stops_sessions a : wf_area a -> stops (write_command_sessions a) (auth_pieces (sessions_of a)).
Proof.
  intros Hw. split; [rewrite auth_pieces_bytes by exact Hw; apply writes_sessions; exact Hw|].
  intros b p. unfold wf_area in Hw. rewrite write_sessions_rest. unfold auth_pieces.
  destruct (sessions_of a) as [|s l] eqn:El; [discriminate|]. cbn [stop piece_bytes]. rewrite be_bytes_length.
  destruct (Nat.leb_spec 4 (length b)) as [H4|H4].
  - destruct (overwrite_split [] b H4) as (pre & rest & -> & Hp).
    rewrite app_length, Hp. replace (4 + length rest - 4)%nat with (length rest) by lia.
    intros H. pose proof (stop_rest (s :: l) Hw pre [] rest p Hp H) as X.
    rewrite !app_nil_r, Hp in X. exact X.
  - intros [= <-].
    change (write_rest (s :: l) 4 b) with (cthen (write_auth s 4 b) (write_rest l)).
    apply (stop_cthen _ _ (Contents [])). unfold write_auth, cseq.
    destruct (Nat.ltb_spec (length b) 4); [|lia]. reflexivity.
Qed.

Lemma build_stops c cmd handles a p : valid_call c cmd handles a ->
  stop (command_pieces c cmd handles a) CMD_BUFFER_SIZE = Some p ->
  build_command c cmd handles a = omap (fun _ => []) (outcome_of p).
Proof.
  intros ((Hc & _) & Hcmd & Hh & Ha). 
  assert (H10 : (10 <= CMD_BUFFER_SIZE)%nat) by (apply Nat.leb_le; vm_compute; reflexivity).
  unfold build_command, command_pieces. generalize dependent CMD_BUFFER_SIZE. intros B H10.
  set (tag := cmd_header_tag (area_is_empty a)).
  set (h0 := enc CmdHeader (cmd_header tag 0 (code c))).
  assert (Hl0 : length h0 = 10%nat).
  { unfold h0. rewrite cmd_header_enc, !app_length, !be_bytes_length. reflexivity. }
  rewrite marshal_fits.
  2:{ apply cmd_header_wf; [apply tag_range|lia|assumption]. }
  2:{ fold h0. rewrite repeat_length. lia. }
  fold h0. unfold tss_err at 1. cbn [fst snd omap_err cthen]. unfold overwrite.
  rewrite stop_app.
  match goal with |- context [stop ?l B] => assert (E0 : stop l B = None) end.
  { apply stop_none. cbn [flat_map piece_bytes]. rewrite !app_length, !be_bytes_length. cbn. lia. }
  rewrite E0. cbn [flat_map piece_bytes]. rewrite !app_length, !be_bytes_length. cbn [length Nat.add].
  set (rest := skipn (length h0) (repeat x00 B)).
  assert (Lr : length rest = (B - 10)%nat) by (unfold rest; rewrite skipn_length, repeat_length; lia).
  rewrite <- Lr. intros Hs.
  assert (G : forall k : nat -> list byte -> outcome Z (list byte), forall r, snd r = outcome_of p ->
     (let '(buf, r) := r in match r with Ok w => k w buf | Err e => Err e | Panic => Panic end)
     = omap (fun _ => []) (outcome_of p)).
  { intros k [b r] E. cbn in E. subst r. destruct p; reflexivity. }
  apply (G (fun written buf =>
             let '(buf, r2) :=
               tss_err (marshal CmdHeader (cmd_header tag (Z.of_nat written mod 2 ^ 32) (code c)) buf) in
             match r2 with
             | Ok _ => if (length buf <? written)%nat then Panic else Ok (firstn written buf)
             | Err e => Err e
             | Panic => Panic
             end)). clear G.
  pose proof (stops_marshal _ _ Hh) as Wh. pose proof (stops_sessions _ Ha) as Wa.
  pose proof (stops_marshal _ _ Hcmd) as Wc.
  rewrite !stop_app in Hs.
  destruct (stop (pieces (handles_ty c) handles) (length rest)) as [q|] eqn:E1.
  { injection Hs as ->. apply stop_cthen. eapply stop_cseq; eassumption. }
  apply stop_none in E1. rewrite (cseq_ok _ _ _ _ (proj1 Wh) E1). cbn [cthen].
  rewrite <- (skipn_length (length (bytes (pieces (handles_ty c) handles))) rest) in Hs.
  destruct (stop (auth_pieces (sessions_of a)) _) as [q|] eqn:E2 in Hs.
  { injection Hs as ->. apply stop_cthen. eapply stop_cseq; eassumption. }
  apply stop_none in E2. rewrite (cseq_ok _ _ _ _ (proj1 Wa) E2). cbn [cthen].
  eapply stop_cseq; [exact Wc|]. rewrite skipn_length. exact Hs.
Qed.

Lemma command_pieces_bytes c cmd handles a : valid_call c cmd handles a ->
  bytes (command_pieces c cmd handles a) = command_frame c cmd handles a.
Proof.
  intros (_ & Hcmd & Hh & Ha). unfold command_pieces, command_frame. cbn zeta.
  rewrite !flat_map_app. cbn [flat_map piece_bytes]. rewrite auth_pieces_bytes by exact Ha.
  rewrite (proj1 (c05_pieces _ _ Hcmd)), (proj1 (c05_pieces _ _ Hh)), app_nil_r, <- !app_assoc.
  reflexivity.
Qed.

(** ** C37 *)
(** Exactly what happens: the connection is not used, and the call panics if
    the first byte without room belongs to the contents of a sized buffer or
    to the size of the authorization area; otherwise it returns
    TPM_RC_MEMORY. *)
Theorem c37_exactly S E (from_tss : Z -> E) (tpm : connection S E) s c cmd handles a before p after :
  valid_call c cmd handles a ->
  command_pieces c cmd handles a = before ++ p :: after ->
  Z.of_nat (length (flat_map piece_bytes before)) <= 4096
    < Z.of_nat (length (flat_map piece_bytes before) + length (piece_bytes p)) ->
  run_command_with_handles from_tss tpm s c cmd handles a
  = (s, match p with Contents _ => Panic | Field _ => Err (from_tss 0x904) end).
Proof.
  intros V Hp Hl. unfold run_command_with_handles.
  assert (Hb : Z.of_nat CMD_BUFFER_SIZE = 4096) by (vm_compute; reflexivity).
  rewrite (build_stops c cmd handles a p V).
  2:{ eapply stop_some; [exact Hp|]. lia. }
  destruct p; reflexivity.
Qed.

(** The pieces make up the command, so one of them is the first without room. *)
Theorem c37_pieces c cmd handles a :
  valid_call c cmd handles a ->
  flat_map piece_bytes (command_pieces c cmd handles a) = command_frame c cmd handles a
  /\ (~ fits (command_frame c cmd handles a) ->
      exists before p after, command_pieces c cmd handles a = before ++ p :: after
        /\ Z.of_nat (length (flat_map piece_bytes before)) <= 4096
           < Z.of_nat (length (flat_map piece_bytes before) + length (piece_bytes p))).
Proof.
  intros V. pose proof (command_pieces_bytes _ _ _ _ V) as Eb. split; [exact Eb|]. unfold fits. rewrite <- Eb.
  intros H. destruct (stop (command_pieces c cmd handles a) (Z.to_nat 4096)) as [p|] eqn:Es.
  - destruct (stop_split _ _ _ Es) as (b & af & E & Hb). exists b, p, af. split; [exact E|]. lia.
  - apply stop_none in Es. lia.
Qed.

(** A command with a password session and 4083 bytes of handles: three bytes
    are left for the size of the authorization area.  Without one, and with
    4085 bytes of handles, one byte is left for a parameter of two. *)
Definition HandleCommand : command :=
  {| code := 1; cmd_ty := TInt false 2; handles_ty := TBytes 4083; resp_ty := TUnit; resp_handles_ty := TUnit |}.
Definition HandleCommand5 : command :=
  {| code := 1; cmd_ty := TInt false 2; handles_ty := TBytes 4085; resp_ty := TUnit; resp_handles_ty := TUnit |}.
Example c37_exactly_example :
  let a := area1 (password_session (v2b 64 [])) in
  build_command HandleCommand (VInt 1) (VBytes (repeat x01 4083)) a = Panic
  /\ build_command HandleCommand5 (VInt 1) (VBytes (repeat x01 4085)) area0 = Err 0x904
  /\ valid_call HandleCommand (VInt 1) (VBytes (repeat x01 4083)) a
  /\ (exists before p after, command_pieces HandleCommand (VInt 1) (VBytes (repeat x01 4083)) a
        = before ++ Contents p :: after /\ length (flat_map piece_bytes before) = Z.to_nat 4093 /\ length p = 4%nat).
Proof.
  cbn zeta. split; [vm_compute; reflexivity|]. split; [vm_compute; reflexivity|]. split.
  - repeat split; try (cbn; lia); try reflexivity. repeat constructor.
  - eexists [_; _; _; _], _, _. split; [vm_compute; reflexivity|]. split; [|reflexivity].
    cbn [flat_map piece_bytes]. rewrite !app_length. reflexivity.
Qed.
