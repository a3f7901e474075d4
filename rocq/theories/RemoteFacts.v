(** The client over TCP and the client at the TPM itself (C70). *)
From Coq Require Import String ZArith NArith List Lia Bool.
From Coq Require Import Init.Byte.
From Verif Require Import Prelude Types Marshal WireSpec Catalogue Errors Tpm2b Client ClientSpec ClientProofs ClientFacts
  Server ServerSpec ServerProofs ServerFacts EndToEnd EndToEndFacts Tcp TcpSpec TcpProofs Remote.
Import ListNotations.
Open Scope Z_scope.

(** A TPM whose responses fit the client's buffer of 4096 bytes. *)
Definition fits_client {S} (f : tpm_device S) : Prop :=
  forall s l cmd s' r, f s l cmd = (s', Some r) -> (length r <= RESP_BUFFER_SIZE)%nat.
Definition step_ok (x : step) : Prop :=
  match x with SetLocality l => 0 <= l < 256 | Run c cmd handles a => valid_call c cmd handles a end.

Lemma deal_nothing {S} (f : tpm_device S) fuel s q :
  deal f fuel {| device := s; taken := []; waiting := q |} = {| device := s; taken := []; waiting := q |}.
Proof. destruct fuel; reflexivity. Qed.
Lemma deal_frame_rest {S} (f : tpm_device S) s l cmd rest q fuel : 0 <= l < 256 -> Z.of_nat (length cmd) < 2 ^ 32 ->
  deal f (Datatypes.S fuel)
    {| device := s; taken := u32be 8 ++ be_bytes 1 l ++ u32be (Z.of_nat (length cmd)) ++ cmd ++ rest; waiting := q |}
  = deal f fuel
      {| device := fst (f s l cmd); taken := rest;
         waiting := q ++ match snd (f s l cmd) with
                         | Some r => u32be (Z.of_nat (length r)) ++ r ++ [x00; x00; x00; x00] | None => [] end |}.
Proof.
  intros Hl Hc. cbn [deal taken device waiting].
  set (t := u32be 8 ++ be_bytes 1 l ++ u32be (Z.of_nat (length cmd)) ++ cmd ++ rest).
  assert (L : length t = (9 + length cmd + length rest)%nat).
  { unfold t, u32be. rewrite !app_length, !be_bytes_length. lia. }
  assert (T : t = (u32be 8 ++ be_bytes 1 l ++ u32be (Z.of_nat (length cmd))) ++ cmd ++ rest)
    by (unfold t; now rewrite <- !app_assoc).
  assert (F1 : firstn 4 t = u32be 8) by (unfold t; apply firstn_app_exact'; unfold u32be; now rewrite be_bytes_length).
  assert (F2 : firstn 1 (skipn 4 t) = be_bytes 1 l).
  { unfold t. rewrite skipn_app_exact' by (unfold u32be; now rewrite be_bytes_length).
    apply firstn_app_exact'. now rewrite be_bytes_length. }
  assert (F3 : firstn 4 (skipn 5 t) = u32be (Z.of_nat (length cmd))).
  { unfold t. rewrite app_assoc. rewrite skipn_app_exact' by (unfold u32be; now rewrite app_length, !be_bytes_length).
    apply firstn_app_exact'. unfold u32be. now rewrite be_bytes_length. }
  assert (F4 : skipn 9 t = cmd ++ rest).
  { rewrite T. apply skipn_app_exact'. unfold u32be. now rewrite !app_length, !be_bytes_length. }
  assert (F5 : skipn (9 + length cmd) t = rest).
  { rewrite <- skipn_skipn', F4. apply skipn_app_exact. }
  rewrite F1, F2, F3, F4, L, !u32be_val by (unfold u32_ok; lia).
  rewrite Nat2Z.id. rewrite be_val_bytes. rewrite (Z.mod_small l) by (cbn; lia). rewrite F5.
  rewrite (proj2 (Nat.leb_le 9 (9 + length cmd + length rest))) by lia.
  rewrite (proj2 (Nat.leb_le (9 + length cmd) (9 + length cmd + length rest))) by lia. cbn [andb Z.eqb Pos.eqb].
  rewrite firstn_app_exact.
  destruct (f s l cmd) as [s' r]. cbn [fst snd]. reflexivity.
Qed.
Lemma deal_frame {S} (f : tpm_device S) s l cmd q fuel : 0 <= l < 256 -> Z.of_nat (length cmd) < 2 ^ 32 ->
  deal f (Datatypes.S fuel)
    {| device := s; taken := u32be 8 ++ be_bytes 1 l ++ u32be (Z.of_nat (length cmd)) ++ cmd; waiting := q |}
  = {| device := fst (f s l cmd); taken := [];
       waiting := q ++ match snd (f s l cmd) with
                       | Some r => u32be (Z.of_nat (length r)) ++ r ++ [x00; x00; x00; x00] | None => [] end |}.
Proof.
  intros Hl Hc. pose proof (deal_frame_rest f s l cmd [] q fuel Hl Hc) as E. rewrite app_nil_r in E. rewrite E.
  apply deal_nothing.
Qed.

Section Net.
Context {S : Type} (pieces : S -> nat -> nat) (f : tpm_device S).
Local Notation net := (network pieces f).
Definition busy (s : S) (t q : list byte) : simulator S := {| device := s; taken := t; waiting := q |}.
Definition holding (s : S) (q : list byte) : simulator S := {| device := s; taken := []; waiting := q |}.

Lemma net_read_busy s t bs rest : forall fuel, (length bs <= fuel)%nat ->
  read_loop net fuel true (length bs) (busy s t (bs ++ rest)) = (busy s t rest, bs, Ok tt).
Proof.
  remember (length bs) as n eqn:En. revert bs En.
  induction n as [n IH] using lt_wf_ind. intros bs En fuel Hf.
  destruct bs as [|b bs].
  { cbn in En. subst n. destruct fuel; reflexivity. }
  destruct fuel as [|fuel]; [cbn in En; lia|]. destruct n as [|n]; [discriminate|].
  cbn [read_loop read network].
  set (k := Nat.min (Datatypes.S n) (Nat.max 1 (pieces (device (busy s t ((b :: bs) ++ rest))) (length (waiting (busy s t ((b :: bs) ++ rest))))))).
  assert (K1 : (1 <= k <= Datatypes.S n)%nat) by (unfold k; lia). clearbody k.
  cbn [busy waiting device taken].
  rewrite firstn_app_le, skipn_app_le by lia.
  assert (Lf : length (firstn k (b :: bs)) = k) by (rewrite firstn_length, <- En; lia).
  destruct (firstn k (b :: bs)) as [|b' fs] eqn:Ef; [cbn in Lf; lia|].
  rewrite Lf. replace (Datatypes.S n <? k)%nat with false by (symmetry; apply Nat.ltb_ge; lia).
  change {| device := s; taken := t; waiting := skipn k (b :: bs) ++ rest |} with (busy s t (skipn k (b :: bs) ++ rest)).
  rewrite (IH (Datatypes.S n - k)%nat ltac:(lia) (skipn k (b :: bs))) by (rewrite ?skipn_length; lia).
  rewrite <- Ef, firstn_skipn. reflexivity.
Qed.
Lemma net_read s bs rest : forall fuel, (length bs <= fuel)%nat ->
  read_loop net fuel true (length bs) (holding s (bs ++ rest)) = (holding s rest, bs, Ok tt).
Proof. exact (net_read_busy s [] bs rest). Qed.
Lemma net_read_u32 s z rest : u32_ok z -> read_u32 net true (holding s (u32be z ++ rest)) = (holding s rest, Ok z).
Proof.
  intros Hz. unfold read_u32, io_bind, read_bytes, read_exact.
  pose proof (net_read s (u32be z) rest 4) as R. unfold u32be in R at 1 2. rewrite be_bytes_length in R.
  rewrite R by lia. cbn [omap io_ret]. now rewrite u32be_val.
Qed.
Lemma net_eof s : read_u32 net true (holding s []) = (holding s [], Err UnexpectedEof).
Proof.
  unfold read_u32, io_bind, read_bytes, read_exact. cbn [read_loop read network holding waiting device taken].
  rewrite firstn_nil, skipn_nil. reflexivity.
Qed.

Lemma net_transact s l cmd rsp : 0 <= l < 256 -> Z.of_nat (length cmd) < 2 ^ 32 ->
  (forall s' r, f s l cmd = (s', Some r) -> Z.of_nat (length r) < 2 ^ 32) ->
  tcp_transact net (port_ends l) (idle s) cmd rsp
  = match f s l cmd with
    | (s', Some r) =>
        if (length rsp <? length r)%nat then (holding s' (r ++ [x00; x00; x00; x00]), rsp, Err InvalidInput)
        else (idle s', overwrite r rsp, Ok (length r))
    | (s', None) => (idle s', rsp, Err UnexpectedEof)
    end.
Proof.
  intros Hl Hc Hr. unfold tcp_transact. cbn [port_ends tpm_tcp locality].
  replace (2 ^ 32 <=? Z.of_nat (length cmd)) with false by (symmetry; apply Z.leb_gt; exact Hc).
  set (frame := u32_bytes SendCommand ++ be_bytes 1 l ++ u32_bytes (Z.of_nat (length cmd)) ++ cmd).
  assert (Wr : write_whole net true frame (idle s)
    = (holding (fst (f s l cmd))
         match snd (f s l cmd) with
         | Some r => u32be (Z.of_nat (length r)) ++ r ++ [x00; x00; x00; x00] | None => [] end, Ok tt)).
  { unfold write_whole, io_bind. cbn [write network idle taken device waiting app]. rewrite Nat.eqb_refl.
    assert (Lf : length frame = Datatypes.S (8 + length cmd)).
    { unfold frame, u32_bytes. rewrite !app_length, !be_bytes_length. reflexivity. }
    rewrite Lf. unfold frame.
    change (u32_bytes SendCommand) with (u32be 8). change (u32_bytes (Z.of_nat (length cmd))) with (u32be (Z.of_nat (length cmd))).
    rewrite deal_frame by assumption. reflexivity. }
  unfold io_bind at 1. rewrite Wr. destruct (f s l cmd) as [s' [r|]]; cbn [fst snd].
  2:{ rewrite net_eof. reflexivity. }
  specialize (Hr s' r eq_refl). rewrite net_read_u32 by (unfold u32_ok; lia).
  destruct (Nat.ltb_spec (length rsp) (length r)) as [L|L].
  { replace (Z.of_nat (length rsp) <? Z.of_nat (length r)) with true by (symmetry; apply Z.ltb_lt; lia). reflexivity. }
  replace (Z.of_nat (length rsp) <? Z.of_nat (length r)) with false by (symmetry; apply Z.ltb_ge; lia).
  rewrite Nat2Z.id. unfold read_exact. rewrite net_read by lia. unfold check_response_end, io_bind.
  change [x00; x00; x00; x00] with (u32be 0). rewrite <- (app_nil_r (u32be 0)).
  rewrite net_read_u32 by (split; [apply Z.le_refl|reflexivity]). reflexivity.
Qed.
End Net.

Lemma built_short c cmd handles a bs : valid_call c cmd handles a ->
  build_command c cmd handles a = Ok bs -> Z.of_nat (length bs) < 2 ^ 32.
Proof.
  intros V E. destruct (Z.leb_spec (Z.of_nat (length (command_frame c cmd handles a))) 4096) as [L|L].
  - rewrite (build_frame c cmd handles a V L) in E. injection E as <-. lia.
  - destruct (build_too_long c cmd handles a V) as [E'|E']; [unfold fits; lia| |]; congruence.
Qed.

(** ** C70 *)
(** The simulator deals with a command frame as soon as it has all of it, and
    with nothing else. *)
Theorem c70_understood S (f : tpm_device S) n x :
  (exists l cmd rest, 0 <= l < 256 /\ Z.of_nat (length cmd) < 2 ^ 32
   /\ taken x = u32be 8 ++ be_bytes 1 l ++ u32be (Z.of_nat (length cmd)) ++ cmd ++ rest
   /\ deal f (Datatypes.S n) x
      = deal f n {| device := fst (f (device x) l cmd); taken := rest;
          waiting := waiting x ++ match snd (f (device x) l cmd) with
                                  | Some r => u32be (Z.of_nat (length r)) ++ r ++ [x00; x00; x00; x00]
                                  | None => [] end |})
  \/ ((forall l cmd rest, 0 <= l < 256 -> Z.of_nat (length cmd) < 2 ^ 32 ->
       taken x <> u32be 8 ++ be_bytes 1 l ++ u32be (Z.of_nat (length cmd)) ++ cmd ++ rest)
      /\ deal f (Datatypes.S n) x = x).
Proof.
  destruct x as [s t q]. cbn [taken device waiting].
  set (k := Z.to_nat (be_val (firstn 4 (skipn 5 t)))).
  destruct ((9 <=? length t)%nat && (be_val (firstn 4 t) =? 8) && (9 + k <=? length t)%nat) eqn:C.
  - left. apply andb_prop in C. destruct C as [C C3]. apply andb_prop in C. destruct C as [C1 C2].
    apply Nat.leb_le in C1, C3. apply Z.eqb_eq in C2.
    set (cmd := firstn k (skipn 9 t)). set (l := be_val (firstn 1 (skipn 4 t))).
    assert (Lc : length cmd = k) by (unfold cmd; rewrite firstn_length, skipn_length; lia).
    assert (Hk : Z.of_nat k < 2 ^ 32).
    { pose proof (be_val_range (firstn 4 (skipn 5 t))) as R.
      rewrite firstn_length, skipn_length, Nat.min_l in R by lia. change (pow256 4) with (2 ^ 32) in R. unfold k. lia. }
    assert (Hl : 0 <= l < 256).
    { pose proof (be_val_range (firstn 1 (skipn 4 t))) as R.
      rewrite firstn_length, skipn_length, Nat.min_l in R by lia. exact R. }
    assert (B : forall m b, length b = m -> be_bytes m (be_val b) = b) by (intros m b <-; apply be_bytes_val).
    assert (T : t = u32be 8 ++ be_bytes 1 l ++ u32be (Z.of_nat (length cmd)) ++ cmd ++ skipn (9 + k) t).
    { rewrite Lc. unfold k at 1. rewrite Z2Nat.id by (pose proof (be_val_range (firstn 4 (skipn 5 t))); lia).
      rewrite <- C2. unfold l, u32be. rewrite !B by (rewrite firstn_length, ?skipn_length; lia).
      unfold cmd. rewrite <- skipn_skipn', firstn_skipn.
      replace (skipn 9 t) with (skipn 4 (skipn 5 t)) by (rewrite skipn_skipn'; reflexivity).
      rewrite firstn_skipn.
      replace (skipn 5 t) with (skipn 1 (skipn 4 t)) by (rewrite skipn_skipn'; reflexivity).
      now rewrite !firstn_skipn. }
    exists l, cmd, (skipn (9 + k) t). split; [exact Hl|]. split; [rewrite Lc; exact Hk|]. split; [exact T|].
    rewrite T at 1. rewrite deal_frame_rest by (rewrite ?Lc; assumption). reflexivity.
  - right. split.
    + intros l cmd rest Hl Hc E. revert C. unfold k. rewrite E.
      set (head := u32be 8 ++ be_bytes 1 l ++ u32be (Z.of_nat (length cmd)) ++ cmd ++ rest).
      assert (F1 : firstn 4 head = u32be 8) by (unfold head; apply firstn_app_exact'; unfold u32be; now rewrite be_bytes_length).
      assert (F3 : firstn 4 (skipn 5 head) = u32be (Z.of_nat (length cmd))).
      { unfold head. rewrite app_assoc. rewrite skipn_app_exact' by (unfold u32be; now rewrite app_length, !be_bytes_length).
        apply firstn_app_exact'. unfold u32be. now rewrite be_bytes_length. }
      assert (L : length head = (9 + length cmd + length rest)%nat).
      { unfold head, u32be. rewrite !app_length, !be_bytes_length. lia. }
      rewrite F1, F3, L, !u32be_val, Nat2Z.id by (unfold u32_ok; lia).
      rewrite (proj2 (Nat.leb_le 9 (9 + length cmd + length rest))) by lia.
      rewrite (proj2 (Nat.leb_le (9 + length cmd) (9 + length cmd + length rest))) by lia. discriminate.
    + cbn [deal taken device waiting]. fold k. rewrite C. reflexivity.
Qed.
(** A connection made with the default ports is the one of the theorems below. *)
Theorem c70_connected S pieces (f : tpm_device S) ip x :
  connect (network pieces f) ip None None x = (x, Ok (port_ends 0)).
Proof. reflexivity. Qed.
(** One command over TCP to a simulator that is idle: the TPM gets it at the
    locality set, its state changes as if it were at hand, and the caller gets
    the same result; if a response that fits the buffer (or none) came back the
    simulator is idle again. *)
Theorem c70_command S pieces (f : tpm_device S) l s c cmd handles a :
  0 <= l < 256 -> valid_call c cmd handles a ->
  (forall s l cmd s' r, f s l cmd = (s', Some r) -> Z.of_nat (length r) < 2 ^ 32) ->
  exists x,
    run_command_with_handles FromTss (tcp_connection (network pieces f) (port_ends l)) (idle s) c cmd handles a
    = (x, snd (run_command_with_handles FromTss (local f l) s c cmd handles a))
    /\ device x = fst (run_command_with_handles FromTss (local f l) s c cmd handles a)
    /\ ((forall s l cmd s' r, f s l cmd = (s', Some r) -> Z.of_nat (length r) <= 4096) ->
        x = idle (fst (run_command_with_handles FromTss (local f l) s c cmd handles a))).
Proof.
  intros Hl V Hf. unfold run_command_with_handles. pose proof (built_short c cmd handles a) as B.
  destruct (build_command c cmd handles a) as [bytes|e|]; [|exists (idle s); auto|exists (idle s); auto].
  specialize (B bytes V eq_refl).
  cbn [transact tcp_connection local]. rewrite net_transact; [|assumption..|].
  2:{ intros s' r E. apply Hf in E. exact E. }
  destruct (f s l bytes) as [s' [r|]] eqn:E; [|exists (idle s'); auto]. rewrite repeat_length.
  destruct (Nat.ltb_spec RESP_BUFFER_SIZE (length r)) as [L|L].
  - eexists. split; [reflexivity|]. split; [reflexivity|]. intros G. exfalso. apply G in E.
    unfold RESP_BUFFER_SIZE in L. lia.
  - exists (idle s'). auto.
Qed.

(** So a whole session - commands at any localities, whatever the TPM answers
    within the client's buffer, delivered in whatever pieces - gives what it
    gives at the TPM itself. *)
Theorem c70_session S pieces (f : tpm_device S) l s steps :
  0 <= l < 256 -> Forall step_ok steps ->
  (forall s l cmd s' r, f s l cmd = (s', Some r) -> Z.of_nat (length r) <= 4096) ->
  remote_session pieces f (port_ends l) (idle s) steps
  = (idle (fst (local_session f l s steps)), snd (local_session f l s steps)).
Proof.
  intros Hl Ho Hf. revert l s Hl. induction Ho as [|[l'|c cmd handles a] steps Hs _ IH]; intros l s Hl; [reflexivity| |].
  - cbn [remote_session local_session]. change (set_locality (port_ends l) l') with (port_ends l'). apply IH. exact Hs.
  - cbn [remote_session local_session].
    destruct (c70_command S pieces f l s c cmd handles a Hl Hs) as (x & -> & _ & E).
    { intros s0 l0 cmd0 s' r H. apply Hf in H. lia. }
    rewrite (E Hf). clear x E.
    destruct (run_command_with_handles FromTss (local f l) s c cmd handles a) as [s' r]. cbn [fst snd].
    rewrite (IH l s' Hl). destruct (local_session f l s' steps). reflexivity.
Qed.

Lemma zeros_overwrite resp n m : (n <= length resp)%nat -> length resp = m ->
  skipn n resp = skipn n (repeat x00 m) -> overwrite (firstn n resp) (repeat x00 m) = resp.
Proof.
  intros Hn <- E. unfold overwrite. rewrite firstn_length_le by exact Hn. rewrite <- E. apply firstn_skipn.
Qed.
(** And with the repository's server behind the simulator, client and server
    meet over TCP as they do directly (C49, C52). *)
Theorem c70_server D X (dr : Drbg D) (es : EntropySource X) pieces l ctx c cmd handles a :
  wf_drbg dr -> never_fails dr -> 0 <= l < 256 -> valid_call c cmd handles a ->
  run_command_with_handles FromTss (tcp_connection (network pieces (served_device dr es)) (port_ends l)) (idle ctx) c cmd handles a
  = (idle (fst (run_command_with_handles FromTss (direct dr es) ctx c cmd handles a)),
     snd (run_command_with_handles FromTss (direct dr es) ctx c cmd handles a)).
Proof.
  intros Hd Hn Hl V.
  assert (T : forall s cm, exists s' resp n,
    execute_command_separate dr es s cm (repeat x00 RESP_BUFFER_SIZE) = (s', resp, Ok n)
    /\ length resp = RESP_BUFFER_SIZE /\ (n <= RESP_BUFFER_SIZE)%nat
    /\ overwrite (firstn n resp) (repeat x00 RESP_BUFFER_SIZE) = resp).
  { intros s cm. pose proof (serve_spec D X dr es s (Separate cm (repeat x00 RESP_BUFFER_SIZE)) Hd) as Sv.
    cbn [request_of buffer_of serve] in Sv.
    destruct (served_total D X dr es s cm (repeat x00 RESP_BUFFER_SIZE) _ Hn Sv) as (s' & resp & n & E & L & Ln & Sk).
    assert (N : (10 <= n)%nat).
    { rewrite E in Sv. unfold served in Sv. destruct (verdict_of cm _) as [rc|k].
      - assert (N : n = error_size (repeat x00 RESP_BUFFER_SIZE)) by congruence.
        change (error_size (repeat x00 RESP_BUFFER_SIZE)) with 10%nat in N. lia.
      - destruct (try_get_random dr es s _) as [[c1 out] o]. destruct Sv as [_ Sv]. destruct o; try congruence.
        assert (n = 10 + k)%nat by congruence. lia. }
    rewrite Nat.max_l in Sk by exact N. rewrite repeat_length in L, Ln.
    exists s', resp, n. split; [exact E|]. split; [exact L|]. split; [exact Ln|].
    apply zeros_overwrite; [lia|exact L|exact Sk]. }
  assert (Same : run_command_with_handles FromTss (local (served_device dr es) l) ctx c cmd handles a
                 = run_command_with_handles FromTss (direct dr es) ctx c cmd handles a).
  { unfold run_command_with_handles. destruct (build_command c cmd handles a) as [bytes|e|]; try reflexivity.
    cbn [transact local direct]. unfold served_device. destruct (T ctx bytes) as (s' & resp & n & -> & L & Ln & O).
    rewrite repeat_length, firstn_length_le by lia.
    replace (RESP_BUFFER_SIZE <? n)%nat with false by (symmetry; apply Nat.ltb_ge; exact Ln).
    rewrite O. reflexivity. }
  assert (G : forall s l cm s' r, served_device dr es s l cm = (s', Some r) -> Z.of_nat (length r) <= 4096).
  { intros s l0 cm s' r E. unfold served_device in E. destruct (T s cm) as (s1 & resp & n & E1 & L & Ln & _).
    rewrite E1 in E. injection E as _ <-. rewrite firstn_length. unfold RESP_BUFFER_SIZE in *. lia. }
  destruct (c70_command (context D X) pieces (served_device dr es) l ctx c cmd handles a Hl V) as (x & -> & _ & E).
  { intros s0 l0 cmd0 s' r H. apply G in H. lia. }
  rewrite (E G), Same. reflexivity.
Qed.

(** *** The hypotheses can be met *)
(** Startup, then two random numbers at locality 3, over TCP delivered byte by
    byte, to the repository's server. *)
Example c70_example :
  let steps := [Run Startup (VStruct [VStruct [VInt 0]]) VUnit area0; SetLocality 3;
                Run GetRandom (VStruct [VInt 0]) VUnit area0; Run GetRandom (VStruct [VInt 2]) VUnit area0] in
  Forall step_ok steps
  /\ remote_session (fun _ _ => 1%nat) (served_device FakeDrbg FakeEntropy) (port_ends 0) (idle fake) steps
     = (idle {| drbg := 2; entropy := tt |},
        [Err (FromTss 0x143); Err (FromTss 0x904); Err (FromTss 0x904)]).
Proof.
  cbn zeta. split; [|vm_compute; reflexivity].
  repeat constructor; cbn; lia.
Qed.
(** A TPM that answers GetRandom properly and counts, and refuses localities
    above 2. *)
Definition proper : tpm_device Z := fun s l cmd =>
  if 2 <? l then (s, Some [x80; x01; x00; x00; x00; x0a; x00; x00; x09; x07])
  else (s + 1, Some [x80; x01; x00; x00; x00; x0e; x00; x00; x00; x00; x00; x02; xaa; zb s]).
Example c70_proper :
  let steps := [Run GetRandom (VStruct [VInt 2]) VUnit area0; SetLocality 3;
                Run GetRandom (VStruct [VInt 2]) VUnit area0; SetLocality 0;
                Run GetRandom (VStruct [VInt 2]) VUnit area0] in
  let '(x, rs) := remote_session (fun _ n => n) proper (port_ends 0) (idle 5) steps in
  x = idle 7
  /\ map (omap (fun r => match fst r with VStruct [VTpm2b n b] => (n, firstn 2 b) | _ => (0, []) end)) rs
     = [Ok (2, [xaa; x05]); Err (FromTss 0x907); Ok (2, [xaa; x06])].
Proof. vm_compute. auto. Qed.
