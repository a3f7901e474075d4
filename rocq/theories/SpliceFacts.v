(** Commands the network takes only a part of (C84). *)
From Coq Require Import ZArith NArith List Lia Bool.
From Coq Require Import Init.Byte.
From Verif Require Import Prelude Types Marshal WireSpec Catalogue Errors Tpm2b Client ClientSpec ClientProofs ClientFacts
  Tcp TcpSpec TcpProofs Remote RemoteFacts.
Import ListNotations.
Open Scope Z_scope.

(** What is sent for a command. *)
Definition sent (l : Z) (cmd : list byte) : list byte :=
  u32be 8 ++ be_bytes 1 l ++ u32be (Z.of_nat (length cmd)) ++ cmd.

Lemma sent_length l cmd : length (sent l cmd) = (9 + length cmd)%nat.
Proof. unfold sent, u32be. rewrite !app_length, !be_bytes_length. reflexivity. Qed.
Lemma sent_part l cmd k : (9 <= k)%nat ->
  firstn k (sent l cmd) = u32be 8 ++ be_bytes 1 l ++ u32be (Z.of_nat (length cmd)) ++ firstn (k - 9) cmd.
Proof.
  intros H. unfold sent. set (h := u32be 8 ++ be_bytes 1 l ++ u32be (Z.of_nat (length cmd))).
  replace (u32be 8 ++ be_bytes 1 l ++ u32be (Z.of_nat (length cmd)) ++ cmd) with (h ++ cmd)
    by (unfold h; now rewrite <- !app_assoc).
  assert (Lh : length h = 9%nat) by (unfold h, u32be; rewrite !app_length, !be_bytes_length; reflexivity).
  rewrite firstn_app, Lh, firstn_all2 by lia. unfold h. now rewrite <- !app_assoc.
Qed.
Lemma deal_incomplete {S} (f : tpm_device S) fuel s l cmd k q : 0 <= l < 256 -> Z.of_nat (length cmd) < 2 ^ 32 ->
  (k < 9 + length cmd)%nat ->
  deal f fuel {| device := s; taken := firstn k (sent l cmd); waiting := q |}
  = {| device := s; taken := firstn k (sent l cmd); waiting := q |}.
Proof.
  intros Hl Hc Hk. destruct fuel as [|fuel]; [reflexivity|]. cbn [deal taken device waiting].
  assert (L : length (firstn k (sent l cmd)) = k) by (rewrite firstn_length, sent_length; lia).
  rewrite L. destruct (Nat.leb_spec 9 k) as [H|H]; [|reflexivity].
  replace (9 + Z.to_nat (be_val (firstn 4 (skipn 5 (firstn k (sent l cmd))))) <=? k)%nat with false.
  { rewrite !andb_false_r. reflexivity. }
  symmetry. apply Nat.leb_gt. rewrite sent_part by exact H.
  rewrite app_assoc, skipn_app_exact' by (unfold u32be; rewrite app_length, !be_bytes_length; reflexivity).
  rewrite firstn_app_exact' by (unfold u32be; now rewrite be_bytes_length).
  rewrite u32be_val by (unfold u32_ok; lia). rewrite Nat2Z.id. exact Hk.
Qed.
Lemma deal_more {S} (f : tpm_device S) fuel : forall x, exists t s more,
  deal f fuel x = {| device := s; taken := t; waiting := waiting x ++ more |}.
Proof.
  induction fuel as [|fuel IH]; intros x.
  { exists (taken x), (device x), []. rewrite app_nil_r. destruct x. reflexivity. }
  cbn [deal]. destruct (_ && _ && _).
  - destruct (f _ _ _) as [s' r]. edestruct IH as (t & s & more & E). rewrite E. cbn [waiting].
    exists t, s, (match r with Some r => u32be (Z.of_nat (length r)) ++ r ++ [x00; x00; x00; x00] | None => [] end ++ more).
    rewrite app_assoc. reflexivity.
  - exists (taken x), (device x), []. rewrite app_nil_r. destruct x. reflexivity.
Qed.

Section Thr.
Context {S : Type} (pieces : S -> nat -> nat) (f : tpm_device S).
Local Notation thr := (throttled pieces f).
Local Notation net := (network pieces f).

Lemma thr_read_loop ks h fuel : forall n x,
  read_loop thr fuel h n (ks, x)
  = (let '(x', bs, r) := read_loop net fuel h n x in ((ks, x'), bs, r)).
Proof.
  induction fuel as [|fuel IH]; intros n x; [destruct n; reflexivity|].
  destruct n as [|n]; [reflexivity|]. cbn [read_loop].
  change (read thr (ks, x) h (Datatypes.S n))
    with ((ks, fst (read net x h (Datatypes.S n))), snd (read net x h (Datatypes.S n))).
  destruct (read net x h (Datatypes.S n)) as [x' r]. cbn [fst snd].
  destruct r as [[|b bs]|e|]; try reflexivity.
  destruct (Datatypes.S n <? length (b :: bs))%nat; [reflexivity|]. rewrite IH.
  destruct (read_loop net fuel h (Datatypes.S n - length (b :: bs)) x') as [[x'' rest] r']. reflexivity.
Qed.
Lemma thr_read_u32 ks x : read_u32 thr true (ks, x) = (let '(x', r) := read_u32 net true x in ((ks, x'), r)).
Proof.
  unfold read_u32, io_bind, read_bytes, read_exact. rewrite thr_read_loop.
  destruct (read_loop net 4 true 4 x) as [[x' bs] [[]|e|]]; reflexivity.
Qed.
Lemma thr_end ks x : check_response_end thr true (ks, x)
  = (let '(x', r) := check_response_end net true x in ((ks, x'), r)).
Proof.
  unfold check_response_end, io_bind. rewrite thr_read_u32. destruct (read_u32 net true x) as [x' [z|e|]]; try reflexivity.
  destruct (z =? 0); reflexivity.
Qed.
(** All of it taken: as over the network that takes everything. *)
Lemma thr_transact ks x t cmd rsp : tpm_tcp t = true ->
  match ks with [] => True | k :: _ => (9 + length cmd <= k)%nat end ->
  tcp_transact thr t (ks, x) cmd rsp
  = (let '(x', rsp', r) := tcp_transact net t x cmd rsp in ((tl ks, x'), rsp', r))
  \/ 2 ^ 32 <= Z.of_nat (length cmd).
Proof.
  intros Ht Hk. destruct (Z.leb_spec (2 ^ 32) (Z.of_nat (length cmd))) as [H|H]; [right; exact H|left].
  unfold tcp_transact. rewrite Ht.
  replace (2 ^ 32 <=? Z.of_nat (length cmd)) with false by (symmetry; apply Z.leb_gt; exact H).
  change (u32_bytes SendCommand ++ be_bytes 1 (locality t) ++ u32_bytes (Z.of_nat (length cmd)) ++ cmd)
    with (sent (locality t) cmd).
  assert (W : write_whole thr true (sent (locality t) cmd) (ks, x)
    = (let '(x', r) := write_whole net true (sent (locality t) cmd) x in ((tl ks, x'), r))).
  { unfold write_whole, io_bind. destruct ks as [|k ks]; cbn [write throttled fst snd].
    - cbn [network write fst snd]. rewrite Nat.eqb_refl. reflexivity.
    - rewrite firstn_all2 by (rewrite sent_length; exact Hk). cbn [network write fst snd]. rewrite Nat.eqb_refl. reflexivity. }
  unfold io_bind at 1. rewrite W. unfold io_bind at 1.
  destruct (write_whole net true (sent (locality t) cmd) x) as [x1 [[]|e|]]; try reflexivity.
  rewrite thr_read_u32. destruct (read_u32 net true x1) as [x2 [z|e|]]; try reflexivity.
  destruct (Z.of_nat (length rsp) <? z); [reflexivity|]. unfold read_exact. rewrite thr_read_loop.
  destruct (read_loop net (Z.to_nat z) true (Z.to_nat z) x2) as [[x3 bs] [[]|e|]]; try reflexivity.
  rewrite thr_end. destruct (check_response_end net true x3) as [x4 r]. reflexivity.
Qed.
End Thr.

(** ** C84 *)
(** A command the network takes whole is dealt with as over a network that
    always does (so C70 holds of it). *)
Theorem c84_whole_partial S pieces (f : tpm_device S) l k ks s cmd rsp :
  Z.of_nat (length cmd) < 2 ^ 32 -> (9 + length cmd <= k)%nat ->
  tcp_transact (throttled pieces f) (port_ends l) (k :: ks, idle s) cmd rsp
  = (let '(x, rsp', r) := tcp_transact (network pieces f) (port_ends l) (idle s) cmd rsp in ((ks, x), rsp', r)).
Proof.
  intros Hc Hk. destruct (thr_transact pieces f (k :: ks) (idle s) (port_ends l) cmd rsp eq_refl Hk) as [E|E]; [exact E|lia].
Qed.

(** A command it takes a part of fails, the TPM does nothing and the response
    buffer is left alone; but that part stays with the simulator. *)
Theorem c84_cut_partial S pieces (f : tpm_device S) l k ks s cmd rsp :
  0 <= l < 256 -> Z.of_nat (length cmd) < 2 ^ 32 -> (k < 9 + length cmd)%nat ->
  tcp_transact (throttled pieces f) (port_ends l) (k :: ks, idle s) cmd rsp
  = ((ks, {| device := s; taken := firstn k (sent l cmd); waiting := [] |}), rsp, Err WriteZero).
Proof.
  intros Hl Hc Hk. unfold tcp_transact. cbn [port_ends tpm_tcp locality].
  replace (2 ^ 32 <=? Z.of_nat (length cmd)) with false by (symmetry; apply Z.leb_gt; exact Hc).
  change (u32_bytes SendCommand ++ be_bytes 1 l ++ u32_bytes (Z.of_nat (length cmd)) ++ cmd) with (sent l cmd).
  unfold write_whole. unfold io_bind at 1 2. cbn [write throttled network idle fst snd taken device waiting app].
  rewrite deal_incomplete by assumption.
  replace (length (firstn k (sent l cmd)) =? length (sent l cmd))%nat with false; [reflexivity|].
  symmetry. apply Nat.eqb_neq. rewrite firstn_length, sent_length. lia.
Qed.

(** The next command sent completes it: what the TPM executes is the part of
    the first command followed by the beginning of the second's frame, at the
    first one's locality, and its response is returned as the response to the
    second. *)
Theorem c84_spliced_partial S pieces (f : tpm_device S) l1 l2 k s cmd1 cmd2 rsp s' r :
  0 <= l1 < 256 -> 0 <= l2 < 256 -> Z.of_nat (length cmd1) < 2 ^ 32 -> Z.of_nat (length cmd2) < 2 ^ 32 ->
  (9 <= k < 9 + length cmd1)%nat -> (length cmd1 <= k + length cmd2)%nat ->
  f s l1 (firstn (length cmd1) (firstn (k - 9) cmd1 ++ sent l2 cmd2)) = (s', Some r) ->
  (length r <= length rsp)%nat -> Z.of_nat (length r) < 2 ^ 32 ->
  exists x,
    tcp_transact (throttled pieces f) (port_ends l2)
      ([], {| device := s; taken := firstn k (sent l1 cmd1); waiting := [] |}) cmd2 rsp
    = (x, overwrite r rsp, Ok (length r)).
Proof.
  intros Hl1 Hl2 Hc1 Hc2 Hk Hn Ef Lr Hr.
  destruct (thr_transact pieces f [] {| device := s; taken := firstn k (sent l1 cmd1); waiting := [] |}
    (port_ends l2) cmd2 rsp eq_refl I) as [E|E]; [rewrite E; clear E|lia].
  unfold tcp_transact. cbn [port_ends tpm_tcp locality].
  replace (2 ^ 32 <=? Z.of_nat (length cmd2)) with false by (symmetry; apply Z.leb_gt; exact Hc2).
  change (u32_bytes SendCommand ++ be_bytes 1 l2 ++ u32_bytes (Z.of_nat (length cmd2)) ++ cmd2) with (sent l2 cmd2).
  unfold io_bind at 1, write_whole. unfold io_bind at 1. cbn [write network taken device waiting].
  rewrite Nat.eqb_refl. cbn [io_ret].
  set (mix := firstn (k - 9) cmd1 ++ sent l2 cmd2) in *.
  assert (Lm : (length cmd1 <= length mix)%nat).
  { unfold mix. rewrite app_length, firstn_length, sent_length. lia. }
  assert (T : firstn k (sent l1 cmd1) ++ sent l2 cmd2
    = u32be 8 ++ be_bytes 1 l1 ++ u32be (Z.of_nat (length (firstn (length cmd1) mix)))
      ++ firstn (length cmd1) mix ++ skipn (length cmd1) mix).
  { rewrite firstn_skipn, firstn_length_le by exact Lm. rewrite sent_part by lia. unfold mix. now rewrite <- !app_assoc. }
  assert (EL : exists fuel, length (firstn k (sent l1 cmd1) ++ sent l2 cmd2) = Datatypes.S fuel).
  { rewrite app_length, (sent_length l2). eexists. rewrite Nat.add_comm. reflexivity. }
  destruct EL as [fuel ->]. rewrite T.
  rewrite deal_frame_rest; [|assumption|rewrite firstn_length_le; assumption]. rewrite Ef. cbn [fst snd app].
  match goal with |- context [deal f fuel ?x] => destruct (deal_more f fuel x) as (t & s1 & more & ->) end.
  cbn [waiting]. rewrite <- !app_assoc.
  assert (R : forall z rest, u32_ok z -> read_u32 (network pieces f) true
     {| device := s1; taken := t; waiting := u32be z ++ rest |}
     = ({| device := s1; taken := t; waiting := rest |}, Ok z)).
  { intros z rest Hz. unfold read_u32, io_bind, read_bytes, read_exact.
    pose proof (net_read_busy pieces f s1 t (u32be z) rest 4) as R. unfold u32be in R at 1 2. rewrite be_bytes_length in R.
    unfold busy in R. rewrite R by lia. cbn [omap io_ret]. now rewrite u32be_val. }
  rewrite R by (unfold u32_ok; lia).
  replace (Z.of_nat (length rsp) <? Z.of_nat (length r)) with false by (symmetry; apply Z.ltb_ge; lia).
  rewrite Nat2Z.id. unfold read_exact.
  pose proof (net_read_busy pieces f s1 t r ([x00; x00; x00; x00] ++ more) (length r) (le_n _)) as Q.
  unfold busy in Q. cbn [app] in Q |- *. rewrite Q. unfold check_response_end, io_bind.
  change (x00 :: x00 :: x00 :: x00 :: more) with (u32be 0 ++ more).
  rewrite R by (split; [apply Z.le_refl|reflexivity]). cbn. eexists. reflexivity.
Qed.

(** A TPM that remembers what it executed, and answers that it went well. *)
Definition remembering : tpm_device (list (list byte)) := fun s _ cmd =>
  (s ++ [cmd], Some [x80; x01; x00; x00; x00; x0a; x00; x00; x00; x00]).
Definition shutdown_command : list byte := [x80; x01; x00; x00; x00; x0c; x00; x00; x01; x45; x00; x01].
Definition startup_command : list byte := [x80; x01; x00; x00; x00; x0c; x00; x00; x01; x44; x00; x01].
(** TPM2_Shutdown(TPM_SU_STATE) and TPM2_Startup(TPM_SU_STATE), and the network
    takes 19 bytes of the first.  The first call fails, the second succeeds,
    and what the TPM executed is TPM2_Shutdown(TPM_SU_CLEAR). *)
Theorem c84_refuted :
  let net := throttled (fun _ n => n) remembering in
  let '(w, _, r1) := tcp_transact net (port_ends 0) ([19%nat], idle []) shutdown_command (repeat x00 10) in
  let '(w', _, r2) := tcp_transact net (port_ends 0) w startup_command (repeat x00 10) in
  r1 = Err WriteZero /\ r2 = Ok 10%nat
  /\ device (snd w) = []
  /\ device (snd w') = [[x80; x01; x00; x00; x00; x0c; x00; x00; x01; x45; x00; x00]].
Proof. vm_compute. repeat split; reflexivity. Qed.
Example c84_example :
  0 <= 0 < 256 /\ (9 <= 19 < 9 + length shutdown_command)%nat
  /\ (length shutdown_command <= 19 + length startup_command)%nat
  /\ snd (remembering [] 0 (firstn (length shutdown_command)
        (firstn (19 - 9) shutdown_command ++ sent 0 startup_command)))
     = Some [x80; x01; x00; x00; x00; x0a; x00; x00; x00; x00].
Proof. vm_compute. repeat split; try discriminate; lia. Qed.
