(** What calls make of the bytes they receive (C115). *)
From Coq Require Import String ZArith NArith List Lia Bool.
From Coq Require Import Init.Byte.
From Verif Require Import Prelude Types Marshal WireSpec Catalogue Errors Tpm2b Client ClientSpec ClientProofs ClientFacts
  Tcp TcpSpec TcpProofs Remote RemoteFacts Controls ControlsFacts Cut Hearing.
Import ListNotations.
Open Scope Z_scope.

Section Over.
Context {R : Type} (cut : cuts R).
Local Notation net := (channel cut).
Local Notation streams := (list byte * list byte)%type.
Lemma port_of_set h b (w : streams) : port h (set_port h b w) = b.
Proof. destruct h; reflexivity. Qed.
Lemma set_of_set h a b (w : streams) : set_port h a (set_port h b w) = set_port h a w.
Proof. destruct h, w; reflexivity. Qed.
Lemma set_of_port h (w : streams) : set_port h (port h w) w = w.
Proof. destruct h, w; reflexivity. Qed.
Lemma firstn_parts {A} k m (q : list A) : (k <= m)%nat -> firstn m q = firstn k q ++ firstn (m - k) (skipn k q).
Proof.
  revert m q. induction k as [|k IH]; intros m q L; [now rewrite Nat.sub_0_r|].
  destruct m as [|m]; [lia|]. destruct q as [|x q]; cbn; [now rewrite firstn_nil|]. f_equal. apply IH. lia.
Qed.
Lemma net_loop h : forall fuel n r w, (n <= fuel)%nat -> exists r',
  read_loop net fuel h n (r, w)
  = ((r', set_port h (skipn n (port h w)) w), firstn n (port h w),
     if (n <=? length (port h w))%nat then Ok tt else Err UnexpectedEof).
Proof.
  induction fuel as [|fuel IH]; intros [|n] r w L; try lia; try (exists r; cbn [skipn]; rewrite set_of_port; reflexivity).
  cbn [read_loop read channel fst snd]. set (q := port h w). destruct (cut r h (S n) q) as [r1 k0].
  set (k := Nat.min (S n) (Nat.max 1 k0)). assert (Lk : (1 <= k <= S n)%nat) by (unfold k; lia). clearbody k.
  destruct (firstn k q) as [|b bs] eqn:E.
  { assert (Q : q = []) by (destruct k, q; [lia|lia|reflexivity|discriminate]). exists r1. rewrite Q, !skipn_nil, firstn_nil. reflexivity. }
  assert (Lb : length (b :: bs) = Nat.min k (length q)) by (rewrite <- E; apply firstn_length).
  destruct (Nat.ltb_spec (S n) (length (b :: bs))); [lia|].
  destruct (IH (S n - length (b :: bs))%nat r1 (set_port h (skipn k q) w)) as (r2 & E2); [cbn [length]; lia|].
  rewrite E2, port_of_set, set_of_set. exists r2.
  assert (Ek : length (b :: bs) = k \/ (length q < k)%nat /\ length (b :: bs) = length q) by lia.
  destruct Ek as [Ek|[Lq Ek]]; rewrite Ek.
  - f_equal; [f_equal|].
    + f_equal. f_equal. rewrite skipn_skipn'. f_equal. lia.
    + rewrite <- E. symmetry. apply firstn_parts. lia.
    + rewrite skipn_length. destruct (Nat.leb_spec (S n - k) (length q - k)), (Nat.leb_spec (S n) (length q)); reflexivity || lia.
  - assert (S1 : skipn k q = []) by (apply skipn_all2; lia). rewrite S1, !skipn_nil, firstn_nil, app_nil_r.
    assert (S2 : skipn (S n) q = []) by (apply skipn_all2; lia). rewrite S2.
    rewrite <- E, !firstn_all2 by lia. cbn [length].
    destruct (Nat.leb_spec (S n - length q) 0), (Nat.leb_spec (S n) (length q)); reflexivity || lia.
Qed.
(** A computation on one port of the network, and one on the bytes. *)
Definition means {A} (h : bool) (m : io (R * streams) A) (p : list byte -> outcome io_error A * list byte) : Prop :=
  forall r w, exists r', m (r, w) = ((r', set_port h (snd (p (port h w))) w), fst (p (port h w))).
Lemma means_bind {A B} h (m : io (R * streams) A) p (k : A -> io (R * streams) B) p' :
  means h m p -> (forall a, means h (k a) (p' a)) -> means h (io_bind m k) (fun b => and_then (p b) p').
Proof.
  intros M K r w. destruct (M r w) as (r1 & E). unfold io_bind. rewrite E. unfold and_then.
  destruct (p (port h w)) as [[a|e|] rest]; cbn [fst snd]; [|exists r1; reflexivity..].
  destruct (K a r1 (set_port h rest w)) as (r2 & E2). exists r2. now rewrite E2, port_of_set, set_of_set.
Qed.
Lemma means_ret {A} h (a : A) : means h (io_ret a) (fun b => (Ok a, b)).
Proof. intros r w. exists r. cbn [fst snd]. now rewrite set_of_port. Qed.
Lemma means_err {A} h e : means h (@io_err _ A e) (fun b => (Err e, b)).
Proof. intros r w. exists r. cbn [fst snd]. now rewrite set_of_port. Qed.
Lemma means_same {A} h (m : io (R * streams) A) p p' : means h m p -> (forall b, p b = p' b) -> means h m p'.
Proof. intros M E r w. rewrite <- E. apply M. Qed.
Lemma means_bytes h n : means h (read_bytes net h n) (part n).
Proof.
  intros r w. unfold read_bytes, read_exact. destruct (net_loop h n n r w (le_n _)) as (r' & E). rewrite E. exists r'.
  unfold part. destruct (Nat.leb_spec n (length (port h w))) as [L|L]; cbn [fst snd omap]; [reflexivity|].
  rewrite skipn_all2 by lia. reflexivity.
Qed.
Lemma means_number h : means h (read_u32 net h) number.
Proof. apply means_bind; [apply means_bytes|]. intros bs. apply means_ret. Qed.
Lemma means_ack h : means h (check_response_end net h) acked.
Proof.
  eapply means_same; [apply means_bind; [apply means_number|]|].
  - intros z. instantiate (1 := fun z b => (if z =? 0 then Ok tt else Err InvalidData, b)). cbv beta.
    destruct (z =? 0); [apply means_ret|apply means_err].
  - reflexivity.
Qed.
Lemma net_all h bs w : write_all net h bs w = (w, Ok tt).
Proof.
  unfold write_all. destruct bs as [|b bs]; [reflexivity|].
  cbn [length write_loop write channel]. rewrite Nat.ltb_irrefl.
  change (S (length bs)) with (length (b :: bs)). rewrite skipn_all. destruct (length bs); reflexivity.
Qed.
Lemma net_whole h bs w : write_whole net h bs w = (w, Ok tt).
Proof. unfold write_whole, io_bind. cbn [write channel]. now rewrite Nat.eqb_refl. Qed.
Lemma means_quiet {A} h (m : io (R * streams) unit) (k : io (R * streams) A) p :
  (forall w, m w = (w, Ok tt)) -> means h k p -> means h (io_bind m (fun _ => k)) p.
Proof. intros Q K r w. unfold io_bind. rewrite Q. apply K. Qed.
Definition mapped {A B} (g : A -> B) (p : list byte -> outcome io_error A * list byte) b := (omap g (fst (p b)), snd (p b)).
Lemma means_map {A B} h (g : A -> B) (m : io (R * streams) A) p :
  means h m p -> means h (fun w => (fst (m w), omap g (snd (m w)))) (mapped g p).
Proof. intros M r w. destruct (M r w) as (r' & E). exists r'. now rewrite E. Qed.
Definition transact_says (response b : list byte) : list byte * outcome io_error nat * list byte :=
  match number b with
  | (Ok n, b1) =>
      if Z.of_nat (length response) <? n then (response, Err InvalidInput, b1)
      else (overwrite (firstn (Z.to_nat n) b1) response,
            (if (Z.to_nat n <=? length b1)%nat then omap (fun _ => Z.to_nat n) (fst (acked (skipn (Z.to_nat n) b1))) else Err UnexpectedEof),
            (if (Z.to_nat n <=? length b1)%nat then snd (acked (skipn (Z.to_nat n) b1)) else []))
  | (Err e, b1) => (response, Err e, b1)
  | (Panic, b1) => (response, Panic, b1)
  end.
Lemma net_transact l r w command response : Z.of_nat (length command) < 2 ^ 32 ->
  exists r', tcp_transact net (port_ends l) (r, w) command response
  = (let '(rsp, o, b) := transact_says response (port true w) in ((r', set_port true b w), rsp, o)).
Proof.
  intros Hc. unfold tcp_transact. replace (2 ^ 32 <=? Z.of_nat (length command)) with false by (symmetry; apply Z.leb_gt; exact Hc).
  cbn [tpm_tcp port_ends locality]. unfold io_bind at 1. rewrite net_whole. unfold transact_says.
  destruct (means_number true r w) as (r1 & E1). rewrite E1. destruct (number (port true w)) as [[n|e|] b1]; cbn [fst snd]; [|exists r1; reflexivity..].
  destruct (_ <? n); [exists r1; reflexivity|]. unfold read_exact.
  destruct (net_loop true (Z.to_nat n) (Z.to_nat n) r1 (set_port true b1 w) (le_n _)) as (r2 & E2). rewrite E2, port_of_set, set_of_set.
  destruct (Nat.leb_spec (Z.to_nat n) (length b1)) as [L|L].
  - destruct (means_ack true r2 (set_port true (skipn (Z.to_nat n) b1) w)) as (r3 & E3). rewrite E3, port_of_set, set_of_set.
    exists r3. reflexivity.
  - exists r2. rewrite (skipn_all2 b1) by lia. reflexivity.
Qed.
Definition keeps (t : tcp bool) (m : io (R * streams) answer) (w : R * streams) := (t, fst (m w), snd (m w)).
Lemma means_keeps h t m p r w : means h m p ->
  exists r', keeps t m (r, w) = (t, (r', set_port h (snd (p (port h w))) w), fst (p (port h w))).
Proof. intros M. destruct (M r w) as (r' & E). exists r'. unfold keeps. now rewrite E. Qed.
Ltac hear := repeat first
  [ apply means_ack | apply means_number | apply means_bytes | apply means_ret | apply means_err
  | apply means_quiet; [intros ?; first [apply net_all | apply net_whole]|]
  | eapply means_bind; [|intros ?] ].
Ltac compare := intros b; unfold mapped, with_ack, and_then; cbn [acks]; unfold and_then;
  repeat match goal with
  | |- context [match ?x with (_, _) => _ end] => destruct x as [[?|?|] ?] eqn:?; cbn [fst snd omap]
  end; try reflexivity.
Lemma net_perform l o r w : exists r',
  perform net (port_ends l) o (r, w)
  = (port_ends (locality_after l o), (r', set_port (hears o) (snd (says o (port (hears o) w))) w), fst (says o (port (hears o) w))).
Proof.
  destruct o as [command response|data|v|z|s| | | |z|z|z|l'| |]; cbn [hears says locality_after].
  - unfold perform. destruct (Z.leb_spec (2 ^ 32) (Z.of_nat (length command))) as [L|L].
    { exists r. unfold tcp_transact. apply Z.leb_le in L. rewrite L. cbn [fst snd omap]. now rewrite set_of_port. }
    destruct (net_transact l r w command response L) as (r' & E). rewrite E. unfold transact_says, and_then, with_ack, part.
    destruct (number (port true w)) as [[n|e|] b1]; cbn [fst snd omap]; [|exists r'; reflexivity..].
    destruct (Z.ltb_spec (Z.of_nat (length response)) n) as [Ln|Ln]; [exists r'; reflexivity|].
    destruct (Nat.leb_spec (Z.to_nat n) (length b1)) as [L1|L1]; [|exists r'; reflexivity].
    exists r'. cbn [and_then]. destruct (acked (skipn (Z.to_nat n) b1)) as [[u|e|] rest]; cbn [fst snd omap]; try reflexivity.
    assert (F : firstn (Z.to_nat n) (overwrite (firstn (Z.to_nat n) b1) response) = firstn (Z.to_nat n) b1).
    { rewrite <- (firstn_overwrite (firstn (Z.to_nat n) b1) response) at 2. f_equal. rewrite firstn_length. lia. }
    now rewrite F.
  - apply (means_keeps true (port_ends l) (fun x => unit_answer (hcrtm_sequence net (port_ends l) data x))).
    eapply means_same; [apply means_map; unfold hcrtm_sequence; hear|]. compare.
  - apply (means_keeps true (port_ends l) (fun x => let '(w', r) := remote_handshake net (port_ends l) v x in
                         (w', omap (fun x => Versions (fst x) (snd x)) r)) (says (Handshake v))).
    assert (M : means true (remote_handshake net (port_ends l) v) (fun b => and_then (part 8 b) (fun x b => and_then (acked b) (fun _ b => (Ok (be_val (firstn 4 x), be_val (skipn 4 x)), b))))) by (unfold remote_handshake; hear).
    intros r0 w0. destruct (M r0 w0) as (r1 & E). exists r1. rewrite E. cbn [says]. unfold with_ack, and_then.
    destruct (part 8 _) as [[x|e|] b1]; cbn [fst snd omap]; try reflexivity. destruct (acked b1) as [[x1|e|] b2]; reflexivity.
  - apply (means_keeps true (port_ends l) (fun x => unit_answer (set_alternative_result net (port_ends l) z x))).
    eapply means_same; [apply means_map; unfold set_alternative_result; hear|]. compare.
  - apply (means_keeps false (port_ends l) (fun x => unit_answer (platform_signal net (port_ends l) s x))).
    eapply means_same; [apply means_map; unfold platform_signal; hear|]. compare.
  - apply (means_keeps false (port_ends l) (fun x => unit_answer (reinit net (port_ends l) x))).
    eapply means_same; [apply means_map; unfold reinit, platform_signal; hear|]. compare.
  - apply (means_keeps false (port_ends l) (fun x => unit_answer (test_failure_mode net (port_ends l) x))).
    eapply means_same; [apply means_map; unfold test_failure_mode; hear|]. compare.
  - apply (means_keeps false (port_ends l) (fun x => let '(w', r) := get_command_response_sizes net (port_ends l) x in
                           (w', omap (fun '(x1, x2, x3, x4) => Sizes x1 x2 x3 x4) r)) (says ResponseSizes)).
    assert (M : means false (get_command_response_sizes net (port_ends l))
      (fun b => and_then (number b) (fun n b => if n =? 16 then and_then (part 16 b) (fun x b => and_then (acked b) (fun _ b =>
         (Ok (le_val (firstn 4 x), be_val (firstn 4 (skipn 4 x)), le_val (firstn 4 (skipn 8 x)), be_val (skipn 12 x)), b))) else (Err InvalidData, b)))).
    { unfold get_command_response_sizes. apply means_quiet; [intros x; apply net_all|].
      refine (means_bind false _ number _ (fun n b => if n =? 16 then _ else _) (means_number false) _). intros n.
      destruct (n =? 16); cbn [negb]; hear. }
    intros r0 w0. destruct (M r0 w0) as (r1 & E). exists r1. rewrite E. cbn [says]. unfold with_ack, and_then.
    destruct (number _) as [[n|e|] b0]; cbn [fst snd omap]; try reflexivity. destruct (n =? 16); [|reflexivity].
    destruct (part 16 _) as [[x|e|] b1]; cbn [fst snd omap]; try reflexivity. destruct (acked b1) as [[x1|e|] b2]; reflexivity.
  - apply (means_keeps false (port_ends l) (fun x => let '(w', r) := act_get_signaled net (port_ends l) z x in (w', omap Number r)) (says (ActSignaled z))).
    assert (M : means false (act_get_signaled net (port_ends l) z) (fun b => and_then (number b) (fun n b => and_then (acked b) (fun _ b => (Ok n, b))))) by (unfold act_get_signaled; hear).
    intros r0 w0. destruct (M r0 w0) as (r1 & E). exists r1. rewrite E. cbn [says]. unfold with_ack, and_then.
    destruct (number _) as [[x|e|] b1]; cbn [fst snd omap]; try reflexivity. destruct (acked b1) as [[x1|e|] b2]; reflexivity.
  - apply (means_keeps false (port_ends l) (fun x => unit_answer (set_firmware_hash net (port_ends l) z x))).
    eapply means_same; [apply means_map; unfold set_firmware_hash; hear|]. compare.
  - apply (means_keeps false (port_ends l) (fun x => unit_answer (set_firmware_svn net (port_ends l) z x))).
    eapply means_same; [apply means_map; unfold set_firmware_svn; hear|]. compare.
  - exists r. cbn [perform fst snd]. now rewrite set_of_port.
  - exists r. cbn [fst snd]. rewrite set_of_port. unfold perform, session_end, end_both, unit_answer, io_bind. rewrite !net_all. cbn [shutdown channel]. now rewrite net_all.
  - exists r. cbn [fst snd]. rewrite set_of_port. unfold perform, stop_simulator, end_both, unit_answer, io_bind. rewrite !net_all. cbn [shutdown channel]. now rewrite net_all.
Qed.
End Over.
Lemma says_payload command response b p rest :
  says (Transact command response) b = (p, rest) -> match p with Ok (Payload x) => (length x <= length response)%nat | Ok _ => False | _ => True end.
Proof.
  cbn [says]. destruct (_ <=? _); [intros [= <- _]; exact I|]. unfold with_ack, and_then, part.
  destruct (number b) as [[n|e|] b1]; try (intros [= <- _]; exact I).
  destruct (Z.ltb_spec (Z.of_nat (length response)) n) as [L|L]; [intros [= <- _]; exact I|].
  destruct (_ <=? _)%nat; [|intros [= <- _]; exact I].
  destruct (acked _) as [[u|e|] b2]; intros [= <- _]; try exact I. rewrite firstn_length. lia.
Qed.
Lemma overwrite_zeros x m : (length x <= m)%nat -> overwrite x (repeat x00 m) = x ++ repeat x00 (m - length x).
Proof.
  intros L. unfold overwrite. f_equal. replace m with (length x + (m - length x))%nat at 1 by lia.
  rewrite repeat_app. apply skipn_app_exact'. now rewrite repeat_length.
Qed.
Lemma net_call {R} (cut : cuts R) l r w x calls : exists r' l',
  calls_over (channel cut) (port_ends l) (r, w) (x :: calls)
  = (let '(y, rs) := calls_over (channel cut) (port_ends l') (r', set_port (heard_on x) (snd (says_call x (port (heard_on x) w))) w) calls in
     (y, fst (says_call x (port (heard_on x) w)) :: rs)).
Proof.
  destruct x as [o|c cmd handles a]; cbn [calls_over heard_on says_call].
  - destruct (net_perform cut l o r w) as (r' & E). rewrite E. exists r', (locality_after l o).
    destruct (says o _) as [y rest]. reflexivity.
  - unfold run_command_with_handles. destruct (build_command c cmd handles a) as [bytes|e|] eqn:B.
    2,3: exists r, l; cbn [fst snd]; rewrite set_of_port; reflexivity.
    cbn [transact tcp_connection]. destruct (Z.leb_spec (2 ^ 32) (Z.of_nat (length bytes))) as [L|L].
    { exists r, l. unfold tcp_transact. cbn [says]. apply Z.leb_le in L. rewrite L. cbn [fst snd]. now rewrite set_of_port. }
    destruct (net_transact cut l r w bytes (repeat x00 RESP_BUFFER_SIZE) L) as (r' & E). rewrite E. exists r', l.
    cbn [says]. replace (2 ^ 32 <=? Z.of_nat (length bytes)) with false by (symmetry; apply Z.leb_gt; exact L).
    unfold transact_says, with_ack, and_then, part. destruct (number (port true w)) as [[n|e|] b1]; try reflexivity.
    rewrite repeat_length. destruct (Z.ltb_spec (Z.of_nat RESP_BUFFER_SIZE) n) as [Ln|Ln]; [reflexivity|].
    destruct (Nat.leb_spec (Z.to_nat n) (length b1)) as [L1|L1]; [|reflexivity].
    destruct (acked _) as [[u|e|] b2]; cbn [fst snd omap]; try reflexivity.
    rewrite overwrite_zeros by (rewrite firstn_length; lia). reflexivity.
Qed.
(** More bytes after those heard. *)
Definition steady {A} (p : list byte -> outcome io_error A * list byte) : Prop :=
  forall b more, fst (p b) <> Err UnexpectedEof -> p (b ++ more) = (fst (p b), snd (p b) ++ more).
Lemma steady_part n : steady (part n).
Proof.
  intros b more N. unfold part in *. rewrite app_length. destruct (Nat.leb_spec n (length b)) as [L|L]; [|now destruct N].
  destruct (Nat.leb_spec n (length b + length more)); [|lia]. cbn [fst snd]. rewrite skipn_app_le by exact L.
  now rewrite firstn_app_le.
Qed.
Lemma steady_ret {A} (a : outcome io_error A) : steady (fun b => (a, b)).
Proof. intros b more N. reflexivity. Qed.
Lemma steady_then {A B} (p : list byte -> outcome io_error A * list byte) (k : A -> list byte -> outcome io_error B * list byte) :
  steady p -> (forall a, steady (k a)) -> steady (fun b => and_then (p b) k).
Proof.
  intros P K b more N. specialize (P b more). unfold and_then in *. destruct (p b) as [[a|e|] rest]; cbn [fst snd] in *.
  - rewrite P by discriminate. now apply K.
  - rewrite P by congruence. reflexivity.
  - rewrite P by discriminate. reflexivity.
Qed.
Lemma steady_number : steady number.
Proof. apply steady_then; [apply steady_part|intros a; apply steady_ret]. Qed.
Lemma steady_acked : steady acked.
Proof. apply steady_then; [apply steady_number|intros a; apply steady_ret]. Qed.
Lemma steady_acks n : steady (acks n).
Proof. induction n as [|n IH]; [apply steady_ret|]. apply steady_then; [apply steady_acked|intros _; exact IH]. Qed.
Lemma steady_with {A} (p : list byte -> outcome io_error A * list byte) g : steady p -> steady (fun b => with_ack (p b) g).
Proof. intros P. apply steady_then; [exact P|]. intros a. apply steady_then; [apply steady_acked|]. intros _. apply steady_ret. Qed.
Lemma steady_says o : steady (says o).
Proof.
  destruct o as [command response|data|v|z|s| | | |z|z|z|l'| |]; unfold says; try apply steady_acks; try apply steady_ret.
  - destruct (2 ^ 32 <=? Z.of_nat (length command)); [apply steady_ret|]. apply steady_then; [apply steady_number|]. intros n; cbv beta. destruct (Z.of_nat (length response) <? n); [apply steady_ret|].
    apply steady_with, steady_part.
  - apply steady_with, steady_part.
  - apply steady_then; [apply steady_number|]. intros n; cbv beta. destruct (n =? 16); [|apply steady_ret]. apply steady_with, steady_part.
  - apply steady_with, steady_number.
Qed.
(** The end of the stream. *)
Definition drains {A} (p : list byte -> outcome io_error A * list byte) : Prop :=
  forall b, fst (p b) = Err UnexpectedEof -> snd (p b) = [].
Lemma drains_part n : drains (part n).
Proof. intros b. unfold part. destruct (_ <=? _)%nat; [discriminate|reflexivity]. Qed.
Lemma drains_ret {A} (a : outcome io_error A) : a <> Err UnexpectedEof -> drains (fun b => (a, b)).
Proof. intros N b E. now destruct N. Qed.
Lemma drains_then {A B} (p : list byte -> outcome io_error A * list byte) (k : A -> list byte -> outcome io_error B * list byte) :
  drains p -> (forall a, drains (k a)) -> drains (fun b => and_then (p b) k).
Proof.
  intros P K b E. specialize (P b). unfold and_then in *. destruct (p b) as [[a|e|] rest]; cbn [fst snd] in *.
  - now apply K.
  - apply P. congruence.
  - discriminate.
Qed.
Lemma drains_number : drains number.
Proof. apply drains_then; [apply drains_part|intros a; apply drains_ret; discriminate]. Qed.
Lemma drains_acked : drains acked.
Proof. apply drains_then; [apply drains_number|intros a; apply drains_ret]. destruct (a =? 0); discriminate. Qed.
Lemma drains_acks n : drains (acks n).
Proof. induction n as [|n IH]; [apply drains_ret; discriminate|]. apply drains_then; [apply drains_acked|intros _; exact IH]. Qed.
Lemma drains_with {A} (p : list byte -> outcome io_error A * list byte) g : drains p -> drains (fun b => with_ack (p b) g).
Proof. intros P. apply drains_then; [exact P|]. intros a. apply drains_then; [apply drains_acked|]. intros _. apply drains_ret. discriminate. Qed.
Lemma drains_says o : drains (says o).
Proof.
  destruct o as [command response|data|v|z|s| | | |z|z|z|l'| |]; unfold says; try apply drains_acks; try solve [apply drains_ret; discriminate].
  - destruct (2 ^ 32 <=? Z.of_nat (length command)); [apply drains_ret; discriminate|]. apply drains_then; [apply drains_number|]. intros n; cbv beta.
    destruct (Z.of_nat (length response) <? n); [apply drains_ret; discriminate|]. apply drains_with, drains_part.
  - apply drains_with, drains_part.
  - apply drains_then; [apply drains_number|]. intros n; cbv beta. destruct (n =? 16); [|apply drains_ret; discriminate]. apply drains_with, drains_part.
  - apply drains_with, drains_number.
Qed.
Lemma call_steady x b more : starved (fst (says_call x b)) = false ->
  says_call x (b ++ more) = (fst (says_call x b), snd (says_call x b) ++ more).
Proof.
  destruct x as [o|c cmd handles a]; cbn [says_call].
  - pose proof (steady_says o b more) as S. destruct (says o b) as [r rest]. cbn [fst snd starved] in *. intros F.
    rewrite S; [reflexivity|]. intros ->. discriminate.
  - destruct (build_command c cmd handles a) as [bytes|e|]; [|reflexivity..]. set (o := Transact _ _).
    pose proof (steady_says o b more) as S. destruct (says o b) as [[y|e|] rest]; cbn [fst snd] in S.
    + rewrite S by discriminate. destruct y; reflexivity.
    + cbn [fst snd]. intros F. rewrite S; [reflexivity|]. intros [= ->]. discriminate.
    + rewrite S by discriminate. reflexivity.
Qed.
Lemma call_drains x b : starved (fst (says_call x b)) = true -> snd (says_call x b) = [].
Proof.
  destruct x as [o|c cmd handles a]; cbn [says_call].
  - pose proof (drains_says o b) as S. destruct (says o b) as [r rest]. cbn [fst snd starved] in *. intros F.
    apply S. destruct r as [y|e|]; try discriminate. destruct e; try discriminate. reflexivity.
  - destruct (build_command c cmd handles a) as [bytes|e|]; [|discriminate..]. set (o := Transact _ _).
    pose proof (drains_says o b) as S. destruct (says o b) as [[y|e|] rest]; cbn [fst snd starved] in *; [|intros F|discriminate].
    + destruct y; cbn [fst starved]; try discriminate. destruct (parse_response _ _ _); discriminate.
    + apply S. destruct e; try discriminate. reflexivity.
Qed.
Lemma call_dry x : listens x -> starved (fst (says_call x [])) = true /\ snd (says_call x []) = [].
Proof.
  intros L. assert (T : starved (fst (says_call x [])) = true).
  { destruct x as [o|c cmd handles a]; cbn [says_call listens] in *.
    - destruct o; try contradiction; try reflexivity. cbn [says].
      replace (2 ^ 32 <=? Z.of_nat (length command)) with false by (symmetry; apply Z.leb_gt; exact L). reflexivity.
    - destruct L as (bytes & B & L). rewrite B. cbn [says].
      replace (2 ^ 32 <=? Z.of_nat (length bytes)) with false by (symmetry; apply Z.leb_gt; exact L). reflexivity. }
  split; [exact T|]. now apply call_drains.
Qed.
Lemma call_empty x : snd (says_call x []) = [].
Proof.
  destruct x as [o|c cmd handles a]; cbn [says_call].
  - destruct o; try reflexivity. cbn [says]. destruct (_ <=? _); reflexivity.
  - destruct (build_command c cmd handles a); [|reflexivity..]. cbn [says]. destruct (_ <=? _); reflexivity.
Qed.
Lemma dry_after h : forall calls w, port h w = [] ->
  Forall2 (fun y r => heard_on y = h -> listens y -> starved r = true) calls (snd (says_all calls w)).
Proof.
  induction calls as [|y calls IH]; intros w E; cbn [says_all]; [constructor|].
  pose proof (call_dry y) as D. pose proof (call_empty y) as Y.
  destruct (says_call y (port (heard_on y) w)) as [r rest] eqn:S.
  assert (P : port h (set_port (heard_on y) rest w) = []).
  { destruct (Bool.bool_dec (heard_on y) h) as [<-|N].
    - rewrite port_of_set. rewrite E in S. rewrite S in Y. exact Y.
    - destruct (heard_on y), h, w; try contradiction; exact E. }
  specialize (IH _ P). destruct (says_all calls _) as [w' rs]. cbn [snd] in *. constructor; [|exact IH].
  intros <- L. rewrite E in S. rewrite S in D. now apply D.
Qed.
Lemma says_app : forall calls1 calls2 w,
  says_all (calls1 ++ calls2) w
  = (let '(w1, rs1) := says_all calls1 w in let '(w2, rs2) := says_all calls2 w1 in (w2, rs1 ++ rs2)).
Proof.
  induction calls1 as [|x calls1 IH]; intros calls2 w; cbn [says_all app].
  - destruct (says_all calls2 w). reflexivity.
  - destruct (says_call x _) as [r rest]. rewrite IH. destruct (says_all calls1 _) as [w1 rs1]. destruct (says_all calls2 w1). reflexivity.
Qed.
Lemma says_length : forall calls w, length (snd (says_all calls w)) = length calls.
Proof.
  induction calls as [|x calls IH]; intros w; cbn [says_all]; [reflexivity|].
  destruct (says_call x _) as [r rest]. specialize (IH (set_port (heard_on x) rest w)). destruct (says_all calls _). cbn in *. congruence.
Qed.

(** ** C115 *)

(** Whatever bytes a peer sends on the two ports - proper answers or not -, and
    in whatever pieces they arrive: the results of a series of calls, each made
    whatever became of those before, are what the bytes say, and so is what is
    left unread. *)
Theorem c115_session R (cut : cuts R) l r w calls :
  exists r', calls_over (channel cut) (port_ends l) (r, w) calls = ((r', fst (says_all calls w)), snd (says_all calls w)).
Proof.
  revert l r w. induction calls as [|x calls IH]; intros l r w; cbn [says_all]; [exists r; reflexivity|].
  destruct (net_call cut l r w x calls) as (r1 & l1 & E). rewrite E.
  destruct (says_call x _) as [y rest]. cbn [fst snd].
  destruct (IH l1 r1 (set_port (heard_on x) rest w)) as (r2 & E2). rewrite E2. exists r2.
  destruct (says_all calls _). reflexivity.
Qed.

(** So two networks that deliver the same bytes, in different pieces, give the
    same results and leave the same bytes. *)
Theorem c115_pieces R1 R2 (cut1 : cuts R1) (cut2 : cuts R2) l1 l2 r1 r2 w calls :
  let '(w1, rs1) := calls_over (channel cut1) (port_ends l1) (r1, w) calls in
  let '(w2, rs2) := calls_over (channel cut2) (port_ends l2) (r2, w) calls in
  rs1 = rs2 /\ snd w1 = snd w2.
Proof.
  destruct (c115_session R1 cut1 l1 r1 w calls) as (x & ->). destruct (c115_session R2 cut2 l2 r2 w calls) as (y & ->). split; reflexivity.
Qed.

(** Bytes after those that the calls used change nothing: if no call met the end
    of its stream, then the calls have the same results over any network that
    delivers the same bytes and more, and leave the additional bytes unread. *)
Theorem c115_more R1 R2 (cut1 : cuts R1) (cut2 : cuts R2) l1 l2 r1 r2 tpm platform more_tpm more_platform calls :
  let '(w1, rs1) := calls_over (channel cut1) (port_ends l1) (r1, (tpm, platform)) calls in
  let '(w2, rs2) := calls_over (channel cut2) (port_ends l2) (r2, (tpm ++ more_tpm, platform ++ more_platform)) calls in
  Forall (fun r => starved r = false) rs1 ->
  rs1 = rs2 /\ snd w2 = (fst (snd w1) ++ more_tpm, snd (snd w1) ++ more_platform).
Proof.
  destruct (c115_session R1 cut1 l1 r1 (tpm, platform) calls) as (x & ->).
  destruct (c115_session R2 cut2 l2 r2 (tpm ++ more_tpm, platform ++ more_platform) calls) as (y & ->).
  cbn [fst snd]. clear. revert tpm platform. induction calls as [|c calls IH]; intros tpm platform F; cbn [says_all] in *; [split; reflexivity|].
  pose proof (call_steady c (port (heard_on c) (tpm, platform)) (if heard_on c then more_tpm else more_platform)) as S.
  replace (port (heard_on c) (tpm ++ more_tpm, platform ++ more_platform))
    with (port (heard_on c) (tpm, platform) ++ (if heard_on c then more_tpm else more_platform)) by (destruct (heard_on c); reflexivity).
  destruct (says_call c (port (heard_on c) (tpm, platform))) as [r rest]. cbn [fst snd] in S.
  set (w1 := set_port (heard_on c) rest (tpm, platform)) in *.
  assert (F' : starved r = false /\ Forall (fun r => starved r = false) (snd (says_all calls w1))).
  { destruct (says_all calls w1). cbn [snd] in *. inversion F; subst. auto. }
  destruct F' as (Fr & F'). rewrite (S Fr).
  replace (set_port (heard_on c) (rest ++ (if heard_on c then more_tpm else more_platform)) (tpm ++ more_tpm, platform ++ more_platform))
    with (fst w1 ++ more_tpm, snd w1 ++ more_platform) by (unfold w1; destruct (heard_on c); reflexivity).
  destruct w1 as [t1 p1]. cbn [fst snd]. destruct (IH t1 p1 F') as (E1 & E2).
  destruct (says_all calls (t1, p1)), (says_all calls (t1 ++ more_tpm, p1 ++ more_platform)). cbn [fst snd] in *. subst. auto.
Qed.

(** A call that meets the end of its stream leaves nothing on it: every later
    call that waits for something on the same port meets the end too. *)
Theorem c115_end R (cut : cuts R) l r w calls x later :
  let '(_, rs) := calls_over (channel cut) (port_ends l) (r, w) (calls ++ x :: later) in
  starved (nth (length calls) rs (Called Panic)) = true ->
  Forall2 (fun y result => heard_on y = heard_on x -> listens y -> starved result = true) later (skipn (S (length calls)) rs).
Proof.
  destruct (c115_session R cut l r w (calls ++ x :: later)) as (r' & ->). rewrite says_app. pose proof (says_length calls w) as L.
  destruct (says_all calls w) as [w1 rs1]. cbn [snd] in L. cbn [says_all].
  pose proof (call_drains x (port (heard_on x) w1)) as D. destruct (says_call x _) as [y rest]. cbn [fst snd] in D.
  pose proof (dry_after (heard_on x) later (set_port (heard_on x) rest w1)) as A.
  destruct (says_all later _) as [w2 rs2]. cbn [fst snd] in *. rewrite <- L.
  rewrite app_nth2, Nat.sub_diag by lia. cbn [nth]. intros T.
  replace (skipn (S (length rs1)) (rs1 ++ y :: rs2)) with rs2.
  - apply A. rewrite port_of_set. now apply D.
  - change (y :: rs2) with ([y] ++ rs2). rewrite app_assoc. symmetry. apply skipn_app_exact'. rewrite app_length. cbn. lia.
Qed.

(** A peer that answers a handshake, refuses a signal and stops in the middle of
    the answer to the next call; byte by byte, and all at once. *)
Example c115_example :
  let slow : cuts unit := fun r _ _ _ => (r, 1%nat) in
  let fast : cuts nat := fun r _ n _ => (S r, n) in
  let bytes := ([x00; x00; x00; x01; x00; x00; x00; x07; x00; x00; x00; x00; x00; x00],
                [x00; x00; x00; x01; x00; x00; x00; x00; xff]) in
  let calls := [Call (Handshake 1); Call (Signal PowerOn); Call FailureMode; Call (AlternativeResult 0); Call (Hcrtm [x61])] in
  let results := [Called (Ok (Versions 1 7)); Called (Err InvalidData); Called (Ok Done);
                  Called (Err UnexpectedEof); Called (Err UnexpectedEof)] in
  calls_over (channel slow) (port_ends 0) (tt, bytes) calls = ((tt, ([], [xff])), results)
  /\ snd (calls_over (channel fast) (port_ends 0) (O, bytes) calls) = results
  /\ Forall (fun r => starved r = false) (snd (calls_over (channel slow) (port_ends 0) (tt, bytes) (firstn 3 calls)))
  /\ listens (Call (Hcrtm [x61])).
Proof. cbv zeta. split; [vm_compute; reflexivity|]. split; [vm_compute; reflexivity|]. split; [|exact I]. vm_compute. repeat constructor. Qed.
