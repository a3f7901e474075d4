(** Calls over a network that takes what is written in parts (C114). *)
From Coq Require Import String ZArith NArith List Lia Bool.
From Coq Require Import Init.Byte.
From Verif Require Import Prelude Types Marshal WireSpec Catalogue Errors Tpm2b Client ClientSpec ClientProofs ClientFacts
  Tcp TcpSpec TcpProofs Remote RemoteFacts Controls ControlsFacts Crowd CrowdProofs Cut Trickle TrickleFacts Meagre.
Import ListNotations.
Open Scope Z_scope.

(** ** The simulator may get its bytes in parts *)
Lemma front_more h b q rest more : front h b = Some (q, rest) -> front h (b ++ more) = Some (q, rest ++ more).
Proof. intros F. apply c81_understood in F as [Sp ->]. apply c81_understood. split; [exact Sp|now rewrite app_assoc]. Qed.
Lemma front_shorter h b q rest : front h b = Some (q, rest) -> (length rest < length b)%nat.
Proof.
  intros F. apply c81_understood in F as [_ ->]. pose proof (asked_something q). rewrite app_length.
  destruct (spelled q); [contradiction|cbn; lia].
Qed.
Lemma work_fuel {S} (f : machine S) h : forall fuel fuel' x, (length (port h (got x)) <= fuel)%nat -> (length (port h (got x)) <= fuel')%nat ->
  work f fuel h x = work f fuel' h x.
Proof.
  assert (N : forall fuel x, length (port h (got x)) = 0%nat -> work f fuel h x = x).
  { intros [|fuel] x L; [reflexivity|]. cbn [work]. destruct (port h (got x)); [now rewrite front_nothing|discriminate]. }
  induction fuel as [|fuel IH]; intros [|fuel'] x L L'; try (rewrite !N by lia; reflexivity).
  cbn [work]. destruct (front h (port h (got x))) as [[q rest]|] eqn:F; [|reflexivity].
  apply front_shorter in F. destruct (f (unit_ x) q) as [s' r]. apply IH; cbn [got]; rewrite port_same; lia.
Qed.
Definition adds {S} (h : bool) (more : list byte) (x : bench S) : bench S :=
  {| unit_ := unit_ x; got := set_port h (port h (got x) ++ more) (got x); due := due x |}.
Lemma work_adds {S} (f : machine S) h more : forall fuel x fuel', (length (port h (got x)) <= fuel)%nat ->
  (length (port h (got x) ++ more) <= fuel')%nat ->
  work f fuel' h (adds h more x)
  = work f (length (port h (got (work f fuel h x)) ++ more)) h (adds h more (work f fuel h x)).
Proof.
  induction fuel as [|fuel IH]; intros x fuel' L L'.
  { cbn [work]. apply work_fuel; unfold adds; cbn [got]; rewrite port_same; [exact L'|lia]. }
  destruct (front h (port h (got x))) as [[q rest]|] eqn:F.
  - pose proof (front_shorter _ _ _ _ F) as Sh. rewrite app_length in L'.
    destruct fuel' as [|fuel']; [lia|]. cbn [work]. unfold adds at 1. cbn [got unit_ due].
    rewrite port_same, (front_more _ _ _ _ more F), F. destruct (f (unit_ x) q) as [s' r] eqn:Ef.
    set (y := {| unit_ := s'; got := set_port h rest (got x); due := set_port h (port h (due x) ++ framed q r) (due x) |}).
    rewrite <- (IH y fuel'); [|unfold y; cbn [got]; rewrite port_same; lia|unfold y; cbn [got]; rewrite port_same, app_length; lia].
    unfold y, adds. cbn [got unit_ due]. rewrite Ef, !port_same, !set_twice. reflexivity.
  - assert (W : work f (Datatypes.S fuel) h x = x) by (cbn [work]; now rewrite F). rewrite W.
    apply work_fuel; unfold adds; cbn [got]; rewrite port_same; [exact L'|lia].
Qed.
Lemma arrives_app {S} (f : machine S) h a b x : arrives f h (a ++ b) x = arrives f h b (arrives f h a x).
Proof.
  unfold arrives at 1. fold (adds h (a ++ b) x).
  transitivity (work f (length (port h (got (adds h a x)) ++ b)) h (adds h b (adds h a x))).
  - unfold adds. cbn [got unit_ due]. now rewrite port_same, set_twice, !app_assoc.
  - rewrite (work_adds f h b (length (port h (got x) ++ a))); [|unfold adds; cbn [got]; rewrite port_same; lia|lia].
    reflexivity.
Qed.

Section Over.
Context {R S : Type} (takes : appetite R S) (pieces : S -> nat -> nat) (f : machine S).
Local Notation low := (meagre takes pieces f).
Local Notation full := (wires pieces f).
Definition alike {A} (m : io (R * bench S) A) (m' : io (bench S) A) : Prop :=
  forall r x, partial_only (got x) ->
  (exists r', m (r, x) = ((r', fst (m' x)), snd (m' x))) /\ partial_only (got (fst (m' x))).
Lemma alike_bind {A B} (m : io (R * bench S) A) m' (k : A -> io (R * bench S) B) k' :
  alike m m' -> (forall a, alike (k a) (k' a)) -> alike (io_bind m k) (io_bind m' k').
Proof.
  intros M K r x P. destruct (M r x P) as ((r1 & E) & P1). unfold io_bind. rewrite E.
  destruct (m' x) as [x1 [a|e|]]; cbn [fst snd] in *; [now apply K|eauto..].
Qed.
Lemma alike_ret {A} (a : A) : alike (io_ret a) (io_ret a).
Proof. intros r x P. split; [exists r; reflexivity|exact P]. Qed.
Lemma alike_err {A} e : alike (@io_err _ A e) (io_err e).
Proof. intros r x P. split; [exists r; reflexivity|exact P]. Qed.
Lemma alike_loop h : forall fuel r x n, read_loop low fuel h n (r, x)
  = (let '(x', bs, o) := read_loop full fuel h n x in ((r, x'), bs, o)).
Proof.
  induction fuel as [|fuel IH]; intros r x [|n]; try reflexivity.
  cbn [read_loop]. change (read low (r, x) h (Datatypes.S n)) with (let '(y, o) := read full x h (Datatypes.S n) in ((r, y), o)).
  destruct (read full x h (Datatypes.S n)) as [y [[|b bs]|e|]]; try reflexivity.
  destruct (_ <? _)%nat; [reflexivity|]. rewrite IH. destruct (read_loop full fuel h _ y) as [[x' rest] o]. reflexivity.
Qed.
Lemma full_got h : forall fuel n x, got (fst (fst (read_loop full fuel h n x))) = got x.
Proof.
  induction fuel as [|fuel IH]; intros [|n] x; try reflexivity. cbn [read_loop read wires].
  destruct (firstn _ _) as [|b bs]; [reflexivity|]. destruct (_ <? _)%nat; [reflexivity|].
  match goal with |- context [read_loop full fuel h ?m ?y] => specialize (IH m y); destruct (read_loop full fuel h m y) as [[x' rest] o] end.
  exact IH.
Qed.
Lemma alike_bytes h n : alike (read_bytes low h n) (read_bytes full h n).
Proof.
  intros r x P. unfold read_bytes, read_exact. rewrite alike_loop. pose proof (full_got h n n x) as G.
  destruct (read_loop full n h n x) as [[x' bs] o]. cbn [fst snd] in *. split; [exists r; reflexivity|now rewrite G].
Qed.
Lemma alike_u32 h : alike (read_u32 low h) (read_u32 full h).
Proof. apply alike_bind; [apply alike_bytes|]. intros bs. apply alike_ret. Qed.
Lemma alike_check h : alike (check_response_end low h) (check_response_end full h).
Proof. apply alike_bind; [apply alike_u32|]. intros z. destruct (z =? 0); [apply alike_ret|apply alike_err]. Qed.
Lemma alike_shut h : alike (fun w => shutdown low w h) (fun w => shutdown full w h).
Proof. intros r x P. split; [exists r; reflexivity|exact P]. Qed.
Lemma low_loop h : forall fuel buf r x, (length buf <= fuel)%nat -> partial_only (got x) ->
  exists r', write_loop low fuel h buf (r, x) = ((r', arrives f h buf x), Ok tt).
Proof.
  induction fuel as [|fuel IH]; intros [|b buf] r x L P; cbn [length] in L; try lia.
  1,2: exists r; unfold arrives; rewrite app_nil_r, set_same;
    (assert (W : forall m, work f m h x = x) by (intros [|m]; cbn [work]; rewrite ?P; reflexivity));
    destruct x as [u g d]; cbn [unit_ got due] in *; rewrite W; reflexivity.
  cbn [write_loop write meagre]. cbn [fst snd]. destruct (takes r x h (b :: buf)) as [r1 k]. unfold bite.
  set (n := Nat.min (Nat.max 1 k) (length (b :: buf))).
  assert (Ln : (1 <= n <= length (b :: buf))%nat) by (unfold n; cbn [length]; lia). clearbody n.
  destruct n as [|n]; [lia|]. destruct (Nat.ltb_spec (length (b :: buf)) (Datatypes.S n)); [lia|].
  destruct (IH (skipn (Datatypes.S n) (b :: buf)) r1 (arrives f h (firstn (Datatypes.S n) (b :: buf)) x)) as (r' & E).
  { rewrite skipn_length. cbn [length] in *. lia. }
  { destruct (arrives_reads f h (firstn (Datatypes.S n) (b :: buf)) x P) as [_ ->]. now apply left_over_partial. }
  exists r'. rewrite E, <- arrives_app, firstn_skipn. reflexivity.
Qed.
Lemma full_all h buf x : partial_only (got x) -> write_all full h buf x = (arrives f h buf x, Ok tt).
Proof.
  intros P. unfold write_all. destruct buf as [|b buf].
  - unfold arrives. rewrite app_nil_r, set_same.
    assert (W : forall m, work f m h x = x) by (intros [|m]; cbn [work]; rewrite ?P; reflexivity).
    destruct x as [u g d]; cbn [unit_ got due] in *; rewrite W. reflexivity.
  - cbn [write_loop length write wires]. rewrite Nat.ltb_irrefl.
    replace (skipn (Datatypes.S (length buf)) (b :: buf)) with (@nil byte) by (symmetry; apply skipn_all2; cbn [length]; lia).
    destruct (length buf); reflexivity.
Qed.
Lemma arrives_partial h buf x : partial_only (got x) -> partial_only (got (arrives f h buf x)).
Proof. intros P. destruct (arrives_reads f h buf x P) as [_ ->]. now apply left_over_partial. Qed.
Lemma alike_all h buf : alike (write_all low h buf) (write_all full h buf).
Proof.
  intros r x P. rewrite full_all by exact P. cbn [fst snd]. split; [|now apply arrives_partial].
  apply low_loop; [lia|exact P].
Qed.
Lemma low_whole h buf r x r' k : takes r x h buf = (r', k) -> (length buf <= k)%nat ->
  write_whole low h buf (r, x) = ((r', arrives f h buf x), Ok tt).
Proof.
  intros T L. unfold write_whole, io_bind. cbn [write meagre fst snd]. rewrite T. unfold bite.
  replace (Nat.min (Nat.max 1 k) (length buf)) with (length buf) by lia. now rewrite firstn_all, Nat.eqb_refl.
Qed.
Lemma low_short h buf r x r' k : takes r x h buf = (r', k) -> (Nat.max 1 k < length buf)%nat ->
  write_whole low h buf (r, x) = ((r', arrives f h (firstn (Nat.max 1 k) buf) x), Err WriteZero).
Proof.
  intros T L. unfold write_whole, io_bind. cbn [write meagre fst snd]. rewrite T. unfold bite.
  rewrite Nat.min_l by lia. destruct (Nat.eqb_spec (Nat.max 1 k) (length buf)); [lia|reflexivity].
Qed.
Lemma alike_whole h buf : takes_frames takes -> (4 < length buf)%nat -> alike (write_whole low h buf) (write_whole full h buf).
Proof.
  intros T L r x P. specialize (T r x h buf L). destruct (takes r x h buf) as [r' k] eqn:E. cbn [snd] in T.
  rewrite (low_whole h buf r x r' k E T). unfold write_whole, io_bind. cbn [write wires]. rewrite Nat.eqb_refl.
  split; [exists r'; reflexivity|]. cbn [fst io_ret]. now apply (arrives_partial h buf).
Qed.
Lemma alike_signal l g : alike (platform_signal low (port_ends l) g) (platform_signal full (port_ends l) g).
Proof. apply alike_bind; [apply alike_all|]. intros _. apply alike_check. Qed.
Lemma alike_end l code : alike (end_both low (port_ends l) code) (end_both full (port_ends l) code).
Proof.
  apply alike_bind; [apply alike_all|]. intros _. apply alike_bind; [apply alike_shut|]. intros _.
  apply alike_bind; [apply alike_all|]. intros _. apply alike_shut.
Qed.
Lemma alike_transact l r x command response : takes_frames takes -> partial_only (got x) ->
  exists r', tcp_transact low (port_ends l) (r, x) command response
    = (let '(x', rsp, o) := tcp_transact full (port_ends l) x command response in ((r', x'), rsp, o))
    /\ partial_only (got (fst (fst (tcp_transact full (port_ends l) x command response)))).
Proof.
  intros T P. unfold tcp_transact. destruct (2 ^ 32 <=? _); [exists r; auto|]. cbn [tpm_tcp port_ends locality].
  match goal with |- context [io_bind (write_whole low true ?b) ?k] => set (buf := b) end.
  assert (Al : alike (io_bind (write_whole low true buf) (fun _ => read_u32 low true))
                     (io_bind (write_whole full true buf) (fun _ => read_u32 full true))).
  { apply alike_bind; [apply alike_whole; [exact T|]|intros _; apply alike_u32].
    unfold buf, u32_bytes. rewrite !app_length, !be_bytes_length. lia. }
  destruct (Al r x P) as ((r1 & E1) & P1). rewrite E1.
  destruct (io_bind (write_whole full true buf) (fun _ => read_u32 full true) x) as [x1 [len|e|]]; cbn [fst snd] in *;
    [|exists r1; auto..].
  destruct (_ <? len); [exists r1; auto|]. unfold read_exact. rewrite alike_loop.
  pose proof (full_got true (Z.to_nat len) (Z.to_nat len) x1) as G.
  destruct (read_loop full (Z.to_nat len) true (Z.to_nat len) x1) as [[x2 bs] o]. cbn [fst] in G.
  assert (P2 : partial_only (got x2)) by now rewrite G.
  destruct o as [u|e|]; [|exists r1; auto..].
  destruct (alike_check true r1 x2 P2) as ((r3 & E3) & P3). rewrite E3.
  destruct (check_response_end full true x2) as [x3 o3]. exists r3. auto.
Qed.
Definition may_pass (x : call) : Prop := codes_only x = true \/ takes_frames takes.
Lemma alike_operation l o r x : may_pass (Call o) -> partial_only (got x) ->
  exists r', perform low (port_ends l) o (r, x)
    = (let '(t, x', a) := perform full (port_ends l) o x in (t, (r', x'), a))
    /\ partial_only (got (snd (fst (perform full (port_ends l) o x)))).
Proof.
  intros M P.
  assert (U : forall m m', alike m m' -> exists r', (port_ends l, fst (unit_answer (m (r, x))), snd (unit_answer (m (r, x))))
    = (let '(t, x', a) := (port_ends l, fst (unit_answer (m' x)), snd (unit_answer (m' x))) in (t, (r', x'), a))
    /\ partial_only (got (snd (fst (port_ends l, fst (unit_answer (m' x)), snd (unit_answer (m' x))))))).
  { intros m m' Al. destruct (Al r x P) as ((r' & E) & P'). exists r'. rewrite E. unfold unit_answer.
    destruct (m' x) as [x' a]. cbn [fst snd] in *. auto. }
  assert (V : forall A (g : A -> answer) m m', alike m m' ->
    exists r', (port_ends l, fst (let '(w', a) := m (r, x) in (w', omap g a)), snd (let '(w', a) := m (r, x) in (w', omap g a)))
    = (let '(t, x', a) := (port_ends l, fst (let '(w', a) := m' x in (w', @omap io_error A answer g a)), snd (let '(w', a) := m' x in (w', @omap io_error A answer g a))) in (t, (r', x'), a))
    /\ partial_only (got (snd (fst (port_ends l, fst (let '(w', a) := m' x in (w', @omap io_error A answer g a)), snd (let '(w', a) := m' x in (w', @omap io_error A answer g a))))))).
  { intros A g m m' Al. destruct (Al r x P) as ((r' & E) & P'). exists r'. rewrite E.
    destruct (m' x) as [x' a]. cbn [fst snd] in *. auto. }
  assert (Ac : forall h (m : io (R * bench S) unit) m', alike m m' -> alike (io_bind m (fun _ => check_response_end low h)) (io_bind m' (fun _ => check_response_end full h))).
  { intros h m m' Al. apply alike_bind; [exact Al|]. intros _. apply alike_check. }
  assert (F : codes_only (Call o) = false -> takes_frames takes) by (intros C; destruct M as [X|X]; [congruence|exact X]).
  assert (L8 : forall a b, (4 < length (u32_bytes a ++ u32_bytes b))%nat).
  { intros a b. unfold u32_bytes. rewrite app_length, !be_bytes_length. lia. }
  destruct o as [command response|data|v|z|g| | | |z|z|z|l'| |]; cbn [perform codes_only] in *; cbv zeta in *.
  - destruct (alike_transact l r x command response (F eq_refl) P) as (r' & E & P'). exists r'. rewrite E.
    destruct (tcp_transact full (port_ends l) x command response) as [[x' rsp] a]. auto.
  - apply U. apply alike_bind; [apply alike_all|]. intros _. apply alike_bind; [apply alike_check|]. intros _.
    apply alike_bind; [apply alike_whole; [auto|unfold u32_bytes; rewrite !app_length, !be_bytes_length; lia]|]. intros _.
    apply alike_bind; [apply alike_check|]. intros _. apply Ac, alike_all.
  - apply V. apply alike_bind; [apply alike_whole; auto|]. intros _. apply alike_bind; [apply alike_bytes|]. intros bs.
    apply alike_bind; [apply alike_check|]. intros _. apply alike_ret.
  - apply U, Ac, alike_whole; auto.
  - apply U, alike_signal.
  - apply U. do 3 (apply alike_bind; [apply alike_signal|]; intros _). apply alike_signal.
  - apply U, Ac, alike_all.
  - apply (V _ (fun '(x1, x2, x3, x4) => Sizes x1 x2 x3 x4)). apply alike_bind; [apply alike_all|]. intros _.
    apply alike_bind; [apply alike_u32|]. intros n. destruct (negb _); [apply alike_err|].
    apply alike_bind; [apply alike_bytes|]. intros bs. apply alike_bind; [apply alike_check|]. intros _. apply alike_ret.
  - apply V. apply alike_bind; [apply alike_whole; auto|]. intros _. apply alike_bind; [apply alike_u32|]. intros bs.
    apply alike_bind; [apply alike_check|]. intros _. apply alike_ret.
  - apply U, Ac, alike_whole; auto.
  - apply U, Ac, alike_whole; auto.
  - exists r. auto.
  - apply U, alike_end.
  - apply U, alike_end.
Qed.
End Over.

Lemma alike_calls {R S} (takes : appetite R S) pieces (f : machine S) : forall calls l r x,
  Forall (may_pass takes) calls -> partial_only (got x) ->
  exists r', calls_over (meagre takes pieces f) (port_ends l) (r, x) calls
    = (let '(x', rs) := wired pieces f (port_ends l) x calls in ((r', x'), rs)).
Proof.
  induction calls as [|c calls IH]; intros l r x M P; [exists r; reflexivity|].
  inversion M as [|? ? Mc M']; subst. destruct c as [o|c cmd handles a]; cbn [calls_over wired].
  - destruct (alike_operation takes pieces f l o r x Mc P) as (r1 & E & P1). rewrite E.
    assert (T : exists l', fst (fst (perform (wires pieces f) (port_ends l) o x)) = port_ends l').
    { destruct o; cbn [perform]; try (exists l; reflexivity).
      - exists l. destruct (tcp_transact _ _ _ _ _) as [[? ?] ?]. reflexivity.
      - eexists. reflexivity. }
    destruct (perform (wires pieces f) (port_ends l) o x) as [[t x1] a]. cbn [fst snd] in *. destruct T as (l' & ->).
    destruct (IH l' r1 x1 M' P1) as (r2 & E2). rewrite E2. exists r2.
    destruct (wired pieces f (port_ends l') x1 calls) as [x2 rs]. reflexivity.
  - assert (T : takes_frames takes) by (destruct Mc as [X|X]; [discriminate|exact X]).
    unfold run_command_with_handles. destruct (build_command c cmd handles a) as [bytes|e|].
    2,3: destruct (IH l r x M' P) as (r2 & E2); rewrite E2; exists r2; destruct (wired pieces f (port_ends l) x calls) as [x2 rs]; reflexivity.
    cbn [transact tcp_connection].
    destruct (alike_transact takes pieces f l r x bytes (repeat x00 RESP_BUFFER_SIZE) T P) as (r1 & E & P1). rewrite E.
    destruct (tcp_transact (wires pieces f) (port_ends l) x bytes (repeat x00 RESP_BUFFER_SIZE)) as [[x1 rsp] o]. cbn [fst] in P1.
    destruct (IH l r1 x1 M' P1) as (r2 & E2).
    destruct o; rewrite E2; exists r2; destruct (wired pieces f (port_ends l) x1 calls) as [x2 rs]; reflexivity.
Qed.

(** ** C114 *)

(** A session of calls that send codes only - signals, reinit, failure mode,
    sizes, the end of the session -, or of any calls if the network takes whole
    whatever is longer than a code: every result is the machine's own, and the
    machine ends in the same state, as over a network that takes everything. *)
Theorem c114_session R S (takes : appetite R S) pieces (f : machine S) l r s calls :
  well_spoken f -> modest f -> 0 <= l < 256 -> Forall call_ok calls ->
  Forall (fun x => codes_only x = true) calls \/ takes_frames takes ->
  exists r',
    calls_over (meagre takes pieces f) (port_ends l) (r, quiet s) calls
    = ((r', quiet (fst (unwired f l s calls))), snd (unwired f l s calls)).
Proof.
  intros W M Hl Hc H.
  assert (Mp : Forall (may_pass takes) calls).
  { destruct H as [H|H].
    - eapply Forall_impl; [|exact H]. intros x Hx. now left.
    - apply Forall_forall. intros x _. now right. }
  destruct (alike_calls takes pieces f calls l r (quiet s) Mp nothing_kept) as (r' & E). exists r'.
  rewrite E, c81_session by assumption. reflexivity.
Qed.

(** Every other call that asks for one thing fails if its bytes are not all
    taken at once, the machine has done nothing, and the bytes taken wait for
    what is sent next (C113 says what becomes of them). *)
Theorem c114_short R S (takes : appetite R S) pieces (f : machine S) l o q r s r' k :
  0 <= l < 256 -> operation_ok o -> codes_only (Call o) = false -> requests_of l (Call o) = [q] ->
  takes r (quiet s) (on_port q) (spelled q) = (r', k) -> (Nat.max 1 k < length (spelled q))%nat ->
  perform (meagre takes pieces f) (port_ends l) o (r, quiet s)
  = (port_ends l,
     (r', {| unit_ := s; got := set_port (on_port q) (firstn (Nat.max 1 k) (spelled q)) ([], []); due := ([], []) |}),
     Err WriteZero).
Proof.
  intros Hl Ho C Q T L.
  assert (Sp : speakable (on_port q) q).
  { pose proof (requests_speakable l (Call o) Hl Ho) as X. rewrite Q in X. now inversion X. }
  assert (A : forall n, (n < length (spelled q))%nat -> arrives f (on_port q) (firstn n (spelled q)) (quiet s)
    = {| unit_ := s; got := set_port (on_port q) (firstn n (spelled q)) ([], []); due := ([], []) |}).
  { intros n Ln. unfold arrives, quiet. cbn [unit_ got due].
    replace (port (on_port q) ([], [])) with (@nil byte) by (destruct (on_port q); reflexivity). cbn [app].
    assert (N : front (on_port q) (firstn n (spelled q)) = None).
    { destruct (front (on_port q) (firstn n (spelled q))) as [[q' rest]|] eqn:F; [|reflexivity].
      pose proof (front_more _ _ _ _ (skipn n (spelled q)) F) as F'. rewrite firstn_skipn in F'.
      assert (F2 : front (on_port q) (spelled q) = Some (q, [])) by (apply c81_understood; rewrite app_nil_r; auto).
      rewrite F' in F2. injection F2 as _ X. apply app_eq_nil in X as [_ X].
      apply (f_equal (@length byte)) in X. rewrite skipn_length in X. cbn in X. lia. }
    destruct (length (firstn n (spelled q))); cbn [work got]; [reflexivity|]. now rewrite port_same, N. }
  rewrite <- A by exact L.
  assert (G : forall B h bytes (k' : unit -> io (R * bench S) B), h = on_port q -> bytes = spelled q ->
    io_bind (write_whole (meagre takes pieces f) h bytes) k' (r, quiet s)
    = ((r', arrives f (on_port q) (firstn (Nat.max 1 k) (spelled q)) (quiet s)), Err WriteZero)).
  { intros B h bytes k' -> ->. unfold io_bind. now rewrite (low_short takes pieces f _ _ _ _ _ _ T L). }
  destruct o as [command response|data|v|z|g| | | |z|z|z|l'| |]; try discriminate; injection Q as <-; cbn [operation_ok] in Ho;
    cbn [perform]; cbv zeta.
  - unfold tcp_transact. replace (2 ^ 32 <=? Z.of_nat (length command)) with false by (symmetry; apply Z.leb_gt; exact Ho).
    rewrite G by reflexivity. reflexivity.
  - unfold remote_handshake. rewrite G by reflexivity. reflexivity.
  - unfold set_alternative_result. rewrite G by reflexivity. reflexivity.
  - unfold act_get_signaled. rewrite G by reflexivity. reflexivity.
  - unfold set_firmware_hash. rewrite G by reflexivity. reflexivity.
  - unfold set_firmware_svn. rewrite G by reflexivity. reflexivity.
Qed.

(** One byte at a time: a cold restart of the TPM works, and so does the end of
    the session; a handshake fails after its first byte. *)
Definition polite : machine (list request) := fun s q =>
  (s ++ [q], Some (match q with AskSizes => repeat x00 16 | AskHandshake _ => repeat x00 8 | AskAct _ => repeat x00 4 | _ => [] end)).
Example c114_example :
  let one : appetite unit (list request) := fun r _ _ _ => (r, 1%nat) in
  let calls := [Call Reinit; Call ResponseSizes; Call (Signal Reset); Call EndSession] in
  well_spoken polite /\ modest polite /\ Forall call_ok calls /\ forallb codes_only calls = true
  /\ (let '(w, rs) := calls_over (meagre one (fun _ n => n) polite) (port_ends 0) (tt, quiet []) calls in
      rs = [Called (Ok Done); Called (Ok (Sizes 0 0 0 0)); Called (Ok Done); Called (Ok Done)]
      /\ unit_ (snd w) = [AskSignal NvOff; AskSignal PowerOff; AskSignal PowerOn; AskSignal NvOn; AskSizes;
                          AskSignal Reset; AskEnd true; AskEnd false])
  /\ perform (meagre one (fun _ n => n) polite) (port_ends 0) (Handshake 1) (tt, quiet [])
     = (port_ends 0, (tt, {| unit_ := []; got := ([x00], []); due := ([], []) |}), Err WriteZero).
Proof.
  cbv zeta. split; [|split; [|split; [|split; [reflexivity|split; [vm_compute; auto|reflexivity]]]]].
  - intros s q s' r E. injection E as <- <-. destruct q; cbn; auto; lia.
  - intros s l cmd s' r E. injection E as <- <-. cbn. lia.
  - repeat constructor; cbn; auto.
Qed.
(** And one that cuts codes into two parts: every call works over it. *)
Example c114_frames_example :
  let halves : appetite unit (list request) := fun r _ _ buf => (r, if (length buf =? 4)%nat then 2%nat else length buf) in
  takes_frames halves
  /\ snd (calls_over (meagre halves (fun _ n => n) polite) (port_ends 0) (tt, quiet [])
            [Call (Hcrtm [x61; x62]); Call (Handshake 1); Call (Signal NvOn)])
     = [Called (Ok Done); Called (Ok (Versions 0 0)); Called (Ok Done)].
Proof.
  cbv zeta. split; [|vm_compute; reflexivity].
  intros r x h buf L. cbn [snd]. destruct (Nat.eqb_spec (length buf) 4); lia.
Qed.
