(** Several clients of one simulator (C101). *)
From Coq Require Import String ZArith NArith List Lia Bool.
From Coq Require Import Init.Byte.
From Verif Require Import Prelude Types Marshal WireSpec Catalogue Errors Tpm2b Client ClientSpec ClientProofs ClientFacts
  Server ServerSpec ServerProofs ServerFacts EndToEnd EndToEndFacts Tcp TcpSpec TcpProofs Remote RemoteFacts Clients.
Import ListNotations.
Open Scope Z_scope.

(** ** The calls are those of Tcp.v *)
Section Same.
Context {W H C : Type} (sys : world W H C).
Lemma run_andthen {A B} h (p : prog A) (f : A -> prog B) w :
  run_prog sys h (andthen p f) w = let '(w', a) := run_prog sys h p w in run_prog sys h (f a) w'.
Proof.
  revert w. induction p as [a|bs k IH|n k IH]; intros w; cbn [andthen run_prog]; [reflexivity| |].
  - destruct (write sys w h bs) as [w' o]. apply IH.
  - destruct (read sys w h n) as [w' o]. apply IH.
Qed.
Lemma run_write h bytes w : run_prog sys h (write_prog bytes) w = write_whole sys h bytes w.
Proof.
  unfold write_prog, write_whole, io_bind. cbn [run_prog]. destruct (write sys w h bytes) as [w' [n|e|]]; try reflexivity.
  destruct (n =? length bytes)%nat; reflexivity.
Qed.
Lemma run_read h : forall fuel n w,
  run_prog sys h (read_prog fuel n) w = let '(w', bs, r) := read_loop sys fuel h n w in (w', (bs, r)).
Proof.
  induction fuel as [|fuel IH]; intros [|n] w; try reflexivity.
  cbn [read_prog read_loop run_prog]. destruct (read sys w h (S n)) as [w' [[|b bs]|e|]]; try reflexivity.
  destruct (S n <? length (b :: bs))%nat; [reflexivity|].
  rewrite run_andthen, IH. destruct (read_loop sys fuel h (S n - length (b :: bs)) w') as [[w'' rest] r]. reflexivity.
Qed.
Lemma run_u32 h w : run_prog sys h u32_prog w = read_u32 sys h w.
Proof.
  unfold u32_prog, read_u32, io_bind, read_bytes, read_exact. rewrite run_andthen, run_read.
  destruct (read_loop sys 4 h 4 w) as [[w' bs] [[]|e|]]; reflexivity.
Qed.
Lemma run_transact (t : tcp H) w cmd rsp :
  run_prog sys (tpm_tcp t) (transact_prog (locality t) cmd rsp) w
  = let '(w', rsp', r) := tcp_transact sys t w cmd rsp in (w', (rsp', r)).
Proof.
  unfold transact_prog, tcp_transact. destruct (2 ^ 32 <=? Z.of_nat (length cmd)); [reflexivity|].
  rewrite run_andthen, run_write. unfold io_bind at 1.
  destruct (write_whole sys (tpm_tcp t) _ w) as [w1 [[]|e|]]; try reflexivity.
  unfold reply_prog. rewrite run_andthen, run_u32. destruct (read_u32 sys (tpm_tcp t) w1) as [w2 [len|e|]]; try reflexivity.
  destruct (Z.of_nat (length rsp) <? len); [reflexivity|]. unfold read_exact.
  rewrite run_andthen, run_read. destruct (read_loop sys (Z.to_nat len) (tpm_tcp t) (Z.to_nat len) w2) as [[w3 bs] [[]|e|]]; try reflexivity.
  rewrite run_andthen, run_u32. unfold check_response_end, io_bind.
  destruct (read_u32 sys (tpm_tcp t) w3) as [w4 [e|e|]]; try reflexivity. destruct (e =? 0); reflexivity.
Qed.
End Same.

(** ** Reading an answer, in whatever pieces *)
Inductive yields {A} : prog A -> list byte -> A -> list byte -> Prop :=
| Y_give a q : yields (Give a) q a q
| Y_read n k q a q' : (0 < n)%nat -> q <> [] ->
    (forall m, (1 <= m)%nat -> (m <= Nat.min n (length q))%nat -> yields (k (Ok (firstn m q))) (skipn m q) a q') ->
    yields (DoRead n k) q a q'.
Lemma yields_then {A B} (p : prog A) (f : A -> prog B) q a q' b q'' :
  yields p q a q' -> yields (f a) q' b q'' -> yields (andthen p f) q b q''.
Proof.
  induction 1 as [a q|n k q a q' Hn Hq _ IH]; intros Y; cbn [andthen]; [exact Y|].
  apply Y_read; [assumption..|]. intros m M1 M2. apply IH; assumption.
Qed.
Lemma yields_read rest : forall fuel bs, (length bs <= fuel)%nat ->
  yields (read_prog fuel (length bs)) (bs ++ rest) (bs, Ok tt) rest.
Proof.
  induction fuel as [|fuel IH]; intros [|b bs] L; cbn [read_prog length]; try apply Y_give; [cbn in L; lia|].
  apply Y_read; [lia|discriminate|]. intros m M1 M2. rewrite app_length in M2. cbn [length] in M2, L.
  rewrite firstn_app_le, skipn_app_le by (cbn [length]; lia).
  assert (Lf : length (firstn m (b :: bs)) = m) by (rewrite firstn_length; cbn [length]; lia).
  destruct (firstn m (b :: bs)) as [|b' fs] eqn:Ef; [cbn in Lf; lia|]. rewrite Lf.
  replace (S (length bs) <? m)%nat with false by (symmetry; apply Nat.ltb_ge; lia).
  eapply yields_then.
  - replace (S (length bs) - m)%nat with (length (skipn m (b :: bs))) by (rewrite skipn_length; reflexivity).
    apply IH. rewrite skipn_length. cbn [length]. lia.
  - cbv beta iota. rewrite <- Ef, firstn_skipn. apply Y_give.
Qed.
Lemma yields_u32 z rest : u32_ok z -> yields u32_prog (u32be z ++ rest) (Ok z) rest.
Proof.
  intros Hz. unfold u32_prog. eapply yields_then.
  - pose proof (yields_read rest 4 (u32be z)) as Y. unfold u32be in Y at 1 2. rewrite be_bytes_length in Y. apply Y. lia.
  - cbv beta iota. cbn [omap]. rewrite u32be_val by exact Hz. apply Y_give.
Qed.
Lemma yields_reply r rsp : Z.of_nat (length r) < 2 ^ 32 -> (length r <= length rsp)%nat ->
  yields (reply_prog rsp) (u32be (Z.of_nat (length r)) ++ r ++ [x00; x00; x00; x00]) (overwrite r rsp, Ok (length r)) [].
Proof.
  intros H32 L. unfold reply_prog. eapply yields_then; [apply yields_u32; unfold u32_ok; lia|]. cbv beta iota.
  replace (Z.of_nat (length rsp) <? Z.of_nat (length r)) with false by (symmetry; apply Z.ltb_ge; lia).
  rewrite Nat2Z.id. cbv zeta. eapply yields_then; [apply yields_read; lia|]. cbv beta iota.
  eapply yields_then.
  - change [x00; x00; x00; x00] with (u32be 0). rewrite <- (app_nil_r (u32be 0)). apply yields_u32. split; [apply Z.le_refl|reflexivity].
  - cbv beta iota. cbn [Z.eqb]. apply Y_give.
Qed.

(** ** Calls when the connection is lost *)
Definition bad {A} (r : outcome io_error A) : Prop := forall v, r <> Ok v.
Lemma bad_err {A} e : @bad A (Err e).
Proof. discriminate. Qed.
Lemma bad_panic {A} : @bad A Panic.
Proof. discriminate. Qed.
(** From here on every call fails, so the result is no success. *)
Fixpoint doomed {A} (wrong : A -> Prop) (p : prog A) : Prop :=
  match p with
  | Give a => wrong a
  | DoWrite bytes k => (forall e, doomed wrong (k (Err e))) /\ doomed wrong (k (Ok (length bytes)))
  | DoRead _ k => (forall e, doomed wrong (k (Err e))) /\ doomed wrong (k (Ok []))
  end.
(** It can happen at every system call. *)
Fixpoint frail {A} (wrong : A -> Prop) (p : prog A) : Prop :=
  match p with
  | Give _ => True
  | DoWrite bytes k => ((forall e, doomed wrong (k (Err e))) /\ doomed wrong (k (Ok (length bytes)))) /\ forall o, frail wrong (k o)
  | DoRead _ k => ((forall e, doomed wrong (k (Err e))) /\ doomed wrong (k (Ok []))) /\ forall o, frail wrong (k o)
  end.
Lemma doomed_then {A B} (wa : A -> Prop) (wb : B -> Prop) (p : prog A) f :
  doomed wa p -> (forall a, wa a -> doomed wb (f a)) -> doomed wb (andthen p f).
Proof.
  intros D F. induction p as [a|bs k IH|n k IH]; cbn [andthen doomed] in *; [auto| |];
    (split; [intros e|]; apply IH; apply D).
Qed.
Lemma frail_then {A B} (wa : A -> Prop) (wb : B -> Prop) (p : prog A) f :
  frail wa p -> (forall a, wa a -> doomed wb (f a)) -> (forall a, frail wb (f a)) -> frail wb (andthen p f).
Proof.
  intros D F G. induction p as [a|bs k IH|n k IH]; cbn [andthen frail] in *; [auto| |];
    destruct D as [[D1 D2] D3]; (split; [split; [intros e|]; eapply doomed_then; eauto|]; intros o; apply IH; apply D3).
Qed.
Definition bad2 {A B} (x : A * outcome io_error B) : Prop := bad (snd x).
Lemma frail_read fuel : forall n, frail bad2 (read_prog fuel n).
Proof.
  induction fuel as [|fuel IH]; intros [|n]; cbn [read_prog frail]; auto.
  split; [split; [intros e|]; apply bad_err|]. intros [[|b bs]|e|]; cbn [frail]; auto.
  destruct (S n <? length (b :: bs))%nat; [exact I|]. eapply frail_then; [apply IH| |intros [rest r]; exact I].
  intros [rest r] W. exact W.
Qed.
Lemma doomed_read fuel n : (0 < n)%nat -> (0 < fuel)%nat -> doomed bad2 (read_prog fuel n).
Proof. destruct n, fuel; try lia. intros _ _. split; [intros e|]; apply bad_err. Qed.
Lemma frail_u32 : frail bad u32_prog.
Proof.
  unfold u32_prog. eapply frail_then; [apply frail_read| |intros [bs r]; exact I].
  intros [bs r] W. cbn [doomed]. intros v. destruct r as [[]|e|]; cbn [omap]; [|discriminate..]. exfalso. exact (W tt eq_refl).
Qed.
Lemma doomed_u32 : doomed bad u32_prog.
Proof.
  unfold u32_prog. eapply doomed_then; [apply doomed_read; lia|]. intros [bs r] W. cbn [doomed]. intros v.
  destruct r as [[]|e|]; cbn [omap]; [|discriminate..]. exfalso. exact (W tt eq_refl).
Qed.
Lemma frail_reply rsp : frail bad2 (reply_prog rsp).
Proof.
  unfold reply_prog. eapply frail_then; [apply frail_u32| |].
  - intros [len|e|] W; [exfalso; exact (W len eq_refl)|apply bad_err|apply bad_panic].
  - intros [len|e|]; try exact I. destruct (Z.of_nat (length rsp) <? len); [exact I|]. cbv zeta.
    eapply frail_then; [apply frail_read| |].
    + intros [bs [[]|e|]] W; [exfalso; exact (W tt eq_refl)|apply bad_err|apply bad_panic].
    + intros [bs [[]|e|]]; try exact I. eapply frail_then; [apply frail_u32| |intros o; exact I].
      intros [z|e|] W; [exfalso; exact (W z eq_refl)|apply bad_err|apply bad_panic].
Qed.
Lemma doomed_reply rsp : doomed bad2 (reply_prog rsp).
Proof.
  unfold reply_prog. eapply doomed_then; [apply doomed_u32|].
  intros [len|e|] W; [exfalso; exact (W len eq_refl)|apply bad_err|apply bad_panic].
Qed.

(** ** Clients and their sessions *)
(** A TPM that answers every request with a response that fits the client's
    buffer. *)
Definition always_answers {S} (f : tpm_device S) : Prop :=
  forall s l cmd, exists s' r, f s l cmd = (s', Some r) /\ Z.of_nat (length r) <= 4096.
Definition parsing (c : command) (a : area) (x : list byte * outcome io_error nat) : prog (outcome io_error (val * val)) :=
  let '(resp_buffer, r) := x in
  Give match r with
       | Ok _ => omap_err FromTss (parse_response c a resp_buffer)
       | Err e => Err e
       | Panic => Panic
       end.
Definition request_bytes (l : Z) (cmd : list byte) : list byte :=
  u32be 8 ++ be_bytes 1 l ++ u32be (Z.of_nat (length cmd)) ++ cmd.
Lemma parsing_bad c a x : bad2 x -> doomed bad (parsing c a x).
Proof.
  destruct x as [rsp [n|e|]]; intros W; [exfalso; exact (W n eq_refl)|apply bad_err|apply bad_panic].
Qed.
Lemma frail_replied c a rsp : frail bad (andthen (reply_prog rsp) (parsing c a)).
Proof. eapply frail_then; [apply frail_reply|apply parsing_bad|intros [x r]; exact I]. Qed.
Lemma doomed_replied c a rsp : doomed bad (andthen (reply_prog rsp) (parsing c a)).
Proof. eapply doomed_then; [apply doomed_reply|apply parsing_bad]. Qed.
Lemma doomed_command loc c cmd handles a : doomed bad (command_prog loc c cmd handles a).
Proof.
  unfold command_prog. destruct (build_command c cmd handles a) as [bytes|e|]; [|apply bad_err|apply bad_panic].
  unfold transact_prog. destruct (2 ^ 32 <=? Z.of_nat (length bytes)); [apply bad_err|].
  cbn [andthen write_prog doomed]. split; [intros e; apply bad_err|]. rewrite Nat.eqb_refl. apply (doomed_replied c a).
Qed.
Inductive follows (x : client) (z : session) : Prop :=
| F_rest : doing x = None -> sent x = [] -> coming x = [] -> todo x = left z -> got x = results z -> follows x z
| F_call c cmd handles a : doing x = Some (command_prog (level x) c cmd handles a) -> sent x = [] -> coming x = [] ->
    left z = Run c cmd handles a :: todo x -> results z = got x -> follows x z
| F_sent c cmd handles a bytes : build_command c cmd handles a = Ok bytes ->
    doing x = Some (andthen (reply_prog (repeat x00 RESP_BUFFER_SIZE)) (parsing c a)) ->
    sent x = request_bytes (level x) bytes -> coming x = [] ->
    left z = Run c cmd handles a :: todo x -> results z = got x -> follows x z
| F_reply p q r : doing x = Some p -> sent x = [] -> coming x = q -> yields p q r [] -> frail bad p ->
    left z = todo x -> results z = got x ++ [r] -> follows x z.
Definition adrift (x : client) (z : session) : Prop :=
  exists common errors more,
    got x = common ++ errors /\ results z = common ++ more /\ (length more <= 1)%nat /\ Forall bad errors
    /\ (sent x = []
        \/ (more = [] /\ exists c cmd handles a bytes rest, left z = Run c cmd handles a :: rest
             /\ build_command c cmd handles a = Ok bytes /\ sent x = request_bytes (at_level z) bytes))
    /\ (forall e, lost x = Some (Reset e) -> coming x = [])
    /\ match doing x with
       | None => coming x = []
       | Some p => (coming x = [] /\ doomed bad p)
                   \/ (exists r q, yields p (coming x ++ q) r [] /\ frail bad p /\ errors = [] /\ more = [r])
       end.
Definition sound (x : client) (z : session) : Prop :=
  0 <= at_level z < 256 /\ Forall step_ok (left z) /\
  match lost x with None => level x = at_level z /\ follows x z | Some _ => adrift x z end.

Lemma put_length {A} i (a : A) l : (i < length l)%nat -> length (put i a l) = length l.
Proof. intros L. unfold put. rewrite app_length, firstn_length. cbn [length]. rewrite skipn_length. lia. Qed.
Lemma nth_error_put {A} i (a : A) l : (i < length l)%nat -> nth_error (put i a l) i = Some a.
Proof.
  intros L. unfold put. rewrite nth_error_app2 by (rewrite firstn_length; lia). rewrite firstn_length, Nat.min_l by lia.
  now rewrite Nat.sub_diag.
Qed.
Lemma nth_error_put_other {A} i j (a : A) l : (i < length l)%nat -> j <> i -> nth_error (put i a l) j = nth_error l j.
Proof.
  intros L N. unfold put. destruct (Nat.lt_ge_cases j i) as [J|J].
  - rewrite nth_error_app1 by (rewrite firstn_length; lia). rewrite <- (firstn_skipn i l) at 2.
    rewrite nth_error_app1 by (rewrite firstn_length; lia). reflexivity.
  - rewrite nth_error_app2 by (rewrite firstn_length; lia). rewrite firstn_length, Nat.min_l by lia.
    rewrite <- (firstn_skipn (Datatypes.S i) l) at 2. rewrite (nth_error_app2 (firstn (S i) l)) by (rewrite firstn_length; lia).
    rewrite firstn_length, Nat.min_l by lia. replace (j - i)%nat with (S (j - S i)) by lia. reflexivity.
Qed.
Lemma Forall2_put {A B} (R : A -> B -> Prop) i a b la lb :
  Forall2 R la lb -> R a b -> Forall2 R (put i a la) (put i b lb).
Proof.
  intros F r. unfold put. apply Forall2_app.
  - revert i. induction F; intros [|i]; cbn [firstn]; constructor; auto.
  - constructor; [exact r|]. revert i. induction F; intros i; cbn [skipn]; [constructor|].
    destruct i; [exact F|apply IHF].
Qed.
Lemma Forall2_nth {A B} (R : A -> B -> Prop) i a la lb :
  Forall2 R la lb -> nth_error la i = Some a -> exists b, nth_error lb i = Some b /\ R a b.
Proof.
  intros F. revert i. induction F as [|x y la lb r F IH]; intros [|i] E; cbn in *; try discriminate; [|apply IH; exact E].
  injection E as <-. exists y. auto.
Qed.
Lemma put_same {A} i (a : A) l : nth_error l i = Some a -> put i a l = l.
Proof.
  revert i. induction l as [|x l IH]; intros [|i] E; cbn in *; try discriminate.
  - now injection E as <-.
  - unfold put. cbn [firstn app]. f_equal. exact (IH i E).
Qed.

Lemma at_hand {S} (f : tpm_device S) l s c cmd handles a bytes s' r :
  build_command c cmd handles a = Ok bytes -> f s l bytes = (s', Some r) -> (length r <= RESP_BUFFER_SIZE)%nat ->
  run_command_with_handles FromTss (local f l) s c cmd handles a
  = (s', omap_err FromTss (parse_response c a (overwrite r (repeat x00 RESP_BUFFER_SIZE)))).
Proof.
  intros B F L. unfold run_command_with_handles. rewrite B. cbn [transact local]. rewrite F, repeat_length.
  replace (RESP_BUFFER_SIZE <? length r)%nat with false by (symmetry; apply Nat.ltb_ge; exact L). reflexivity.
Qed.
Lemma command_prog_built loc c cmd handles a bytes : build_command c cmd handles a = Ok bytes ->
  Z.of_nat (length bytes) < 2 ^ 32 -> exists k,
  command_prog loc c cmd handles a = DoWrite (request_bytes loc bytes) k
  /\ k (Ok (length (request_bytes loc bytes))) = andthen (reply_prog (repeat x00 RESP_BUFFER_SIZE)) (parsing c a).
Proof.
  intros B L. unfold command_prog, transact_prog. rewrite B.
  replace (2 ^ 32 <=? Z.of_nat (length bytes)) with false by (symmetry; apply Z.leb_gt; exact L).
  cbn [andthen write_prog]. eexists. split; [reflexivity|]. cbv beta iota.
  change (u32_bytes SendCommand ++ be_bytes 1 loc ++ u32_bytes (Z.of_nat (length bytes)) ++ bytes) with (request_bytes loc bytes).
  rewrite Nat.eqb_refl. reflexivity.
Qed.

Lemma whole_run {S} (f : tpm_device S) s zs i z c cmd handles a rest s' r :
  nth_error zs i = Some z -> left z = Run c cmd handles a :: rest ->
  run_command_with_handles FromTss (local f (at_level z)) s c cmd handles a = (s', r) ->
  serially f [i] (s, zs) = (s', put i {| at_level := at_level z; left := rest; results := results z ++ [r] |} zs).
Proof. intros N L R. cbn [serially fold_left whole_step fst snd]. unfold whole_step. cbn [fst snd]. now rewrite N, L, R. Qed.

Definition mover (m : move) : nat := match m with Moves i _ | Serves i | Breaks i _ _ => i end.
Definition after_serving {S} (f : tpm_device S) (s : S) (x : client) : client :=
  let w := deal f 1 {| device := s; taken := sent x; waiting := coming x |} in
  {| level := level x; todo := todo x; doing := doing x; got := got x; sent := taken w;
     coming := match lost x with None => waiting w | Some _ => coming x end; lost := lost x |}.
Lemma after_nothing {S} (f : tpm_device S) s x : sent x = [] -> after_serving f s x = x.
Proof. intros E. unfold after_serving. rewrite E, deal_nothing. destruct x as [? ? ? ? ? ? [?|]]; cbn in *; now rewrite E. Qed.
Lemma replied c a r : (length r <= RESP_BUFFER_SIZE)%nat ->
  yields (andthen (reply_prog (repeat x00 RESP_BUFFER_SIZE)) (parsing c a))
    (u32be (Z.of_nat (length r)) ++ r ++ [x00; x00; x00; x00])
    (omap_err FromTss (parse_response c a (overwrite r (repeat x00 RESP_BUFFER_SIZE)))) [].
Proof.
  intros L. eapply yields_then; [apply yields_reply; [unfold RESP_BUFFER_SIZE in L; lia|rewrite repeat_length; exact L]|].
  cbn [parsing]. apply Y_give.
Qed.
Lemma moves_sound {S} (f : tpm_device S) y zs m : always_answers f -> Forall2 sound (clients y) zs ->
  exists more, (more = [] \/ more = [mover m]) /\ tpm (moves f y m) = fst (serially f more (tpm y, zs))
    /\ Forall2 sound (clients (moves f y m)) (snd (serially f more (tpm y, zs))).
Proof.
  intros Hf F.
  assert (Nobody : nth_error (clients y) (mover m) = None -> moves f y m = y)
    by (intros N; destruct m; cbn [mover moves] in *; now rewrite N).
  destruct (nth_error (clients y) (mover m)) as [x|] eqn:N; [|rewrite Nobody by reflexivity; exists []; auto 6].
  clear Nobody. destruct (Forall2_nth sound _ x _ _ F N) as (z & Nz & Hl & Hs & Fo).
  assert (Stay : forall x', sound x' z ->
    exists more, (more = [] \/ more = [mover m]) /\ tpm y = fst (serially f more (tpm y, zs)) /\
      Forall2 sound (put (mover m) x' (clients y)) (snd (serially f more (tpm y, zs)))).
  { intros x' H. exists []. split; [auto|]. split; [reflexivity|]. cbn [serially fold_left snd].
    rewrite <- (put_same _ z zs Nz). apply Forall2_put; assumption. }
  assert (Step : forall c cmd handles a rest s' r x', left z = Run c cmd handles a :: rest ->
    run_command_with_handles FromTss (local f (at_level z)) (tpm y) c cmd handles a = (s', r) ->
    sound x' {| at_level := at_level z; left := rest; results := results z ++ [r] |} ->
    exists more, (more = [] \/ more = [mover m]) /\ s' = fst (serially f more (tpm y, zs)) /\
      Forall2 sound (put (mover m) x' (clients y)) (snd (serially f more (tpm y, zs)))).
  { intros c cmd handles a rest s' r x' L R H. exists [mover m]. split; [auto|].
    rewrite (whole_run f (tpm y) zs (mover m) z c cmd handles a rest s' r Nz L R). split; [reflexivity|].
    apply Forall2_put; assumption. }
  destruct m as [i piece|i|i how keep]; cbn [mover moves] in *; rewrite N; cbn [tpm clients].
  - unfold client_moves. destruct (lost x) as [how|] eqn:Lx.
    + (* lost *)
      destruct Fo as (common & errors & more & G & R & Lm & Be & St & Re & Dg).
      assert (Errs : forall x', sent x' = sent x -> lost x' = Some how -> got x' = got x -> coming x' = [] ->
        match doing x' with None => True | Some p => doomed bad p end -> sound x' z).
      { intros x' E1 E2 E3 E4 D. split; [exact Hl|]. split; [exact Hs|]. rewrite E2. exists common, errors, more.
        rewrite E1, E3, E4. repeat (split; [assumption|]). split; [reflexivity|]. destruct (doing x'); auto. }
      destruct (doing x) as [p|] eqn:D.
      * destruct Dg as [[Ec Dg]|(r & q & Y & Fr & -> & ->)].
        -- destruct p as [r|bytes k|n k]; cbn [doomed] in Dg.
           ++ apply Stay. split; [exact Hl|]. split; [exact Hs|]. cbn [lost]. exists common, (errors ++ [r]), more.
              cbn [got sent doing coming lost]. rewrite G, app_assoc. repeat (split; [assumption || reflexivity|]).
              split; [apply Forall_app; auto|]. split; [exact St|]. split; [auto|exact Ec].
           ++ destruct how as [e|]; apply Stay, Errs; try reflexivity; try exact Lx; try exact Ec; cbn [goes_on doing]; apply Dg.
           ++ destruct how as [e|]; rewrite ?Ec; apply Stay, Errs; try reflexivity; try exact Lx; try exact Ec; cbn [goes_on doing]; apply Dg.
        -- assert (St' : sent x = []) by (destruct St as [St|[St _]]; [exact St|discriminate]).
           remember (@nil byte) as q0 eqn:Q0 in Y. remember (coming x ++ q)%list as q1 eqn:Q1 in Y.
           destruct Y as [r q'|n k q' r q'' Hn Hq Y]; subst.
           ++ symmetry in Q1. apply app_eq_nil in Q1. destruct Q1 as [Ec _].
              apply Stay. split; [exact Hl|]. split; [exact Hs|]. cbn [lost]. exists (common ++ [r]), [], [].
              cbn [got sent doing coming]. rewrite app_nil_r in *. rewrite G.
              repeat (split; [assumption || reflexivity || solve [auto]|]). auto.
           ++ cbn [frail] in Fr. destruct how as [e|].
              ** apply Stay, Errs; try reflexivity; try exact Lx; [exact (Re e Lx)|]. cbn [goes_on doing]. apply Fr.
              ** destruct (coming x) as [|b cs] eqn:Ec.
                 { apply Stay, Errs; try reflexivity; try exact Lx. cbn [goes_on doing]. apply Fr. }
                 apply Stay. split; [exact Hl|]. split; [exact Hs|]. cbn [goes_on lost]. rewrite Lx. exists common, [], [r].
                 cbn [goes_on got sent doing coming]. repeat (split; [assumption|]). split; [cbn [goes_on lost]; rewrite ?Lx; discriminate|].
                 right. set (m := Nat.min (Nat.min n (length (b :: cs))) (Nat.max 1 piece)).
                 assert (M : (1 <= m)%nat /\ (m <= length (b :: cs))%nat /\ (m <= n)%nat) by (unfold m; cbn [length]; lia).
                 exists r, q. specialize (Y m (proj1 M)). rewrite app_length in Y. specialize (Y ltac:(lia)).
                 rewrite firstn_app, skipn_app in Y. replace (m - length (b :: cs))%nat with 0%nat in Y by lia.
                 rewrite firstn_O, app_nil_r in Y. split; [exact Y|]. split; [apply Fr|]. auto.
      * destruct (todo x) as [|[l|c cmd handles a] rest].
        -- apply Stay. apply Errs; auto. now rewrite D.
        -- apply Stay. apply Errs; cbn; auto.
        -- apply Stay. apply Errs; auto. cbn [doing]. apply doomed_command.
    + destruct Fo as [El Fo].
      assert (Here : forall x', lost x' = None -> level x' = level x -> follows x' z -> sound x' z).
      { intros x' E1 E2 H. split; [exact Hl|]. split; [exact Hs|]. rewrite E1, E2. auto. }
      destruct Fo as [D E1 E2 T G|c cmd handles a D E1 E2 T G|c cmd handles a bytes B D E1 E2 T G|p q r D E1 E2 Y Fr T G].
      * rewrite D, T. destruct (left z) as [|[l|c cmd handles a] rest] eqn:Lz.
        -- apply Stay, Here; auto. apply F_rest; congruence.
        -- exists [i]. unfold serially. cbn [fold_left]. unfold whole_step. cbn [fst snd]. rewrite Nz, Lz. cbn [fst snd].
           split; [auto|]. split; [reflexivity|]. apply Forall2_put; [exact F|]. inversion Hs as [|? ? Hl' Hr]; subst.
           split; [exact Hl'|]. split; [exact Hr|]. cbn [lost]. split; [reflexivity|]. apply F_rest; auto.
        -- apply Stay, Here; auto. apply (F_call _ _ c cmd handles a); auto.
      * rewrite D. assert (Hs' := Hs). rewrite T in Hs'. inversion Hs' as [|? ? V Hr]; subst. cbn [step_ok] in V.
        pose proof (built_short c cmd handles a) as Sh.
        destruct (build_command c cmd handles a) as [bytes|e|] eqn:B.
        -- specialize (Sh bytes V eq_refl). destruct (command_prog_built (level x) c cmd handles a bytes B Sh) as (k & -> & Ek).
           apply Stay, Here; auto.
           apply (F_sent _ _ c cmd handles a bytes); cbn [goes_on doing sent coming todo got level];
             [exact B|now rewrite Ek|now rewrite E1|exact E2|exact T|exact G].
        -- unfold command_prog. rewrite B. eapply (Step c cmd handles a (todo x)); [exact T| |].
           { unfold run_command_with_handles. rewrite B. reflexivity. }
           split; [exact Hl|]. split; [exact Hr|]. cbn [lost level]. split; [exact El|].
           apply F_rest; cbn; auto. now rewrite G.
        -- unfold command_prog. rewrite B. eapply (Step c cmd handles a (todo x)); [exact T| |].
           { unfold run_command_with_handles. rewrite B. reflexivity. }
           split; [exact Hl|]. split; [exact Hr|]. cbn [lost level]. split; [exact El|].
           apply F_rest; cbn; auto. now rewrite G.
      * rewrite D, E2. cbn [andthen reply_prog u32_prog read_prog].
        apply Stay, Here; auto. apply (F_sent _ _ c cmd handles a bytes); auto.
      * rewrite D. remember (@nil byte) as q0 eqn:Q0 in Y. destruct Y as [r q|n k q r q' Hn Hq Y]; subst.
        -- apply Stay, Here; auto. apply F_rest; cbn; auto.
        -- destruct (coming x) as [|b q] eqn:E2; [congruence|]. apply Stay, Here; auto.
           eapply F_reply; cbn [goes_on doing sent coming todo got level]; [reflexivity|exact E1|reflexivity| |apply Fr|auto|exact G].
           apply Y; cbn [length] in *; lia.
  - fold (after_serving f (tpm y) x).
    assert (Same : sent x = [] ->
      exists more, (more = [] \/ more = [i]) /\ device (deal f 1 {| device := tpm y; taken := sent x; waiting := coming x |}) = fst (serially f more (tpm y, zs)) /\
        Forall2 sound (put i (after_serving f (tpm y) x) (clients y)) (snd (serially f more (tpm y, zs)))).
    { intros E. rewrite after_nothing, E, deal_nothing by exact E. cbn [device]. apply Stay. split; [exact Hl|]. split; [exact Hs|exact Fo]. }
    assert (Served : forall c cmd handles a bytes rest, left z = Run c cmd handles a :: rest ->
      build_command c cmd handles a = Ok bytes -> sent x = request_bytes (at_level z) bytes ->
      (forall r, (length r <= RESP_BUFFER_SIZE)%nat ->
        sound {| level := level x; todo := todo x; doing := doing x; got := got x; sent := [];
                 coming := match lost x with None => coming x ++ u32be (Z.of_nat (length r)) ++ r ++ [x00; x00; x00; x00]
                           | Some _ => coming x end; lost := lost x |}
          {| at_level := at_level z; left := rest;
             results := results z ++ [omap_err FromTss (parse_response c a (overwrite r (repeat x00 RESP_BUFFER_SIZE)))] |}) ->
      exists more, (more = [] \/ more = [i]) /\ device (deal f 1 {| device := tpm y; taken := sent x; waiting := coming x |}) = fst (serially f more (tpm y, zs)) /\
        Forall2 sound (put i (after_serving f (tpm y) x) (clients y)) (snd (serially f more (tpm y, zs)))).
    { intros c cmd handles a bytes rest T B E1 So. assert (Hs' := Hs). rewrite T in Hs'. inversion Hs' as [|? ? V Hr]; subst.
      cbn [step_ok] in V. pose proof (built_short c cmd handles a bytes V B) as Sh.
      unfold after_serving. rewrite E1. unfold request_bytes. rewrite deal_frame by assumption. cbn [device taken waiting].
      destruct (Hf (tpm y) (at_level z) bytes) as (s' & r & Ef & Lr). rewrite Ef. cbn [fst snd].
      assert (Lr' : (length r <= RESP_BUFFER_SIZE)%nat) by (unfold RESP_BUFFER_SIZE; lia).
      eapply (Step c cmd handles a rest); [exact T|apply at_hand with (bytes := bytes) (s' := s') (r := r); assumption|].
      apply So. exact Lr'. }
    destruct (lost x) as [how|] eqn:Lx.
    + destruct Fo as (common & errors & more & G & R & Lm & Be & [St|(-> & c & cmd & handles & a & bytes & rest & T & B & E1)] & Re & Dg).
      { auto. }
      eapply Served; [exact T|exact B|exact E1|]. intros r Lr. assert (Hs' := Hs). rewrite T in Hs'. inversion Hs'; subst.
      split; [exact Hl|]. split; [assumption|]. cbn [lost]. exists common, errors, [omap_err FromTss (parse_response c a (overwrite r (repeat x00 RESP_BUFFER_SIZE)))].
      cbn [got results sent doing coming lost]. rewrite R, app_nil_r. cbn [length]. repeat (split; [assumption || reflexivity || solve [auto]|]).
      split; [first [exact Re|rewrite Lx in Re; exact Re|intros e; rewrite <- Lx; apply Re]|]. destruct (doing x) as [p|]; [|exact Dg]. destruct Dg as [Dg|(r' & q' & _ & _ & _ & Dg)]; [auto|discriminate].
    + destruct Fo as [El Fo].
      destruct Fo as [D E1 E2 T G|c cmd handles a D E1 E2 T G|c cmd handles a bytes B D E1 E2 T G|p q r D E1 E2 Y Fr T G]; auto.
      rewrite El in E1. eapply Served; [exact T|exact B|exact E1|]. intros r Lr.
      assert (Hs' := Hs). rewrite T in Hs'. inversion Hs'; subst.
      split; [exact Hl|]. split; [assumption|]. cbn [lost]. split; [exact El|].
      eapply F_reply; cbn [doing sent coming todo got level]; [exact D|reflexivity|reflexivity| |apply frail_replied|reflexivity|cbn [results]; now rewrite G].
      rewrite E2. apply replied. exact Lr.
  - apply Stay. split; [exact Hl|]. split; [exact Hs|]. cbn [lost].
    assert (Nil : forall l : list byte, l = [] -> match how with Closed => firstn keep l | Reset _ => [] end = []).
    { intros l ->. destruct how; [reflexivity|apply firstn_nil]. }
    assert (Re' : forall e, Some how = Some (Reset e) -> match how with Closed => firstn keep (coming x) | Reset _ => [] end = []).
    { intros e [= ->]. reflexivity. }
    assert (Cut : exists q, coming x = match how with Closed => firstn keep (coming x) | Reset _ => [] end ++ q).
    { destruct how; [exists (coming x); reflexivity|exists (skipn keep (coming x)); symmetry; apply firstn_skipn]. }
    destruct Cut as [q2 Cut].
    destruct (lost x) as [how'|] eqn:Lx.
    + destruct Fo as (common & errors & more & G & R & Lm & Be & St & Re & Dg). exists common, errors, more.
      cbn [got sent doing coming lost]. repeat (split; [assumption|]).
      destruct (doing x) as [p|]; [|auto]. destruct Dg as [[Ec Dg]|(r & q & Y & Fr & Ee & Em)]; [left; auto|right].
      exists r, (q2 ++ q)%list. rewrite app_assoc, <- Cut. auto.
    + destruct Fo as [El Fo]. unfold adrift. cbn [got sent doing coming lost].
      destruct Fo as [D E1 E2 T G|c cmd handles a D E1 E2 T G|c cmd handles a bytes B D E1 E2 T G|p q r D E1 E2 Y Fr T G]; rewrite D.
      * exists (got x), [], []. rewrite !app_nil_r. cbn [length]. repeat (split; [solve [auto]|]). auto.
      * exists (got x), [], []. rewrite !app_nil_r. cbn [length]. repeat (split; [solve [auto]|]). left. split; [auto|apply doomed_command].
      * exists (got x), [], []. rewrite !app_nil_r. cbn [length]. repeat (split; [solve [auto]|]). split.
        { right. split; [reflexivity|]. rewrite El in E1. eauto 10. }
        split; [exact Re'|]. left. split; [auto|]. apply doomed_replied.
      * exists (got x), [], [r]. rewrite !app_nil_r. cbn [length]. repeat (split; [solve [auto]|]).
        right. exists r, q2. rewrite <- Cut, E2. auto.
Qed.

Lemma sound_matching x z : sound x z -> matching x z.
Proof.
  intros (_ & _ & Fo). unfold matching. destruct (lost x) as [how|].
  - destruct Fo as (common & errors & more & G & R & Lm & Be & _). exists common, errors, more. auto.
  - destruct Fo as [El Fo]. split; [exact El|].
    destruct Fo as [D E1 E2 T G|c cmd handles a D E1 E2 T G|c cmd handles a bytes B D E1 E2 T G|p q r D E1 E2 Y Fr T G]; rewrite D.
    + auto.
    + left. exists c, cmd, handles, a. auto.
    + left. exists c, cmd, handles, a. auto.
    + right. exists r. auto.
Qed.
Definition start_ok (x : Z * list step) : Prop := 0 <= fst x < 256 /\ Forall step_ok (snd x).
Definition begun {S} (s : S) (starts : list (Z * list step)) : house S :=
  {| tpm := s; clients := map (fun x => fresh (fst x) (snd x)) starts |}.
Definition planned (starts : list (Z * list step)) : list session := map (fun x => opened (fst x) (snd x)) starts.
Lemma begun_sound {S} (s : S) starts : Forall start_ok starts -> Forall2 sound (clients (begun s starts)) (planned starts).
Proof.
  intros F. unfold begun, planned. cbn [clients]. induction F as [|[l steps] starts [Hl Hs] _ IH]; cbn [map]; constructor; [|exact IH].
  split; [exact Hl|]. split; [exact Hs|]. cbn [fresh lost]. split; [reflexivity|]. apply F_rest; reflexivity.
Qed.
Lemma play_sound {S} (f : tpm_device S) ms : always_answers f -> forall y zs, Forall2 sound (clients y) zs ->
  exists order, tpm (play f ms y) = fst (serially f order (tpm y, zs))
    /\ Forall2 sound (clients (play f ms y)) (snd (serially f order (tpm y, zs))).
Proof.
  intros Hf. induction ms as [|m ms IH]; intros y zs F; [exists []; auto|].
  destruct (moves_sound f y zs m Hf F) as (o1 & _ & T1 & F1).
  destruct (IH _ _ F1) as (o2 & T2 & F2). exists (o1 ++ o2). cbn [play fold_left].
  rewrite T1 in T2, F2. rewrite <- surjective_pairing in T2, F2. unfold serially. rewrite fold_left_app. split; assumption.
Qed.
Lemma play_steps {S} (f : tpm_device S) ms : always_answers f -> forall y zs, Forall2 sound (clients y) zs ->
  exists orders, Forall2 (fun m o => o = [] \/ o = [mover m]) ms orders /\
    forall k, tpm (play f (firstn k ms) y) = fst (serially f (concat (firstn k orders)) (tpm y, zs))
      /\ Forall2 sound (clients (play f (firstn k ms) y)) (snd (serially f (concat (firstn k orders)) (tpm y, zs))).
Proof.
  intros Hf. induction ms as [|m ms IH]; intros y zs F.
  - exists []. split; [constructor|]. intros k. rewrite !firstn_nil. auto.
  - destruct (moves_sound f y zs m Hf F) as (o1 & O1 & T1 & F1).
    destruct (IH _ _ F1) as (os & Os & Hk). exists (o1 :: os). split; [constructor; assumption|].
    intros [|k]; [auto|]. cbn [firstn concat play fold_left]. destruct (Hk k) as [T2 F2].
    rewrite T1 in T2, F2. rewrite <- surjective_pairing in T2, F2. unfold serially. rewrite fold_left_app. split; assumption.
Qed.

(** ** Everybody gets through *)
Definition step_cost (x : step) : nat := match x with SetLocality _ => 1 | Run _ _ _ _ => RESP_BUFFER_SIZE + 12 end.
Definition cost (x : client) : nat :=
  list_sum (map step_cost (todo x)) +
  match doing x with
  | None => 0
  | Some (Give _) => 1
  | Some (DoWrite _ _) => RESP_BUFFER_SIZE + 11
  | Some (DoRead _ _) => match sent x with [] => length (coming x) + 1 | _ => RESP_BUFFER_SIZE + 10 end
  end.
Lemma cost_nothing x : cost x = 0%nat -> todo x = [] /\ doing x = None.
Proof.
  unfold cost. intros H. apply Nat.eq_add_0 in H. destruct H as [H1 H2]. split.
  - destruct (todo x) as [|[l|c cmd handles a] rest]; [reflexivity| |]; exfalso;
      cbn [map list_sum fold_right step_cost] in H1; unfold list_sum in H1; lia.
  - destruct (doing x) as [[r|b k|n k]|]; [lia|lia| |reflexivity]. destruct (sent x); lia.
Qed.
Lemma step_cost_pos x : (0 < step_cost x)%nat.
Proof. destruct x; cbn [step_cost]; lia. Qed.
Lemma frame_sent l bytes : request_bytes l bytes <> [].
Proof. discriminate. Qed.
Lemma yields_cost p q r : @yields (outcome io_error (val * val)) p q r [] ->
  (match p with Give _ => 1 | DoWrite _ _ => RESP_BUFFER_SIZE + 11 | DoRead _ _ => length q + 1 end <= length q + 1)%nat.
Proof. intros Y. destruct Y; lia. Qed.
Lemma client_cost piece x z : sound x z -> lost x = None ->
  (cost (client_moves piece x) < cost x)%nat \/ (client_moves piece x = x /\ (cost x = 0%nat \/ sent x <> [])).
Proof.
  intros (Hl & Hs & Fo) Lx. unfold client_moves. rewrite Lx in Fo |- *. destruct Fo as [El Fo].
  destruct Fo as [D E1 E2 T G|c cmd handles a D E1 E2 T G|c cmd handles a bytes B D E1 E2 T G|p q r D E1 E2 Y Fr T G]; rewrite D.
  - destruct (todo x) as [|[l|c cmd handles a] rest] eqn:Tx.
    + right. split; [reflexivity|]. left. unfold cost. rewrite Tx, D. reflexivity.
    + left. unfold cost. cbn [todo doing]. rewrite Tx, D. cbn [map list_sum fold_right step_cost]. unfold list_sum. lia.
    + left. unfold cost. cbn [goes_on todo doing sent coming]. rewrite Tx, D, E1, E2. cbn [map list_sum fold_right step_cost]. unfold list_sum.
      destruct (command_prog (level x) c cmd handles a) as [r|b k|n k]; cbn [length]; lia.
  - rewrite T in Hs. inversion Hs as [|? ? V Hr]; subst. cbn [step_ok] in V.
    pose proof (built_short c cmd handles a) as Sh.
    destruct (build_command c cmd handles a) as [bytes|e|] eqn:B.
    + specialize (Sh bytes V eq_refl). destruct (command_prog_built (level x) c cmd handles a bytes B Sh) as (k & Ec & Ek).
      rewrite Ec. left. unfold cost. cbn [goes_on todo doing sent coming]. rewrite D, Ec, Ek, E1.
      cbn [andthen reply_prog u32_prog read_prog app]. destruct (request_bytes (level x) bytes) eqn:Q; [discriminate|]. lia.
    + left. unfold cost, command_prog. rewrite D. unfold command_prog. rewrite B. cbn [todo doing]. lia.
    + left. unfold cost, command_prog. rewrite D. unfold command_prog. rewrite B. cbn [todo doing]. lia.
  - right. rewrite E2. cbn [andthen reply_prog u32_prog read_prog]. split; [reflexivity|]. right. rewrite E1. discriminate.
  - left. remember (@nil byte) as q0 eqn:Q0 in Y. destruct Y as [r q|n k q r q' Hn Hq Y]; subst.
    + unfold cost. cbn [todo doing]. rewrite D. lia.
    + destruct (coming x) as [|b q] eqn:E2; [congruence|].
      set (m := Nat.min (Nat.min n (length (b :: q))) (Nat.max 1 piece)).
      assert (M : (1 <= m <= Nat.min n (length (b :: q)))%nat) by (unfold m; cbn [length]; lia).
      unfold cost. cbn [goes_on todo doing sent coming]. rewrite D, E1, E2.
      pose proof (yields_cost _ _ _ (Y m (proj1 M) (proj2 M))) as Yc. rewrite skipn_length in Yc |- *.
      destruct (k (Ok (firstn m (b :: q)))); lia.
Qed.
Lemma served_cost {S} (f : tpm_device S) s x z : always_answers f -> sound x z -> lost x = None ->
  (cost (after_serving f s x) < cost x)%nat \/ (after_serving f s x = x /\ sent x = []).
Proof.
  intros Hf (Hl & Hs & Fo) Lx. rewrite Lx in Fo. destruct Fo as [El Fo].
  destruct (list_eq_dec Byte.byte_eq_dec (sent x) []) as [E|N].
  - right. split; [|exact E]. apply after_nothing. exact E.
  - left. destruct Fo as [D E1 E2 T G|c cmd handles a D E1 E2 T G|c cmd handles a bytes B D E1 E2 T G|p q r D E1 E2 Y Fr T G]; try contradiction.
    rewrite T in Hs. inversion Hs as [|? ? V Hr]; subst. cbn [step_ok] in V.
    pose proof (built_short c cmd handles a bytes V B) as Sh.
    unfold after_serving. rewrite E1, E2. unfold request_bytes at 1 2. rewrite deal_frame by (rewrite ?El; assumption).
    cbn [device taken waiting app]. destruct (Hf s (level x) bytes) as (s' & r & Ef & Lr). rewrite Ef. cbn [fst snd].
    unfold cost. cbn [goes_on todo doing sent coming]. rewrite D. cbn [andthen reply_prog u32_prog read_prog].
    rewrite E1. destruct (request_bytes (level x) bytes) eqn:Q; [discriminate|].
    rewrite ?Lx, !app_length. unfold u32be. rewrite be_bytes_length. cbn [length].
    assert (length r <= RESP_BUFFER_SIZE)%nat by (unfold RESP_BUFFER_SIZE; lia). lia.
Qed.
Lemma nth_put_cases {A} i j (a x : A) l : nth_error l i = Some x ->
  nth_error (put i a l) j = if (j =? i)%nat then Some a else nth_error l j.
Proof.
  intros N. assert (i < length l)%nat by (apply nth_error_Some; congruence).
  destruct (Nat.eqb_spec j i) as [->|J]; [now apply nth_error_put|now apply nth_error_put_other].
Qed.
Lemma move_cost {S} (f : tpm_device S) y zs m i x : always_answers f -> Forall2 sound (clients y) zs ->
  nth_error (clients y) i = Some x -> lost x = None -> (forall how keep, m <> Breaks i how keep) ->
  exists x', nth_error (clients (moves f y m)) i = Some x' /\ lost x' = None
    /\ ((cost x' < cost x)%nat
        \/ (x' = x /\ (m = Serves i -> sent x = []) /\ (forall p, m = Moves i p -> cost x = 0%nat \/ sent x <> []))).
Proof.
  intros Hf F N Lx Hb. destruct (Forall2_nth sound i x _ _ F N) as (z & Nz & So).
  destruct (Nat.eq_dec (mover m) i) as [<-|J].
  - destruct m as [i piece|i|i how keep]; cbn [mover moves] in *; rewrite N; cbn [clients].
    + rewrite (nth_put_cases i i _ x _ N), Nat.eqb_refl. eexists. split; [reflexivity|]. split.
      { unfold client_moves. rewrite Lx. destruct (doing x) as [[r|bs k|n k]|]; [reflexivity|exact Lx| |].
        - destruct (coming x); exact Lx.
        - destruct (todo x) as [|[l|c cmd handles a] rest]; [exact Lx|reflexivity|reflexivity]. }
      destruct (client_cost piece x z So Lx) as [L|[E C]]; [left; exact L|right].
      split; [exact E|]. split; [discriminate|]. intros _ _. exact C.
    + rewrite (nth_put_cases i i _ x _ N), Nat.eqb_refl. eexists. split; [reflexivity|]. split; [exact Lx|].
      destruct (served_cost f (tpm y) x z Hf So Lx) as [L|[E C]]; [left; exact L|right].
      split; [exact E|]. split; [auto|]. discriminate.
    + exfalso. exact (Hb how keep eq_refl).
  - exists x. assert (E : nth_error (clients (moves f y m)) i = Some x).
    { destruct m as [j piece|j|j how keep]; cbn [mover moves] in *; (destruct (nth_error (clients y) j) as [xj|] eqn:Nj; cbn [clients]; [|exact N]);
        rewrite (nth_put_cases j i _ xj _ Nj); (destruct (Nat.eqb_spec i j); [congruence|exact N]). }
    split; [exact E|]. split; [exact Lx|]. right. split; [reflexivity|]. split; [intros ->|intros p ->]; cbn [mover] in J; congruence.
Qed.
Lemma round_cost {S} (f : tpm_device S) i : always_answers f -> forall ms y zs x, Forall2 sound (clients y) zs ->
  nth_error (clients y) i = Some x -> lost x = None -> (forall how keep, ~ List.In (Breaks i how keep) ms) ->
  exists x', nth_error (clients (play f ms y)) i = Some x' /\ lost x' = None
    /\ ((cost x' < cost x)%nat
        \/ (x' = x /\ (List.In (Serves i) ms -> sent x = []) /\ (forall p, List.In (Moves i p) ms -> cost x = 0%nat \/ sent x <> []))).
Proof.
  intros Hf. induction ms as [|m ms IH]; intros y zs x F N Lx Hb.
  - exists x. split; [exact N|]. split; [exact Lx|]. right. split; [reflexivity|]. split; [intros []|intros p []].
  - destruct (moves_sound f y zs m Hf F) as (o & _ & _ & F1).
    destruct (move_cost f y zs m i x Hf F N Lx) as (x1 & N1 & L1 & C1).
    { intros how keep ->. apply (Hb how keep). left. reflexivity. }
    destruct (IH _ _ x1 F1 N1 L1) as (x2 & N2 & L2 & C2).
    { intros how keep I. apply (Hb how keep). right. exact I. }
    exists x2. split; [exact N2|]. split; [exact L2|].
    destruct C1 as [C1|(-> & S1 & M1)]; destruct C2 as [C2|(-> & S2 & M2)]; try (left; lia).
    right. split; [reflexivity|]. split.
    + intros [->|I]; auto.
    + intros p [->|I]; eauto.
Qed.
Lemma rounds_cost {S} (f : tpm_device S) i : always_answers f -> forall rounds y zs x, Forall2 sound (clients y) zs ->
  nth_error (clients y) i = Some x -> lost x = None ->
  Forall (fun ms => List.In (Serves i) ms /\ (exists p, List.In (Moves i p) ms) /\ forall how keep, ~ List.In (Breaks i how keep) ms) rounds ->
  (cost x <= length rounds)%nat ->
  exists x', nth_error (clients (play f (concat rounds) y)) i = Some x' /\ lost x' = None /\ cost x' = 0%nat.
Proof.
  intros Hf. induction rounds as [|ms rounds IH]; intros y zs x F N Lx R L.
  - exists x. split; [exact N|]. split; [exact Lx|]. cbn in L. lia.
  - inversion R as [|? ? [Hs [(p & Hm) Hb]] R']; subst. cbn [concat play]. unfold play. rewrite fold_left_app.
    destruct (round_cost f i Hf ms y zs x F N Lx Hb) as (x1 & N1 & L1 & C1).
    destruct (play_sound f ms Hf y zs F) as (o & _ & F1).
    apply (IH _ _ x1 F1 N1 L1 R'). cbn [length] in L. destruct C1 as [C1|(-> & S1 & M1)]; [lia|].
    destruct (M1 p Hm) as [Z|Z]; [lia|]. specialize (S1 Hs). contradiction.
Qed.
Lemma steps_cost steps : Z.of_nat (list_sum (map step_cost steps)) <= 4108 * Z.of_nat (length steps).
Proof.
  induction steps as [|[l|c cmd handles a] steps IH]; cbn [map list_sum fold_right length]; [cbn; lia| |];
    unfold list_sum in IH; cbn [step_cost]; unfold RESP_BUFFER_SIZE; lia.
Qed.

(** ** C101 *)
(** Nobody acting in between, a call here is the call of the library, whatever
    the world does. *)
Theorem c101_program W H C (sys : world W H C) (t : tcp H) w c cmd handles a :
  run_prog sys (tpm_tcp t) (command_prog (locality t) c cmd handles a) w
  = run_command_with_handles FromTss (tcp_connection sys t) w c cmd handles a.
Proof.
  unfold command_prog, run_command_with_handles. destruct (build_command c cmd handles a) as [bytes|e|]; try reflexivity.
  cbn [transact tcp_connection]. rewrite run_andthen, run_transact.
  destruct (tcp_transact sys t w bytes (repeat x00 RESP_BUFFER_SIZE)) as [[w' rsp] [n|e|]]; reflexivity.
Qed.
(** Whatever clients and TPM do, in whatever order and pieces: every move either
    does nothing the others could tell or is one whole step of the client that
    moved or was served.  After each of the moves the TPM is where it would be
    had these steps been made one by one at the TPM itself, every result a
    client has got is the one its step gave there, and the only step that can
    be ahead of or behind the client is the call that it is in.  Clients whose
    connection is lost got such results before - the last of them perhaps from an
    answer that had arrived -, at most one further call of theirs is carried out,
    and from then on they get errors. *)
Theorem c101_serial S (f : tpm_device S) s starts ms :
  always_answers f -> Forall start_ok starts ->
  exists orders, Forall2 (fun m o => o = [] \/ o = [mover m]) ms orders /\
    forall k, tpm (play f (firstn k ms) (begun s starts)) = fst (serially f (concat (firstn k orders)) (s, planned starts))
      /\ Forall2 matching (clients (play f (firstn k ms) (begun s starts)))
           (snd (serially f (concat (firstn k orders)) (s, planned starts))).
Proof.
  intros Hf Hs. destruct (play_steps f ms Hf (begun s starts) (planned starts) (begun_sound s starts Hs)) as (os & Os & Hk).
  exists os. split; [exact Os|]. intros k. destruct (Hk k) as [T F].
  split; [exact T|].
  cbn [begun tpm] in F. revert F. generalize (snd (serially f (concat (firstn k os)) (s, planned starts))).
  generalize (clients (play f (firstn k ms) (begun s starts))). clear. intros xs zs F.
  induction F; constructor; [now apply sound_matching|assumption].
Qed.
(** When all are through and nobody lost the connection, their results and the TPM's state are those of one
    such order of all their steps. *)
Theorem c101_finished S (f : tpm_device S) s starts ms :
  always_answers f -> Forall start_ok starts ->
  Forall (fun x => lost x = None /\ todo x = [] /\ doing x = None) (clients (play f ms (begun s starts))) ->
  exists order z, serially f order (s, planned starts) = (tpm (play f ms (begun s starts)), z)
    /\ Forall (fun x => left x = []) z
    /\ map results z = map got (clients (play f ms (begun s starts))).
Proof.
  intros Hf Hs D. destruct (play_sound f ms Hf (begun s starts) (planned starts) (begun_sound s starts Hs)) as (o & T & F).
  exists o. cbn [begun tpm] in T, F. destruct (serially f o (s, planned starts)) as [s' zs]. cbn [fst snd] in T, F.
  exists zs. split; [now rewrite <- T|]. clear T. revert D. generalize (clients (play f ms (begun s starts))) as xs, zs as zs', F. clear.
  induction 1 as [|x z xs zs H F IH]; intros D; [repeat constructor|]. inversion D as [|? ? (Lx & T & N) D']; subst.
  destruct (IH D') as [L R]. apply sound_matching in H. unfold matching in H. rewrite Lx in H. destruct H as [_ H]. rewrite N in H. destruct H as [H1 H2].
  split; [constructor; [congruence|exact L]|]. cbn [map]. now rewrite R, H2.
Qed.
(** And all get through: a client with [n] steps is through after [4108 n]
    rounds at the latest, if it keeps its connection and moves and is served at
    least once in every round, at whatever moments, and whatever the others do. *)
Theorem c101_through S (f : tpm_device S) s starts i l steps rounds :
  always_answers f -> Forall start_ok starts -> nth_error starts i = Some (l, steps) ->
  Forall (fun ms => List.In (Serves i) ms /\ (exists p, List.In (Moves i p) ms) /\ forall how keep, ~ List.In (Breaks i how keep) ms) rounds ->
  4108 * Z.of_nat (length steps) <= Z.of_nat (length rounds) ->
  exists x, nth_error (clients (play f (concat rounds) (begun s starts))) i = Some x
    /\ todo x = [] /\ doing x = None /\ sent x = [] /\ coming x = [].
Proof.
  intros Hf Hs Ni R L. pose proof (begun_sound s starts Hs) as F.
  assert (N : nth_error (clients (begun s starts)) i = Some (fresh l steps)).
  { unfold begun. cbn [clients]. rewrite (map_nth_error _ i starts Ni). reflexivity. }
  destruct (rounds_cost f i Hf rounds (begun s starts) _ _ F N eq_refl R) as (x & Nx & Lx & Cx).
  { pose proof (steps_cost steps). unfold cost. cbn [fresh todo doing]. lia. }
  exists x. split; [exact Nx|]. destruct (cost_nothing x Cx) as [T D]. split; [exact T|]. split; [exact D|].
  destruct (play_sound f (concat rounds) Hf (begun s starts) _ F) as (o & _ & F').
  destruct (Forall2_nth sound i x _ _ F' Nx) as (z & _ & _ & _ & Fo).
  rewrite Lx in Fo. destruct Fo as [_ Fo]. destruct Fo; try congruence. auto.
Qed.
(** The server of the repository is such a TPM, with any generator that does
    not fail. *)
Theorem c101_server D X (dr : Drbg D) (es : EntropySource X) :
  wf_drbg dr -> never_fails dr -> always_answers (served_device dr es).
Proof.
  intros Hd Hn s l cmd. pose proof (serve_spec D X dr es s (Separate cmd (repeat x00 RESP_BUFFER_SIZE)) Hd) as Sv.
  cbn [request_of buffer_of serve] in Sv.
  destruct (served_total D X dr es s cmd (repeat x00 RESP_BUFFER_SIZE) _ Hn Sv) as (s' & resp & n & E & L & Ln & _).
  unfold served_device. rewrite E. exists s', (firstn n resp). split; [reflexivity|].
  rewrite repeat_length in Ln. rewrite firstn_length. unfold RESP_BUFFER_SIZE in Ln. lia.
Qed.

(** *** The hypotheses can be met *)
(** Two clients whose calls overlap: the first sends its request first, the
    second is after_serving first; their answers come in pieces of one byte, in turn. *)
Example c101_overlap :
  let random := Run GetRandom (VStruct [VInt 2]) VUnit area0 in
  let starts := [(0, [random]); (0, [random; SetLocality 3; random])] in
  let ms := [Moves 0 1; Moves 0 1; Moves 1 1; Moves 1 1; Moves 0 1; Serves 1; Moves 0 1; Moves 1 1; Serves 0]
            ++ concat (repeat [Moves 0 1; Moves 1 1; Serves 1; Serves 0] 60) in
  let shown := map (omap (fun r : val * val => match fst r with VStruct [VTpm2b n b] => (n, firstn 2 b) | _ => (0, []) end)) in
  let y := play proper ms (begun 5 starts) in
  let z := serially proper [1; 0; 1; 1]%nat (5, planned starts) in
  always_answers proper /\ Forall start_ok starts
  /\ tpm y = 7 /\ Forall (fun x => lost x = None /\ todo x = [] /\ doing x = None) (clients y)
  /\ map (fun x => shown (got x)) (clients y) = [[Ok (2, [xaa; x06])]; [Ok (2, [xaa; x05]); Err (FromTss 0x907)]]
  /\ fst z = tpm y /\ map results (snd z) = map got (clients y)
  /\ tpm (play proper (firstn 8 ms) (begun 5 starts)) = 6.
Proof.
  cbn zeta. split.
  { intros s l cmd. unfold proper. destruct (2 <? l); eexists; eexists; (split; [reflexivity|]); cbn [length]; lia. }
  split; [repeat constructor; cbn; lia|].
  split; [vm_compute; reflexivity|]. split; [vm_compute; repeat constructor|]. split; [vm_compute; reflexivity|].
  split; [vm_compute; reflexivity|]. split; [vm_compute; reflexivity|]. vm_compute. reflexivity.
Qed.
(** The first client loses its connection after it has sent its request: the
    TPM carries it out all the same, the client gets errors, for its next call,
    too, and the other client takes no notice. *)
Example c101_broken :
  let random := Run GetRandom (VStruct [VInt 2]) VUnit area0 in
  let starts := [(0, [random; random]); (0, [random])] in
  let ms how := [Moves 0 9; Moves 1 9; Moves 0 9; Breaks 0 how 0; Moves 1 9; Moves 0 9; Serves 0; Serves 1]
                ++ concat (repeat [Moves 0 9; Moves 1 9; Serves 0] 9) in
  let shown := map (omap (fun r : val * val => match fst r with VStruct [VTpm2b n b] => (n, firstn 2 b) | _ => (0, []) end)) in
  let seen how := map (fun x => (todo x, match doing x with None => true | _ => false end, shown (got x)))
                    (clients (play proper (ms how) (begun 5 starts))) in
  seen (Reset (System 104)) = [([], true, [Err (System 104); Err (System 104)]); ([], true, [Ok (2, [xaa; x06])])]
  /\ seen Closed = [([], true, [Err UnexpectedEof; Err UnexpectedEof]); ([], true, [Ok (2, [xaa; x06])])]
  /\ tpm (play proper (ms Closed) (begun 5 starts)) = 7.
Proof. cbn zeta. split; [vm_compute; reflexivity|]. split; vm_compute; reflexivity. Qed.
(** The other side closes the connection when the answer (a length, a response, an
    end mark) is on its way: the client gets its result if all of it arrives, an
    error if one byte is missing, and errors afterwards either way. *)
Example c101_cut :
  let random := Run GetRandom (VStruct [VInt 2]) VUnit area0 in
  let starts := [(0, [random; random])] in
  let ms keep := [Moves 0 9; Moves 0 9; Serves 0; Moves 0 3; Breaks 0 Closed keep]
                 ++ concat (repeat [Moves 0 9; Serves 0] 19) in
  let shown := map (omap (fun r : val * val => match fst r with VStruct [VTpm2b n b] => (n, firstn 2 b) | _ => (0, []) end)) in
  let seen keep := map (fun x => shown (got x)) (clients (play proper (ms keep) (begun 5 starts))) in
  let size := match clients (play proper (firstn 4 (ms 0%nat)) (begun 5 starts)) with [x] => length (coming x) | _ => 0%nat end in
  (0 < size)%nat
  /\ seen size = [[Ok (2, [xaa; x05]); Err UnexpectedEof]]
  /\ seen (size - 1)%nat = [[Err UnexpectedEof; Err UnexpectedEof]]
  /\ tpm (play proper (ms size) (begun 5 starts)) = 6.
Proof. cbn zeta. split; [apply Nat.ltb_lt; vm_compute; reflexivity|]. repeat split; vm_compute; reflexivity. Qed.
