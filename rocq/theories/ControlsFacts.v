(** Controls and commands over TCP, against any machine (C81).  [at_hand],
    [unwired] (what the calls mean to the machine), [well_spoken] and
    [operation_ok] are in Controls.v, with the simulator at the other end. *)
From Coq Require Import String ZArith NArith List Lia Bool.
From Coq Require Import Init.Byte.
From Verif Require Import Prelude Types Marshal WireSpec Catalogue Errors Tpm2b Client ClientSpec ClientProofs ClientFacts
  Tcp TcpSpec TcpProofs Remote RemoteFacts Controls.
Import ListNotations.
Open Scope Z_scope.

Section Wires.
Context {S : Type} (pieces : S -> nat -> nat) (f : machine S).
Local Notation net := (wires pieces f).
Definition owing (s : S) (h : bool) (q : list byte) : bench S :=
  {| unit_ := s; got := ([], []); due := set_port h q ([], []) |}.
Lemma owing_nothing s h : owing s h [] = quiet s.
Proof. destruct h; reflexivity. Qed.
Lemma port_set h b p : port h (set_port h b p) = b.
Proof. destruct h; reflexivity. Qed.
Lemma set_set h b c p : set_port h b (set_port h c p) = set_port h b p.
Proof. destruct h; reflexivity. Qed.
Lemma port_same h : port h ([], []) = [].
Proof. destruct h; reflexivity. Qed.
Lemma set_same h : set_port h [] ([], []) = ([], []).
Proof. destruct h; reflexivity. Qed.

Lemma read_owing h s q n :
  read net (owing s h q) h n
  = let k := Nat.min n (Nat.max 1 (pieces s (length q))) in (owing s h (skipn k q), Ok (firstn k q)).
Proof. unfold owing. cbn [read wires unit_ got due]. rewrite !port_set, set_set. reflexivity. Qed.
Lemma wires_read h s bs rest : forall fuel, (length bs <= fuel)%nat ->
  read_loop net fuel h (length bs) (owing s h (bs ++ rest)) = (owing s h rest, bs, Ok tt).
Proof.
  remember (length bs) as n eqn:En. revert bs En.
  induction n as [n IH] using lt_wf_ind. intros bs En fuel Hf.
  destruct bs as [|b bs].
  { cbn in En. subst n. destruct fuel; reflexivity. }
  destruct fuel as [|fuel]; [cbn in En; lia|]. destruct n as [|n]; [discriminate|].
  cbn [read_loop]. rewrite read_owing. cbn zeta.
  set (k := Nat.min (Datatypes.S n) (Nat.max 1 (pieces s (length ((b :: bs) ++ rest))))).
  assert (K1 : (1 <= k <= Datatypes.S n)%nat) by (unfold k; lia). clearbody k.
  rewrite firstn_app_le, skipn_app_le by lia.
  assert (Lf : length (firstn k (b :: bs)) = k) by (rewrite firstn_length, <- En; lia).
  destruct (firstn k (b :: bs)) as [|b' fs] eqn:Ef; [cbn in Lf; lia|].
  rewrite Lf. replace (Datatypes.S n <? k)%nat with false by (symmetry; apply Nat.ltb_ge; lia).
  rewrite (IH (Datatypes.S n - k)%nat ltac:(lia) (skipn k (b :: bs))) by (rewrite ?skipn_length; lia).
  rewrite <- Ef, firstn_skipn. reflexivity.
Qed.
Lemma wires_read_bytes h s bs rest n : length bs = n ->
  read_bytes net h n (owing s h (bs ++ rest)) = (owing s h rest, Ok bs).
Proof. intros <-. unfold read_bytes, read_exact. rewrite wires_read by lia. reflexivity. Qed.
Lemma wires_read_u32 h s bs rest : length bs = 4%nat ->
  read_u32 net h (owing s h (bs ++ rest)) = (owing s h rest, Ok (be_val bs)).
Proof. intros L. unfold read_u32, io_bind. rewrite wires_read_bytes by exact L. reflexivity. Qed.
Lemma wires_end h s : check_response_end net h (owing s h [x00; x00; x00; x00]) = (quiet s, Ok tt).
Proof.
  unfold check_response_end, io_bind. rewrite <- (app_nil_r [x00; x00; x00; x00]).
  rewrite wires_read_u32 by reflexivity. rewrite owing_nothing. reflexivity.
Qed.
Lemma wires_eof h s n : read_bytes net h (Datatypes.S n) (quiet s) = (quiet s, Err UnexpectedEof).
Proof.
  unfold read_bytes, read_exact. cbn [read_loop read wires quiet unit_ got due].
  rewrite port_same, firstn_nil, skipn_nil, set_same. reflexivity.
Qed.
Lemma wires_eof_u32 h s : read_u32 net h (quiet s) = (quiet s, Err UnexpectedEof).
Proof. unfold read_u32, io_bind. rewrite wires_eof. reflexivity. Qed.
Lemma wires_eof_end h s : check_response_end net h (quiet s) = (quiet s, Err UnexpectedEof).
Proof. unfold check_response_end, io_bind. rewrite wires_eof_u32. reflexivity. Qed.

Lemma work_nothing fuel h s : forall d, work f fuel h {| unit_ := s; got := ([], []); due := d |}
  = {| unit_ := s; got := ([], []); due := d |}.
Proof. intros d. destruct fuel; [reflexivity|]. cbn [work got]. rewrite port_same. reflexivity. Qed.
Lemma wires_write h s frame q : front h frame = Some (q, []) ->
  write net (quiet s) h frame = (owing (fst (f s q)) h (framed q (snd (f s q))), Ok (length frame)).
Proof.
  intros Fr. cbn [write wires quiet unit_ got due]. rewrite port_same. cbn [app].
  assert (N : exists m, length frame = Datatypes.S m).
  { destruct frame; [discriminate|]. eexists; reflexivity. }
  destruct N as [m N]. rewrite N. cbn [work got]. rewrite port_set, Fr. cbn [unit_].
  destruct (f s q) as [s' r]. cbn [fst snd due]. rewrite set_set, set_same, port_same. cbn [app].
  rewrite work_nothing. reflexivity.
Qed.
Lemma wires_write_whole h s frame q : front h frame = Some (q, []) ->
  write_whole net h frame (quiet s) = (owing (fst (f s q)) h (framed q (snd (f s q))), Ok tt).
Proof. intros Fr. unfold write_whole, io_bind. rewrite (wires_write h s frame q Fr), Nat.eqb_refl. reflexivity. Qed.
Lemma wires_write_all h s frame q : front h frame = Some (q, []) ->
  write_all net h frame (quiet s) = (owing (fst (f s q)) h (framed q (snd (f s q))), Ok tt).
Proof.
  intros Fr. unfold write_all. destruct frame as [|b frame]; [discriminate|].
  cbn [length write_loop]. rewrite (wires_write h s (b :: frame) q Fr).
  cbn [length]. rewrite Nat.ltb_irrefl. replace (skipn (Datatypes.S (length frame)) (b :: frame)) with (@nil byte).
  2:{ symmetry. apply skipn_all2. cbn [length]. lia. }
  destruct (length frame); reflexivity.
Qed.

(** The frames of the calls, as they arrive. *)
Lemma be4_length z : length (u32be z) = 4%nat.
Proof. apply be_bytes_length. Qed.
Lemma word_app z b : u32_ok z -> word (u32be z ++ b) = z.
Proof. intros R. unfold word. rewrite firstn_app_exact' by (symmetry; apply be4_length). now apply u32be_val. Qed.
Lemma word_only z : u32_ok z -> word (u32be z) = z.
Proof. intros R. rewrite <- (app_nil_r (u32be z)). now apply word_app. Qed.
Lemma skip4 z b : skipn 4 (u32be z ++ b) = b.
Proof. apply skipn_app_exact'. symmetry. apply be4_length. Qed.
Lemma front_command l cmd : 0 <= l < 256 -> Z.of_nat (length cmd) < 2 ^ 32 ->
  front true (u32be 8 ++ be_bytes 1 l ++ u32be (Z.of_nat (length cmd)) ++ cmd) = Some (AskCommand l cmd, []).
Proof.
  intros Hl Hc. unfold front.
  set (t := u32be 8 ++ be_bytes 1 l ++ u32be (Z.of_nat (length cmd)) ++ cmd).
  assert (L : length t = (9 + length cmd)%nat).
  { unfold t, u32be. rewrite !app_length, !be_bytes_length. reflexivity. }
  assert (W : word t = 8) by (apply word_app; split; [discriminate|reflexivity]).
  assert (F2 : firstn 1 (skipn 4 t) = be_bytes 1 l).
  { unfold t. rewrite skip4. apply firstn_app_exact'. now rewrite be_bytes_length. }
  assert (F5 : skipn 5 t = u32be (Z.of_nat (length cmd)) ++ cmd).
  { unfold t. rewrite app_assoc. apply skipn_app_exact'. unfold u32be. now rewrite app_length, !be_bytes_length. }
  assert (F9 : skipn 9 t = cmd).
  { change 9%nat with (5 + 4)%nat. rewrite <- skipn_skipn', F5. apply skip4. }
  rewrite W, L. cbn [Z.eqb Pos.eqb].
  destruct (Nat.ltb_spec (9 + length cmd) 4); [lia|].
  rewrite F2, F5, F9, word_app by (unfold u32_ok; lia). rewrite Nat2Z.id.
  rewrite (proj2 (Nat.leb_le 9 (9 + length cmd))) by lia. rewrite Nat.leb_refl. cbn [andb].
  rewrite firstn_all, be_val_bytes, (Z.mod_small l) by (cbn; lia).
  rewrite (skipn_all2 (n := (9 + length cmd)%nat)) by lia. reflexivity.
Qed.
Lemma front_data data : Z.of_nat (length data) < 2 ^ 32 ->
  front true (u32be 6 ++ u32be (Z.of_nat (length data)) ++ data) = Some (AskHashData data, []).
Proof.
  intros Hc. unfold front.
  set (t := u32be 6 ++ u32be (Z.of_nat (length data)) ++ data).
  assert (L : length t = (8 + length data)%nat).
  { unfold t, u32be. rewrite !app_length, !be_bytes_length. reflexivity. }
  assert (W : word t = 6) by (apply word_app; split; [discriminate|reflexivity]).
  assert (F4 : skipn 4 t = u32be (Z.of_nat (length data)) ++ data) by apply skip4.
  assert (F8 : skipn 8 t = data).
  { change 8%nat with (4 + 4)%nat. rewrite <- skipn_skipn', F4. apply skip4. }
  rewrite W, L. cbn [Z.eqb Pos.eqb].
  destruct (Nat.ltb_spec (8 + length data) 4); [lia|].
  rewrite F4, F8, word_app by (unfold u32_ok; lia). rewrite Nat2Z.id.
  rewrite (proj2 (Nat.leb_le 8 (8 + length data))) by lia. rewrite Nat.leb_refl. cbn [andb].
  rewrite firstn_all. rewrite (skipn_all2 (n := (8 + length data)%nat)) by lia. reflexivity.
Qed.
Lemma front_number h code z (q : Z -> request) : 0 <= z < 2 ^ 32 ->
  (h = true /\ (code = 15 /\ q = AskHandshake \/ code = 16 /\ q = AskAlternative)
   \/ h = false /\ (code = 26 /\ q = AskAct \/ code = 35 /\ q = AskFirmwareHash \/ code = 36 /\ q = AskFirmwareSvn)) ->
  front h (u32be code ++ u32be z) = Some (q z, []).
Proof.
  intros Hz Cs.
  assert (L : length (u32be code ++ u32be z) = 8%nat) by (now rewrite app_length, !be4_length).
  assert (F : skipn 8 (u32be code ++ u32be z) = []) by (apply skipn_all2; lia).
  assert (W : word (u32be code ++ u32be z) = code).
  { apply word_app. unfold u32_ok. destruct Cs as [(_ & [[-> _]|[-> _]])|(_ & [[-> _]|[[-> _]|[-> _]]])]; lia. }
  unfold front. rewrite L, W, F, skip4, word_only by exact Hz.
  destruct Cs as [(-> & [[-> ->]|[-> ->]])|(-> & [[-> ->]|[[-> ->]|[-> ->]]])]; reflexivity.
Qed.
Lemma front_signal s : front false (u32be (signal_code s)) = Some (AskSignal s, []).
Proof. destruct s; reflexivity. Qed.

(** One request and its bare acknowledgement. *)
Definition plain (q : request) : bool :=
  match q with
  | AskCommand _ _ | AskSizes | AskHandshake _ | AskAct _ | AskEnd _ | AskStop _ => false
  | _ => true
  end.
Lemma acknowledged h q s : well_spoken f -> plain q = true ->
  check_response_end net h (owing (fst (f s q)) h (framed q (snd (f s q))))
  = (quiet (fst (ask f q s)), omap (fun _ => tt) (snd (ask f q s))).
Proof.
  intros Ws Pl. unfold ask. destruct (f s q) as [s' [r|]] eqn:E; cbn [fst snd].
  - specialize (Ws s q s' r E). destruct q; try discriminate; subst r; apply wires_end.
  - destruct q; try discriminate; cbn [framed]; rewrite owing_nothing; apply wires_eof_end.
Qed.
(** Then the call goes on, or ends for lack of an answer. *)
Definition then_ {A} (q : request) (s : S) (k : S -> list byte -> bench S * outcome io_error A)
    : bench S * outcome io_error A :=
  match f s q with (s', Some r) => k s' r | (s', None) => (quiet s', Err UnexpectedEof) end.
Lemma whole_acknowledged {A} h frame q s (k : io (bench S) A) :
  well_spoken f -> plain q = true -> front h frame = Some (q, []) ->
  (write_whole net h frame ;; check_response_end net h ;; k) (quiet s) = then_ q s (fun s' _ => k (quiet s')).
Proof.
  intros Ws Pl Fr. unfold io_bind. rewrite (wires_write_whole h s frame q Fr), acknowledged by assumption.
  unfold ask, then_. destruct (f s q) as [s' [r|]]; reflexivity.
Qed.
Lemma all_acknowledged {A} h frame q s (k : io (bench S) A) :
  well_spoken f -> plain q = true -> front h frame = Some (q, []) ->
  (write_all net h frame ;; check_response_end net h ;; k) (quiet s) = then_ q s (fun s' _ => k (quiet s')).
Proof.
  intros Ws Pl Fr. unfold io_bind. rewrite (wires_write_all h s frame q Fr), acknowledged by assumption.
  unfold ask, then_. destruct (f s q) as [s' [r|]]; reflexivity.
Qed.
Lemma whole_last h frame q s : well_spoken f -> plain q = true -> front h frame = Some (q, []) ->
  (write_whole net h frame ;; check_response_end net h) (quiet s) = then_ q s (fun s' _ => (quiet s', Ok tt)).
Proof.
  intros Ws Pl Fr. unfold io_bind. rewrite (wires_write_whole h s frame q Fr), acknowledged by assumption.
  unfold ask, then_. destruct (f s q) as [s' [r|]]; reflexivity.
Qed.
Lemma all_last h frame q s : well_spoken f -> plain q = true -> front h frame = Some (q, []) ->
  (write_all net h frame ;; check_response_end net h) (quiet s) = then_ q s (fun s' _ => (quiet s', Ok tt)).
Proof.
  intros Ws Pl Fr. unfold io_bind. rewrite (wires_write_all h s frame q Fr), acknowledged by assumption.
  unfold ask, then_. destruct (f s q) as [s' [r|]]; reflexivity.
Qed.

Lemma then_ext {A} q s (k k' : S -> list byte -> bench S * outcome io_error A) :
  (forall s' r, k s' r = k' s' r) -> then_ q s k = then_ q s k'.
Proof. intros E. unfold then_. destruct (f s q) as [s' [r|]]; auto. Qed.
Lemma wires_hcrtm s l data : Z.of_nat (length data) < 2 ^ 32 -> well_spoken f ->
  hcrtm_sequence net (port_ends l) data (quiet s)
  = then_ AskHashStart s (fun s1 _ => then_ (AskHashData data) s1 (fun s2 _ => then_ AskHashEnd s2
      (fun s3 _ => (quiet s3, Ok tt)))).
Proof.
  intros Hd Ws. unfold hcrtm_sequence. cbn [port_ends tpm_tcp].
  change (u32_bytes SignalHashStart) with (u32be 5). change (u32_bytes SignalHashData) with (u32be 6).
  change (u32_bytes SignalHashEnd) with (u32be 7). rewrite Z.mod_small by lia.
  rewrite (all_acknowledged true (u32be 5) AskHashStart) by (auto; reflexivity). apply then_ext. intros s1 _.
  change (u32_bytes (Z.of_nat (length data))) with (u32be (Z.of_nat (length data))).
  rewrite (whole_acknowledged true _ (AskHashData data)) by (auto using front_data). apply then_ext. intros s2 _.
  rewrite (all_last true (u32be 7) AskHashEnd) by (auto; reflexivity). reflexivity.
Qed.
Lemma wires_signal s l g : well_spoken f ->
  platform_signal net (port_ends l) g (quiet s) = then_ (AskSignal g) s (fun s' _ => (quiet s', Ok tt)).
Proof.
  intros Ws. unfold platform_signal. cbn [port_ends plat_tcp].
  apply all_last; [assumption|reflexivity|apply front_signal].
Qed.
Lemma then_bind {A B} q s (k : S -> list byte -> bench S * outcome io_error A) (g : io (bench S) B) m :
  m (quiet s) = then_ q s k ->
  (m ;; g) (quiet s) = then_ q s (fun s' r => match k s' r with
                                             | (w, Ok _) => g w | (w, Err e) => (w, Err e) | (w, Panic) => (w, Panic) end).
Proof. intros E. unfold io_bind. rewrite E. unfold then_. destruct (f s q) as [s' [r|]]; reflexivity. Qed.
Lemma wires_reinit s l : well_spoken f ->
  reinit net (port_ends l) (quiet s)
  = then_ (AskSignal NvOff) s (fun s1 _ => then_ (AskSignal PowerOff) s1 (fun s2 _ =>
    then_ (AskSignal PowerOn) s2 (fun s3 _ => then_ (AskSignal NvOn) s3 (fun s4 _ => (quiet s4, Ok tt))))).
Proof.
  intros Ws. unfold reinit.
  rewrite (then_bind _ _ _ _ _ (wires_signal s l NvOff Ws)). apply then_ext. intros s1 _.
  rewrite (then_bind _ _ _ _ _ (wires_signal s1 l PowerOff Ws)). apply then_ext. intros s2 _.
  rewrite (then_bind _ _ _ _ _ (wires_signal s2 l PowerOn Ws)). apply then_ext. intros s3 _.
  apply wires_signal. exact Ws.
Qed.

Lemma wires_transact s l cmd rsp : 0 <= l < 256 -> Z.of_nat (length cmd) < 2 ^ 32 -> well_spoken f ->
  tcp_transact net (port_ends l) (quiet s) cmd rsp
  = match f s (AskCommand l cmd) with
    | (s', Some r) =>
        if (length rsp <? length r)%nat then (owing s' true (r ++ [x00; x00; x00; x00]), rsp, Err InvalidInput)
        else (quiet s', overwrite r rsp, Ok (length r))
    | (s', None) => (quiet s', rsp, Err UnexpectedEof)
    end.
Proof.
  intros Hl Hc Ws. unfold tcp_transact. cbn [port_ends tpm_tcp locality].
  replace (2 ^ 32 <=? Z.of_nat (length cmd)) with false by (symmetry; apply Z.leb_gt; exact Hc).
  unfold io_bind at 1.
  change (u32_bytes SendCommand) with (u32be 8). change (u32_bytes (Z.of_nat (length cmd))) with (u32be (Z.of_nat (length cmd))).
  rewrite (wires_write_whole true s _ _ (front_command l cmd Hl Hc)).
  pose proof (Ws s (AskCommand l cmd)) as Hr. destruct (f s (AskCommand l cmd)) as [s' [r|]]; cbn [fst snd framed].
  2:{ rewrite owing_nothing, wires_eof_u32. reflexivity. }
  specialize (Hr s' r eq_refl). cbn iota in Hr.
  fold (u32be (Z.of_nat (length r))). rewrite wires_read_u32 by apply be4_length. rewrite u32be_val by (unfold u32_ok; lia).
  destruct (Nat.ltb_spec (length rsp) (length r)) as [L|L].
  { replace (Z.of_nat (length rsp) <? Z.of_nat (length r)) with true by (symmetry; apply Z.ltb_lt; lia). reflexivity. }
  replace (Z.of_nat (length rsp) <? Z.of_nat (length r)) with false by (symmetry; apply Z.ltb_ge; lia).
  rewrite Nat2Z.id. unfold read_exact. rewrite wires_read by lia. rewrite wires_end. reflexivity.
Qed.

Lemma wires_handshake s l v : 0 <= v < 2 ^ 32 -> well_spoken f ->
  remote_handshake net (port_ends l) v (quiet s)
  = then_ (AskHandshake v) s (fun s' r => (quiet s', Ok (be_val (firstn 4 r), be_val (skipn 4 r)))).
Proof.
  intros Hv Ws. unfold remote_handshake, then_. cbn [port_ends tpm_tcp]. unfold io_bind at 1.
  rewrite (wires_write_whole true s _ (AskHandshake v)) by (apply front_number; auto).
  pose proof (Ws s (AskHandshake v)) as Hr. destruct (f s (AskHandshake v)) as [s' [r|]]; cbn [fst snd framed].
  2:{ unfold io_bind at 1. rewrite owing_nothing, wires_eof. reflexivity. }
  specialize (Hr s' r eq_refl). cbn iota in Hr.
  unfold io_bind at 1. rewrite wires_read_bytes by exact Hr. unfold io_bind. rewrite wires_end. reflexivity.
Qed.
Lemma wires_sizes s l : well_spoken f ->
  get_command_response_sizes net (port_ends l) (quiet s)
  = then_ AskSizes s (fun s' r => (quiet s', Ok (le_val (firstn 4 r), be_val (firstn 4 (skipn 4 r)),
                                                 le_val (firstn 4 (skipn 8 r)), be_val (skipn 12 r)))).
Proof.
  intros Ws. unfold get_command_response_sizes, then_. cbn [port_ends plat_tcp]. unfold io_bind at 1.
  rewrite (wires_write_all false s _ AskSizes) by reflexivity.
  pose proof (Ws s AskSizes) as Hr. destruct (f s AskSizes) as [s' [r|]]; cbn [fst snd framed].
  2:{ unfold io_bind at 1. rewrite owing_nothing, wires_eof_u32. reflexivity. }
  specialize (Hr s' r eq_refl). cbn iota in Hr.
  unfold io_bind at 1. rewrite wires_read_u32, be_val_bytes, Hr by apply be_bytes_length.
  change (negb (Z.of_nat 16 mod pow256 4 =? 16)) with false. cbn iota.
  unfold io_bind at 1. rewrite wires_read_bytes by exact Hr. unfold io_bind. rewrite wires_end. reflexivity.
Qed.
Lemma wires_act s l z : 0 <= z < 2 ^ 32 -> well_spoken f ->
  act_get_signaled net (port_ends l) z (quiet s)
  = then_ (AskAct z) s (fun s' r => (quiet s', Ok (be_val r))).
Proof.
  intros Hv Ws. unfold act_get_signaled, then_. cbn [port_ends plat_tcp]. unfold io_bind at 1.
  rewrite (wires_write_whole false s _ (AskAct z)) by (apply front_number; auto).
  pose proof (Ws s (AskAct z)) as Hr. destruct (f s (AskAct z)) as [s' [r|]]; cbn [fst snd framed].
  2:{ unfold io_bind at 1. rewrite owing_nothing, wires_eof_u32. reflexivity. }
  specialize (Hr s' r eq_refl). cbn iota in Hr.
  unfold io_bind at 1. rewrite wires_read_u32 by exact Hr. unfold io_bind. rewrite wires_end. reflexivity.
Qed.
Lemma wires_end_both s l code (q : bool -> request) :
  (code = 20 /\ q = AskEnd \/ code = 21 /\ q = AskStop) ->
  end_both net (port_ends l) code (quiet s) = (quiet (fst (f (fst (f s (q true))) (q false))), Ok tt).
Proof.
  intros Cs. unfold end_both. cbn [port_ends tpm_tcp plat_tcp].
  assert (Fr : forall h, front h (u32_bytes code) = Some (q h, []))
    by (intros h; destruct Cs as [[-> ->]|[-> ->]], h; reflexivity).
  assert (Em : forall h r, framed (q h) r = []) by (intros h r; destruct Cs as [[-> ->]|[-> ->]]; reflexivity).
  unfold io_bind. rewrite (wires_write_all true s _ _ (Fr true)), Em, owing_nothing. cbn [shutdown wires].
  rewrite (wires_write_all false _ _ _ (Fr false)), Em, owing_nothing. reflexivity.
Qed.
End Wires.

Ltac settle f :=
  cbn [at_hand]; unfold then_, done, io_bind, ask, unit_answer;
  repeat match goal with |- context [f ?s ?q] => destruct (f s q) as [? [?|]]; cbn [fst snd] end; reflexivity.

Lemma bytes_of_word b : (4 <= length b)%nat -> be_bytes 4 (word b) ++ skipn 4 b = b.
Proof.
  intros L. unfold word. replace 4%nat with (length (firstn 4 b)) at 1 by (rewrite firstn_length; lia).
  rewrite be_bytes_val. apply firstn_skipn.
Qed.
Lemma word_range b : 0 <= word b < 2 ^ 32.
Proof.
  unfold word. pose proof (be_val_range (firstn 4 b)) as R. pose proof (firstn_le_length 4 b) as L.
  destruct (length (firstn 4 b)) as [|[|[|[|[|]]]]]; cbn in R |- *; lia.
Qed.
Lemma same_pair {A B} (a c : A) (b d : B) : Some (a, b) = Some (c, d) -> a = c /\ b = d.
Proof. intros E. injection E. auto. Qed.
(** ** C81 *)
(** The simulator understands exactly the requests of the protocol, each on its
    port, from their first byte to their last. *)
Theorem c81_understood tpm_port b q rest :
  front tpm_port b = Some (q, rest) <-> speakable tpm_port q /\ b = spelled q ++ rest.
Proof.
  split.
  - unfold front. cbn zeta. destruct (Nat.ltb_spec (length b) 4) as [|L]; [discriminate|].
    pose proof (bytes_of_word b L) as B.
    assert (N : forall code (mk : Z -> request), word b = code ->
      (if (8 <=? length b)%nat then Some (mk (word (skipn 4 b)), skipn 8 b) else None) = Some (q, rest) ->
      exists z, 0 <= z < 2 ^ 32 /\ q = mk z /\ b = (be_bytes 4 code ++ be_bytes 4 z) ++ rest).
    { intros code mk W. destruct (Nat.leb_spec 8 (length b)); [|discriminate]. intros E. apply same_pair in E. destruct E as [<- <-].
      exists (word (skipn 4 b)). split; [apply word_range|]. split; [reflexivity|].
      change 8%nat with (4 + 4)%nat. rewrite <- skipn_skipn', <- app_assoc, bytes_of_word by (rewrite skipn_length; lia).
      rewrite <- W. symmetry. exact B. }
    destruct (Z.eqb_spec (word b) 20) as [W|_]; [intros E; apply same_pair in E; destruct E as [<- <-]; rewrite W in B; cbn [spelled speakable]; auto|].
    destruct (Z.eqb_spec (word b) 21) as [W|_]; [intros E; apply same_pair in E; destruct E as [<- <-]; rewrite W in B; cbn [spelled speakable]; auto|].
    destruct tpm_port.
    + destruct (Z.eqb_spec (word b) 5) as [W|_]; [intros E; apply same_pair in E; destruct E as [<- <-]; rewrite W in B; cbn [spelled speakable]; auto|].
      destruct (Z.eqb_spec (word b) 6) as [W|_].
      { destruct (Nat.leb_spec 8 (length b)); [|discriminate]. cbn [andb].
        set (n := Z.to_nat (word (skipn 4 b))). destruct (Nat.leb_spec (8 + n) (length b)); [|discriminate].
        intros E. apply same_pair in E. destruct E as [<- <-]. pose proof (word_range (skipn 4 b)) as R.
        assert (Ln : length (firstn n (skipn 8 b)) = n) by (rewrite firstn_length, skipn_length; lia).
        cbn [spelled speakable]. rewrite Ln.
        assert (En : Z.of_nat n = word (skipn 4 b)) by (unfold n; rewrite Z2Nat.id by lia; reflexivity).
        rewrite En. split; [split; [reflexivity|lia]|].
        rewrite <- !app_assoc, <- skipn_skipn', firstn_skipn. change 8%nat with (4 + 4)%nat.
        rewrite <- skipn_skipn', bytes_of_word by (rewrite skipn_length; lia). rewrite <- W. symmetry. exact B. }
      destruct (Z.eqb_spec (word b) 7) as [W|_]; [intros E; apply same_pair in E; destruct E as [<- <-]; rewrite W in B; cbn [spelled speakable]; auto|].
      destruct (Z.eqb_spec (word b) 8) as [W|_].
      { destruct (Nat.leb_spec 9 (length b)); [|discriminate]. cbn [andb].
        set (n := Z.to_nat (word (skipn 5 b))). destruct (Nat.leb_spec (9 + n) (length b)); [|discriminate].
        intros E. apply same_pair in E. destruct E as [<- <-]. pose proof (word_range (skipn 5 b)) as R.
        assert (Ln : length (firstn n (skipn 9 b)) = n) by (rewrite firstn_length, skipn_length; lia).
        assert (L1 : length (firstn 1 (skipn 4 b)) = 1%nat) by (rewrite firstn_length, skipn_length; lia).
        cbn [spelled speakable]. rewrite Ln.
        assert (En : Z.of_nat n = word (skipn 5 b)) by (unfold n; rewrite Z2Nat.id by lia; reflexivity). rewrite En.
        split; [split; [reflexivity|]; split; [|lia]; pose proof (be_val_range (firstn 1 (skipn 4 b))) as R1;
                rewrite L1 in R1; exact R1|].
        replace (be_bytes 1 (be_val (firstn 1 (skipn 4 b)))) with (firstn 1 (skipn 4 b))
          by (pose proof (be_bytes_val (firstn 1 (skipn 4 b))) as Q; rewrite L1 in Q; symmetry; exact Q).
        rewrite <- !app_assoc, <- skipn_skipn', firstn_skipn. change 9%nat with (5 + 4)%nat.
        rewrite <- skipn_skipn', bytes_of_word by (rewrite skipn_length; lia). change 5%nat with (4 + 1)%nat.
        rewrite <- skipn_skipn', firstn_skipn. rewrite <- W. symmetry. exact B. }
      destruct (Z.eqb_spec (word b) 15) as [W|_].
      { intros E. destruct (N 15 AskHandshake W E) as (z & R & -> & Eb). cbn [spelled speakable]. auto. }
      destruct (Z.eqb_spec (word b) 16) as [W|_]; [|discriminate].
      intros E. destruct (N 16 AskAlternative W E) as (z & R & -> & Eb). cbn [spelled speakable]. auto.
    + destruct (known_signal (word b)) as [s|] eqn:K.
      { intros E. apply same_pair in E. destruct E as [<- <-]. cbn [speakable spelled]. split; [reflexivity|].
        replace (signal_number s) with (word b); [symmetry; exact B|]. revert K. clear.
        unfold known_signal. cbn [find fst option_map snd].
        repeat (match goal with |- context [?c =? word b] => destruct (Z.eqb_spec c (word b)) as [<-|_] end;
          [intros E; injection E as <-; reflexivity|]). discriminate. }
      destruct (Z.eqb_spec (word b) 25) as [W|_]; [intros E; apply same_pair in E; destruct E as [<- <-]; rewrite W in B; cbn [spelled speakable]; auto|].
      destruct (Z.eqb_spec (word b) 26) as [W|_].
      { intros E. destruct (N 26 AskAct W E) as (z & R & -> & Eb). cbn [spelled speakable]. auto. }
      destruct (Z.eqb_spec (word b) 30) as [W|_]; [intros E; apply same_pair in E; destruct E as [<- <-]; rewrite W in B; cbn [spelled speakable]; auto|].
      destruct (Z.eqb_spec (word b) 35) as [W|_].
      { intros E. destruct (N 35 AskFirmwareHash W E) as (z & R & -> & Eb). cbn [spelled speakable]. auto. }
      destruct (Z.eqb_spec (word b) 36) as [W|_]; [|discriminate].
      intros E. destruct (N 36 AskFirmwareSvn W E) as (z & R & -> & Eb). cbn [spelled speakable]. auto.
  - intros [Sp ->].
    assert (Nm : forall x0 x1 x2 x3 z, 0 <= z < 2 ^ 32 -> exists t,
       ([x0; x1; x2; x3] ++ be_bytes 4 z) ++ rest = x0 :: x1 :: x2 :: x3 :: t /\ word t = z /\ skipn 4 t = rest
       /\ (4 <= length t)%nat).
    { intros x0 x1 x2 x3 z R. exists (be_bytes 4 z ++ rest). split; [reflexivity|].
      split; [apply word_app; exact R|]. split; [apply skip4|]. rewrite app_length, be_bytes_length. lia. }
    destruct q as [loc cmd| |data| |z|z|s| | |z|z|z|h|h]; cbn [speakable] in Sp; cbn [spelled].
    + destruct Sp as (-> & Hl & Hc).
      change (be_bytes 4 8) with [x00; x00; x00; x08].
      pose proof (be_bytes_length 1 loc) as L1. destruct (be_bytes 1 loc) as [|b0 [|]] eqn:E0; try discriminate.
      assert (V0 : be_val [b0] = loc) by (rewrite <- E0, be_val_bytes; apply Z.mod_small; cbn; lia).
      rewrite <- !app_assoc. cbn [app].
      set (t := be_bytes 4 (Z.of_nat (length cmd)) ++ cmd ++ rest).
      assert (T1 : word t = Z.of_nat (length cmd)) by (apply word_app; unfold u32_ok; lia).
      assert (T2 : skipn 4 t = cmd ++ rest) by apply skip4.
      assert (T3 : length t = (4 + length cmd + length rest)%nat)
        by (unfold t; rewrite !app_length, be_bytes_length; lia).
      clearbody t. unfold front. cbn zeta.
      change (word (x00 :: x00 :: x00 :: x08 :: b0 :: t)) with 8. cbn [Z.eqb Pos.eqb].
      change (skipn 5 (x00 :: x00 :: x00 :: x08 :: b0 :: t)) with t.
      change (skipn 9 (x00 :: x00 :: x00 :: x08 :: b0 :: t)) with (skipn 4 t).
      change (firstn 1 (skipn 4 (x00 :: x00 :: x00 :: x08 :: b0 :: t))) with [b0].
      cbn [length]. rewrite T1, T2, T3, V0, Nat2Z.id.
      replace (_ <? 4)%nat with false by (symmetry; apply Nat.ltb_ge; lia).
      replace (9 <=? _)%nat with true by (symmetry; apply Nat.leb_le; lia).
      replace (9 + length cmd <=? _)%nat with true by (symmetry; apply Nat.leb_le; lia). cbn [andb].
      change (skipn (9 + length cmd) (x00 :: x00 :: x00 :: x08 :: b0 :: t)) with (skipn (4 + length cmd) t).
      rewrite <- skipn_skipn', T2, firstn_app_exact', skipn_app_exact' by reflexivity. reflexivity.
    + subst. reflexivity.
    + destruct Sp as (-> & Hc). change (be_bytes 4 6) with [x00; x00; x00; x06].
      rewrite <- !app_assoc. cbn [app].
      set (t := be_bytes 4 (Z.of_nat (length data)) ++ data ++ rest).
      assert (T1 : word t = Z.of_nat (length data)) by (apply word_app; unfold u32_ok; lia).
      assert (T2 : skipn 4 t = data ++ rest) by apply skip4.
      assert (T3 : length t = (4 + length data + length rest)%nat)
        by (unfold t; rewrite !app_length, be_bytes_length; lia).
      clearbody t. unfold front. cbn zeta.
      change (word (x00 :: x00 :: x00 :: x06 :: t)) with 6. cbn [Z.eqb Pos.eqb].
      change (skipn 4 (x00 :: x00 :: x00 :: x06 :: t)) with t.
      change (skipn 8 (x00 :: x00 :: x00 :: x06 :: t)) with (skipn 4 t).
      cbn [length]. rewrite T1, T2, T3, Nat2Z.id.
      replace (_ <? 4)%nat with false by (symmetry; apply Nat.ltb_ge; lia).
      replace (8 <=? _)%nat with true by (symmetry; apply Nat.leb_le; lia).
      replace (8 + length data <=? _)%nat with true by (symmetry; apply Nat.leb_le; lia). cbn [andb].
      change (skipn (8 + length data) (x00 :: x00 :: x00 :: x06 :: t)) with (skipn (4 + length data) t).
      rewrite <- skipn_skipn', T2, firstn_app_exact', skipn_app_exact' by reflexivity. reflexivity.
    + subst. reflexivity.
    + destruct Sp as [-> R]. destruct (Nm x00 x00 x00 x0f z R) as (t & E & T1 & T2 & T3).
      change (be_bytes 4 15) with [x00; x00; x00; x0f]. rewrite E. destruct t as [|? [|? [|? [|? t]]]]; cbn in T3; try lia.
      cbn in T2. subst t z. reflexivity.
    + destruct Sp as [-> R]. destruct (Nm x00 x00 x00 x10 z R) as (t & E & T1 & T2 & T3).
      change (be_bytes 4 16) with [x00; x00; x00; x10]. rewrite E. destruct t as [|? [|? [|? [|? t]]]]; cbn in T3; try lia.
      cbn in T2. subst t z. reflexivity.
    + subst. destruct s; reflexivity.
    + subst. reflexivity.
    + subst. reflexivity.
    + destruct Sp as [-> R]. destruct (Nm x00 x00 x00 x1a z R) as (t & E & T1 & T2 & T3).
      change (be_bytes 4 26) with [x00; x00; x00; x1a]. rewrite E. destruct t as [|? [|? [|? [|? t]]]]; cbn in T3; try lia.
      cbn in T2. subst t z. reflexivity.
    + destruct Sp as [-> R]. destruct (Nm x00 x00 x00 x23 z R) as (t & E & T1 & T2 & T3).
      change (be_bytes 4 35) with [x00; x00; x00; x23]. rewrite E. destruct t as [|? [|? [|? [|? t]]]]; cbn in T3; try lia.
      cbn in T2. subst t z. reflexivity.
    + destruct Sp as [-> R]. destruct (Nm x00 x00 x00 x24 z R) as (t & E & T1 & T2 & T3).
      change (be_bytes 4 36) with [x00; x00; x00; x24]. rewrite E. destruct t as [|? [|? [|? [|? t]]]]; cbn in T3; try lia.
      cbn in T2. subst t z. reflexivity.
    + subst. reflexivity.
    + subst. reflexivity.
Qed.
(** A connection made with the default ports is the one of the theorems below. *)
Theorem c81_connected S pieces (f : machine S) ip x :
  connect (wires pieces f) ip None None x = (x, Ok (port_ends 0)).
Proof. reflexivity. Qed.
Example c81_understood_case :
  front true ([x00; x00; x00; x08; x03; x00; x00; x00; x02; xaa; xbb] ++ [x00; x00]) = Some (AskCommand 3 [xaa; xbb], [x00; x00])
  /\ front true [x00; x00; x00; x08; x03; x00; x00; x00; x02; xaa] = None
  /\ front false [x00; x00; x00; x01; xff] = Some (AskSignal PowerOn, [xff])
  /\ front true [x00; x00; x00; x01; xff] = None.
Proof. vm_compute. auto. Qed.

(** One call of a connection to a simulator at rest, with any machine behind it
    and however the answers are cut into pieces: the machine is asked for what
    the call means, the caller gets its answer, and the simulator is at rest
    again. *)
Theorem c81_call S pieces (f : machine S) l o s :
  well_spoken f -> 0 <= l < 256 -> operation_ok o ->
  (forall command response, o = Transact command response ->
     forall s' r, f s (AskCommand l command) = (s', Some r) -> (length r <= length response)%nat) ->
  perform (wires pieces f) (port_ends l) o (quiet s)
  = (port_ends (locality_after l o), quiet (fst (at_hand f l o s)), snd (at_hand f l o s)).
Proof.
  intros Ws Hl Ho Hr.
  destruct o as [command response|data|v|z|g| | | |z|z|z|l'| |]; cbn [perform locality_after]; cbn [operation_ok] in Ho.
  - rewrite wires_transact by assumption. cbn [at_hand]. unfold io_bind, ask.
    specialize (Hr command response eq_refl). destruct (f s (AskCommand l command)) as [s' [r|]]; [|reflexivity].
    specialize (Hr s' r eq_refl). destruct (Nat.ltb_spec (length response) (length r)); [lia|].
    cbn [omap io_ret fst snd]. rewrite firstn_overwrite. reflexivity.
  - rewrite wires_hcrtm by assumption. settle f.
  - rewrite wires_handshake by assumption. settle f.
  - unfold set_alternative_result. rewrite (whole_last pieces f true _ (AskAlternative z)) by (first [assumption|reflexivity|apply front_number; auto 6]).
    settle f.
  - rewrite wires_signal by assumption. settle f.
  - rewrite wires_reinit by assumption. settle f.
  - unfold test_failure_mode. rewrite (all_last pieces f false _ (AskFailureMode)) by (first [assumption|reflexivity|apply front_number; auto 6]).
    settle f.
  - rewrite wires_sizes by assumption. settle f.
  - rewrite wires_act by assumption. settle f.
  - unfold set_firmware_hash. rewrite (whole_last pieces f false _ (AskFirmwareHash z)) by (first [assumption|reflexivity|apply front_number; auto 6]).
    settle f.
  - unfold set_firmware_svn. rewrite (whole_last pieces f false _ (AskFirmwareSvn z)) by (first [assumption|reflexivity|apply front_number; auto 6]).
    settle f.
  - reflexivity.
  - unfold session_end. rewrite (wires_end_both pieces f s l _ AskEnd) by auto. reflexivity.
  - unfold stop_simulator. rewrite (wires_end_both pieces f s l _ AskStop) by auto. reflexivity.
Qed.

(** So a whole session of control calls, commands of the client and changes of
    locality, in any order, on both ports: every result is the one that the
    machine itself gives, and the machine ends in the same state. *)
Theorem c81_session S pieces (f : machine S) l s calls :
  well_spoken f -> modest f -> 0 <= l < 256 -> Forall call_ok calls ->
  wired pieces f (port_ends l) (quiet s) calls
  = (quiet (fst (unwired f l s calls)), snd (unwired f l s calls)).
Proof.
  intros Ws Mo Hl Ho. revert l s Hl.
  induction Ho as [|[o|c cmd handles a] calls Hs _ IH]; intros l s Hl; [reflexivity| |]; cbn [wired unwired].
  - destruct Hs as [Ho Hr]. rewrite c81_call; [|assumption..|].
    2:{ intros command response -> s' r E. apply Mo in E. lia. }
    assert (Hl' : 0 <= locality_after l o < 256) by (destruct o; cbn in *; lia).
    destruct (at_hand f l o s) as [s' r]. cbn [fst snd]. rewrite IH by exact Hl'.
    destruct (unwired f (locality_after l o) s' calls). reflexivity.
  - assert (E : run_command_with_handles FromTss (tcp_connection (wires pieces f) (port_ends l)) (quiet s) c cmd handles a
                = (quiet (fst (run_command_with_handles FromTss (machine_connection f l) s c cmd handles a)),
                   snd (run_command_with_handles FromTss (machine_connection f l) s c cmd handles a))).
    { unfold run_command_with_handles. pose proof (built_short c cmd handles a) as B.
      destruct (build_command c cmd handles a) as [bytes|e|]; [|reflexivity..].
      specialize (B bytes Hs eq_refl). cbn [transact tcp_connection machine_connection at_hand].
      rewrite wires_transact by assumption. unfold io_bind, ask.
      pose proof (Mo s l bytes) as M. destruct (f s (AskCommand l bytes)) as [s' [r|]]; [|reflexivity].
      specialize (M s' r eq_refl). rewrite repeat_length.
      destruct (Nat.ltb_spec RESP_BUFFER_SIZE (length r)) as [L|L]; [unfold RESP_BUFFER_SIZE in L; lia|].
      reflexivity. }
    rewrite E. destruct (run_command_with_handles FromTss (machine_connection f l) s c cmd handles a) as [s' r].
    cbn [fst snd]. rewrite IH by exact Hl. destruct (unwired f l s' calls). reflexivity.
Qed.

(** What is asked of the machine, in order: a machine that keeps a list of it
    shows that nothing else is. *)
Definition noting {S} (f : machine S) : machine (S * list request) := fun s q =>
  let '(s', r) := f (fst s) q in ((s', snd s ++ [q]), r).
Definition asked (l : Z) (o : operation) : list request :=
  match o with
  | Transact command _ => [AskCommand l command]
  | Hcrtm data => [AskHashStart; AskHashData data; AskHashEnd]
  | Handshake v => [AskHandshake v]
  | AlternativeResult z => [AskAlternative z]
  | Signal s => [AskSignal s]
  | Reinit => [AskSignal NvOff; AskSignal PowerOff; AskSignal PowerOn; AskSignal NvOn]
  | FailureMode => [AskFailureMode]
  | ResponseSizes => [AskSizes]
  | ActSignaled z => [AskAct z]
  | FirmwareHash z => [AskFirmwareHash z]
  | FirmwareSvn z => [AskFirmwareSvn z]
  | Locality _ => []
  | EndSession => [AskEnd true; AskEnd false]
  | StopSimulator => [AskStop true; AskStop false]
  end.
Ltac asked_case f log :=
  repeat match goal with |- context [f ?s ?q] => destruct (f s q) as [? [?|]]; cbn [fst snd] end;
  rewrite <- ?app_assoc; cbn [app];
  (do 3 eexists; split; [reflexivity|]; split; [eexists; cbn [app]; reflexivity|];
   split; [intros ? X; try discriminate X; reflexivity|];
   first [left; reflexivity|right; eexists; reflexivity]).
Lemma noting_spoken {S} (f : machine S) : well_spoken f -> well_spoken (noting f).
Proof.
  intros Ws [s log] q s' r E. unfold noting in E. cbn [fst snd] in E.
  destruct (f s q) as [s1 r1] eqn:F. injection E as _ ->. exact (Ws s q s1 r F).
Qed.
(** Every call asks the machine for exactly this, or for the beginning of it if
    the machine falls silent, and then the call is an error. *)
Theorem c81_asked S pieces (f : machine S) l o s log :
  well_spoken f -> 0 <= l < 256 -> operation_ok o ->
  (forall command response, o = Transact command response ->
     forall s' r, f s (AskCommand l command) = (s', Some r) -> (length r <= length response)%nat) ->
  exists s' seen r,
    perform (wires pieces (noting f)) (port_ends l) o (quiet (s, log))
    = (port_ends (locality_after l o), quiet (s', log ++ seen), r)
    /\ (exists more, seen ++ more = asked l o)
    /\ (forall a, r = Ok a -> seen = asked l o)
    /\ (r = Err UnexpectedEof \/ exists a, r = Ok a).
Proof.
  intros Ws Hl Ho Hr.
  rewrite c81_call; [|now apply noting_spoken|assumption..|].
  2:{ intros command response -> [s' log'] r E. unfold noting in E. cbn [fst snd] in E.
      specialize (Hr command response eq_refl). destruct (f s (AskCommand l command)) as [s1 r1].
      injection E as _ _ ->. exact (Hr s1 r eq_refl). }
  destruct o as [command response|data|v|z|g| | | |z|z|z|l'| |]; cbn [at_hand asked];
    unfold done, io_bind, ask, tell, noting; cbn [fst snd].
  - specialize (Hr command response eq_refl). destruct (f s (AskCommand l command)) as [s1 [r1|]]; cbn [fst snd].
    + specialize (Hr s1 r1 eq_refl). destruct (Nat.ltb_spec (length response) (length r1)); [lia|].
      do 3 eexists. split; [reflexivity|]. split; [exists []; reflexivity|]. split; [reflexivity|]. right. eexists; reflexivity.
    + do 3 eexists. split; [reflexivity|]. split; [exists []; reflexivity|]. split; [discriminate|]. left. reflexivity.
  - asked_case f log.
  - asked_case f log.
  - asked_case f log.
  - asked_case f log.
  - asked_case f log.
  - asked_case f log.
  - asked_case f log.
  - asked_case f log.
  - asked_case f log.
  - asked_case f log.
  - exists s, [], (Ok Done). rewrite app_nil_r. split; [reflexivity|]. split; [exists []; reflexivity|].
    split; [reflexivity|]. right. eexists; reflexivity.
  - asked_case f log.
  - asked_case f log.
Qed.

(** A machine: it has power or not, answers commands with an error code that
    depends on that, and does not answer in failure mode. *)
Definition bulb : machine (bool * bool) := fun '(on, failed) q =>
  match q with
  | AskSignal PowerOn => ((true, failed), Some [])
  | AskSignal PowerOff => ((false, failed), Some [])
  | AskFailureMode => ((on, true), Some [])
  | AskCommand _ _ =>
      ((on, failed), if failed then None
                     else Some (be_bytes 2 0x8001 ++ be_bytes 4 10 ++ be_bytes 4 (if on then 0x143 else 0x100)))
  | AskHandshake v => ((on, failed), Some (be_bytes 4 (v + 1) ++ be_bytes 4 7))
  | AskSizes => ((on, failed), Some (repeat x01 16))
  | AskAct h => ((on, failed), Some (be_bytes 4 h))
  | _ => ((on, failed), Some [])
  end.
(** Every call whose arguments are of their types is covered, with the client's
    own response buffer. *)
Example c81_covered :
  (forall l, 0 <= l <= 255 -> call_ok (Call (Locality l)))
  /\ (forall z, 0 <= z <= 4294967295 -> call_ok (Call (ActSignaled z)))
  /\ (forall cmd, Z.of_nat (length cmd) <= 4294967295 -> call_ok (Call (Transact cmd (repeat x00 RESP_BUFFER_SIZE)))).
Proof. repeat split; cbn in *; try lia. Qed.
Example c81_example :
  let calls := [Call (Handshake 1); RunCommand GetRandom (VStruct [VInt 2]) VUnit area0; Call Reinit;
                Call (Locality 3); Call (Hcrtm [x61; x62]); RunCommand GetRandom (VStruct [VInt 2]) VUnit area0;
                Call (ActSignaled 5); Call ResponseSizes; Call FailureMode;
                RunCommand GetRandom (VStruct [VInt 2]) VUnit area0; Call (Signal NvOff); Call EndSession] in
  well_spoken bulb /\ modest bulb /\ Forall call_ok calls
  /\ wired (fun _ _ => 3%nat) bulb (port_ends 0) (quiet (false, false)) calls
     = (quiet (true, true),
        [Called (Ok (Versions 2 7)); Ran (Err (FromTss 0x100)); Called (Ok Done);
         Called (Ok Done); Called (Ok Done); Ran (Err (FromTss 0x143));
         Called (Ok (Number 5)); Called (Ok (Sizes 0x01010101 0x01010101 0x01010101 0x01010101)); Called (Ok Done);
         Ran (Err UnexpectedEof); Called (Ok Done); Called (Ok Done)]).
Proof.
  cbn zeta. split; [|split; [|split]].
  - intros [on fl] q s' r E.
    destruct q as [| | | | | |[]| | | | | | |]; cbn [bulb] in E; try (injection E as _ <-; reflexivity).
    destruct fl; [discriminate|]. injection E as _ <-. reflexivity.
  - intros [on fl] l cmd s' r E. cbn [bulb] in E. destruct fl; [discriminate|]. injection E as _ <-. cbn. lia.
  - repeat constructor; cbn; lia.
  - vm_compute. reflexivity.
Qed.
(** The machine is asked for the three steps of the sequence, and for no more
    than the first if it does not answer that. *)
Example c81_asked_example :
  asked 0 (Hcrtm [x61]) = [AskHashStart; AskHashData [x61]; AskHashEnd]
  /\ let silent : machine unit := fun _ _ => (tt, None) in
     well_spoken silent
     /\ perform (wires (fun _ n => n) (noting silent)) (port_ends 0) (Hcrtm [x61]) (quiet (tt, []))
        = (port_ends 0, quiet (tt, [AskHashStart]), Err UnexpectedEof).
Proof. repeat split; try discriminate. Qed.
