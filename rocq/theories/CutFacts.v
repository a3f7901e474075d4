(** A simulator whose client dies, or is cut off, in any call (C109). *)
From Coq Require Import String ZArith NArith List Lia Bool.
From Coq Require Import Init.Byte.
From Verif Require Import Prelude Types Marshal WireSpec Catalogue Errors Tpm2b Client ClientSpec ClientProofs ClientFacts
  Tcp TcpSpec TcpProofs Remote RemoteFacts Controls ControlsFacts Crowd CrowdProofs CrowdFacts Cut.
Import ListNotations.
Open Scope Z_scope.

(** ** Calls ask their requests in order *)
Section Asks.
Context {A : Type} (ok : A -> bool).
(** A call that cannot write any more. *)
Inductive stuck (h : bool) : talk A -> Prop :=
| stuck_said a : ok a = false -> stuck h (Said a)
| stuck_writes bytes k : bytes <> [] -> (forall e, stuck h (k (Err e))) -> stuck h (k (Ok 0%nat)) -> stuck h (Writes h bytes k).
Inductive asks : list request -> talk A -> Prop :=
| asks_said qs a : (ok a = true -> qs = []) -> asks qs (Said a)
| asks_reads qs h n k : (forall o, asks qs (k o)) -> asks qs (Reads h n k)
| asks_shuts qs h k : (forall o, asks qs (k o)) -> asks qs (Shuts h k)
| asks_writes q qs k : speakable (on_port q) q -> asks qs (k (Ok (length (spelled q)))) ->
    (forall e, stuck (on_port q) (k (Err e))) -> (forall n, (n < length (spelled q))%nat -> stuck (on_port q) (k (Ok n))) ->
    asks (q :: qs) (Writes (on_port q) (spelled q) k).
End Asks.
Definition is_ok {E A} (o : outcome E A) : bool := match o with Ok _ => true | _ => false end.
Lemma stuck_next {A B} ok ok' h (p : talk A) (f : A -> talk B) :
  stuck ok h p -> (forall a, ok a = false -> exists b, f a = Said b /\ ok' b = false) -> stuck ok' h (next p f).
Proof.
  intros St F. induction St as [a E|bytes k N _ IH1 _ IH2]; cbn [next].
  - destruct (F a E) as (b & -> & Eb). now apply stuck_said.
  - apply stuck_writes; assumption.
Qed.
Lemma asks_next {A B} ok ok' qs qs' (p : talk A) (f : A -> talk B) :
  asks ok qs p -> (forall a, ok a = true -> asks ok' qs' (f a)) ->
  (forall a, ok a = false -> exists b, f a = Said b /\ ok' b = false) -> asks ok' (qs ++ qs') (next p f).
Proof.
  intros As T F. induction As as [qs a E|qs h n k _ IH|qs h k _ IH|q qs k Sp _ IH St1 St2]; cbn [next app].
  - destruct (ok a) eqn:Ea.
    + rewrite E by reflexivity. now apply T.
    + destruct (F a Ea) as (b & -> & Eb). apply asks_said. congruence.
  - apply asks_reads. exact IH.
  - apply asks_shuts. exact IH.
  - apply asks_writes; [exact Sp|exact IH|..]; intros; eapply stuck_next; eauto.
Qed.
Lemma asks_try {A B} qs qs' (m : failing A) (f : A -> failing B) :
  asks is_ok qs m -> (forall a, asks is_ok qs' (f a)) -> asks is_ok (qs ++ qs') (try m f).
Proof.
  intros M F. eapply asks_next; [exact M|..]; intros [a|e|] E; try discriminate; [apply F|eexists; split; reflexivity..].
Qed.
Lemma asks_shown {A B} qs (f : A -> B) m : asks is_ok qs m -> asks is_ok qs (shown f m).
Proof.
  intros M. rewrite <- (app_nil_r qs). eapply asks_next; [exact M|..]; intros [a|e|] E; try discriminate.
  - apply asks_said. reflexivity.
  - eexists. split; reflexivity.
  - eexists. split; reflexivity.
Qed.
Lemma asks_fine {A} (a : A) : asks is_ok [] (fine a).
Proof. apply asks_said. reflexivity. Qed.
Lemma asks_fails {A} qs e : asks is_ok qs (@fails A e).
Proof. apply asks_said. discriminate. Qed.
Lemma asks_nothing {A} qs (a : outcome io_error A) : is_ok a = false -> asks is_ok qs (Said a).
Proof. intros E. apply asks_said. congruence. Qed.
Definition read_ok (x : list byte * outcome io_error unit) : bool := is_ok (snd x).
Lemma asks_read_loop h : forall fuel n, asks read_ok [] (read_loop_t fuel h n).
Proof.
  induction fuel as [|fuel IH]; intros [|n]; cbn [read_loop_t]; try (apply asks_said; reflexivity).
  apply asks_reads. intros [[|b bs]|e|]; try (apply asks_said; reflexivity).
  destruct (_ <? _)%nat; [apply asks_said; reflexivity|].
  change (@nil request) with (@nil request ++ []). eapply asks_next; [apply IH|..]; intros [rest r] E; cbv beta iota.
  - apply asks_said. reflexivity.
  - eexists. split; [reflexivity|exact E].
Qed.
Lemma asks_read_bytes h n : asks is_ok [] (read_bytes_t h n).
Proof.
  change (@nil request) with (@nil request ++ []). eapply asks_next; [apply asks_read_loop|..]; intros [bs [u|e|]] E; try discriminate.
  - apply asks_said. reflexivity.
  - eexists. split; reflexivity.
  - eexists. split; reflexivity.
Qed.
Lemma asks_u32 h : asks is_ok [] (read_u32_t h).
Proof. apply (asks_try [] []); [apply asks_read_bytes|]. intros a. apply asks_fine. Qed.
Lemma asks_check h : asks is_ok [] (check_end_t h).
Proof. apply (asks_try [] []); [apply asks_u32|]. intros z. destruct (z =? 0); [apply asks_fine|apply asks_fails]. Qed.
Lemma asks_shut h : asks is_ok [] (Shuts h Said).
Proof. apply asks_shuts. intros o. apply asks_said. reflexivity. Qed.
(** The two ways of writing. *)
Lemma asks_write_whole q bytes : speakable (on_port q) q -> bytes = spelled q ->
  asks is_ok [q] (write_whole_t (on_port q) bytes).
Proof.
  intros Sp ->. unfold write_whole_t, raw_write_t, try. cbn [next]. apply asks_writes; [exact Sp|..].
  - rewrite Nat.eqb_refl. apply asks_fine.
  - intros e. apply stuck_said. reflexivity.
  - intros n L. replace (n =? length (spelled q))%nat with false by (symmetry; apply Nat.eqb_neq; lia).
    apply stuck_said. reflexivity.
Qed.
Lemma stuck_loop h fuel buf : buf <> [] -> stuck is_ok h (write_loop_t fuel h buf).
Proof.
  intros N. destruct buf as [|b buf]; [contradiction|]. destruct fuel as [|fuel]; cbn [write_loop_t]; [apply stuck_said; reflexivity|].
  apply stuck_writes; [discriminate|intros e; apply stuck_said; reflexivity|apply stuck_said; reflexivity].
Qed.
Lemma asks_write_all q bytes : speakable (on_port q) q -> bytes = spelled q ->
  asks is_ok [q] (write_all_t (on_port q) bytes).
Proof.
  intros Sp ->. unfold write_all_t. pose proof (asked_something q) as N.
  destruct (spelled q) as [|b buf] eqn:E; [contradiction|]. cbn [length write_loop_t]. rewrite <- E.
  apply asks_writes; [exact Sp|..]; rewrite ?E.
  - cbn [length]. rewrite Nat.ltb_irrefl.
    replace (skipn (S (length buf)) (b :: buf)) with (@nil byte) by (symmetry; apply skipn_all2; cbn [length]; lia).
    destruct (length buf); apply asks_fine.
  - intros e. apply stuck_said. reflexivity.
  - intros [|n] L; [apply stuck_said; reflexivity|].
    cbn [length] in L |- *. replace (S (length buf) <? S n)%nat with false by (symmetry; apply Nat.ltb_ge; lia).
    apply stuck_loop. intros X. apply (f_equal (@length byte)) in X. rewrite skipn_length in X. cbn [length] in *. lia.
Qed.
Definition sent_ok {X} (x : list byte * outcome io_error X) : bool := is_ok (snd x).
Lemma asks_transact loc command response : 0 <= loc < 256 -> Z.of_nat (length command) < 2 ^ 32 ->
  asks sent_ok [AskCommand loc command] (transact_t loc command response).
Proof.
  intros Hl Hc. unfold transact_t.
  replace (2 ^ 32 <=? Z.of_nat (length command)) with false by (symmetry; apply Z.leb_gt; exact Hc).
  change [AskCommand loc command] with (([AskCommand loc command] ++ []) ++ []).
  eapply asks_next; [apply asks_try|..].
  - apply (asks_write_whole (AskCommand loc command)); [cbn [on_port speakable]; auto|reflexivity].
  - intros _. apply asks_u32.
  - intros [len|e|] E; try discriminate. destruct (_ <? _); [apply asks_said; reflexivity|]. cbv zeta.
    change (@nil request) with (@nil request ++ []). eapply asks_next; [apply asks_read_loop|..]; intros [bs [u|e|]] Er; try discriminate.
    + change (@nil request) with (@nil request ++ []). eapply asks_next; [apply asks_check|..]; intros [[]|e|] Ec; try discriminate.
      * apply asks_said. reflexivity.
      * eexists. split; reflexivity.
      * eexists. split; reflexivity.
    + eexists. split; reflexivity.
    + eexists. split; reflexivity.
  - intros [len|e|] E; try discriminate; eexists; split; reflexivity.
Qed.
Lemma asks_ack q (m : failing unit) : asks is_ok [q] m -> forall h, asks is_ok [q] (try m (fun _ => check_end_t h)).
Proof. intros M h. apply (asks_try [q] []); [exact M|]. intros _. apply asks_check. Qed.
Lemma asks_acks {A} q qs (m : failing unit) (rest : failing A) h : asks is_ok [q] m -> asks is_ok qs rest ->
  asks is_ok (q :: qs) (try m (fun _ => try (check_end_t h) (fun _ => rest))).
Proof.
  intros M R. apply (asks_try [q] qs); [exact M|]. intros _. apply (asks_try [] qs); [apply asks_check|]. intros _. exact R.
Qed.
Lemma asks_signal g : asks is_ok [AskSignal g] (signal_t g).
Proof. apply asks_ack, (asks_write_all (AskSignal g)); [reflexivity|destruct g; reflexivity]. Qed.
Lemma asks_operation loc o : 0 <= loc < 256 -> operation_ok o -> asks is_ok (requests_of loc (Call o)) (operation_t loc o).
Proof.
  intros Hl Ho. destruct o as [command response|data|v|z|g| | | |z|z|z|l'| |]; cbn [operation_t requests_of]; cbn [operation_ok] in Ho.
  - change [AskCommand loc command] with ([AskCommand loc command] ++ []).
    eapply asks_next; [apply asks_transact; assumption|..]; intros [rsp [n|e|]] E; try discriminate.
    + apply asks_said. reflexivity.
    + eexists. split; reflexivity.
    + eexists. split; reflexivity.
  - apply asks_shown. unfold hcrtm_t.
    apply asks_acks; [apply (asks_write_all AskHashStart); reflexivity|].
    apply asks_acks; [|apply asks_ack, (asks_write_all AskHashEnd); reflexivity].
    apply (asks_write_whole (AskHashData data)); [split; [reflexivity|exact Ho]|]. rewrite Z.mod_small by lia. reflexivity.
  - apply asks_shown. unfold handshake_t. apply (asks_try [AskHandshake v] []).
    { apply (asks_write_whole (AskHandshake v)); [split; [reflexivity|exact Ho]|reflexivity]. }
    intros _. apply (asks_try [] []); [apply asks_read_bytes|]. intros r. apply (asks_try [] []); [apply asks_check|]. intros _. apply asks_fine.
  - apply asks_shown, asks_ack, (asks_write_whole (AskAlternative z)); [split; [reflexivity|exact Ho]|reflexivity].
  - apply asks_shown, asks_signal.
  - apply asks_shown. unfold reinit_t.
    do 3 (refine (asks_try [_] _ _ _ (asks_signal _) _); intros _). apply asks_signal.
  - apply asks_shown, asks_ack, (asks_write_all AskFailureMode); reflexivity.
  - apply asks_shown. unfold sizes_t. apply (asks_try [AskSizes] []); [apply (asks_write_all AskSizes); reflexivity|].
    intros _. apply (asks_try [] []); [apply asks_u32|]. intros n. destruct (negb _); [apply asks_fails|].
    apply (asks_try [] []); [apply asks_read_bytes|]. intros r. apply (asks_try [] []); [apply asks_check|]. intros _. apply asks_fine.
  - apply asks_shown. unfold act_t. apply (asks_try [AskAct z] []).
    { apply (asks_write_whole (AskAct z)); [split; [reflexivity|exact Ho]|reflexivity]. }
    intros _. apply (asks_try [] []); [apply asks_u32|]. intros r. apply (asks_try [] []); [apply asks_check|]. intros _. apply asks_fine.
  - apply asks_shown, asks_ack, (asks_write_whole (AskFirmwareHash z)); [split; [reflexivity|exact Ho]|reflexivity].
  - apply asks_shown, asks_ack, (asks_write_whole (AskFirmwareSvn z)); [split; [reflexivity|exact Ho]|reflexivity].
  - apply asks_fine.
  - apply asks_shown. unfold end_both_t. apply (asks_try [AskEnd true] [AskEnd false]); [apply (asks_write_all (AskEnd true)); reflexivity|].
    intros _. apply (asks_try [] [AskEnd false]); [apply asks_shut|]. intros _.
    apply (asks_try [AskEnd false] []); [apply (asks_write_all (AskEnd false)); reflexivity|]. intros _. apply asks_shut.
  - apply asks_shown. unfold end_both_t. apply (asks_try [AskStop true] [AskStop false]); [apply (asks_write_all (AskStop true)); reflexivity|].
    intros _. apply (asks_try [] [AskStop false]); [apply asks_shut|]. intros _.
    apply (asks_try [AskStop false] []); [apply (asks_write_all (AskStop false)); reflexivity|]. intros _. apply asks_shut.
Qed.
Lemma asks_command loc c cmd handles a : 0 <= loc < 256 -> valid_call c cmd handles a ->
  asks is_ok (requests_of loc (RunCommand c cmd handles a)) (command_t loc c cmd handles a).
Proof.
  intros Hl V. unfold command_t, requests_of.
  destruct (Z.leb_spec (Z.of_nat (length (command_frame c cmd handles a))) 4096) as [L|L].
  - rewrite (build_frame c cmd handles a V L).
    change [AskCommand loc ?x] with ([AskCommand loc x] ++ []).
    eapply asks_next; [apply asks_transact; [exact Hl|lia]|..]; intros [rsp [n|e|]] E; try discriminate.
    + apply asks_said. reflexivity.
    + eexists. split; reflexivity.
    + eexists. split; reflexivity.
  - destruct (build_too_long c cmd handles a V) as [E|E]; [unfold fits; lia| |]; rewrite E; apply asks_nothing; reflexivity.
Qed.

(** ** Over ports that are cut off *)
Section Over.
Context {R S : Type} (adv : whims R S) (f : machine S).
Local Notation sys := (cut_off adv f).
(** Whatever arrived and is not dealt with is the beginning of a request that was cut. *)
Definition remains (w : cut R S) : Prop := forall h,
  port h (got (far_end w)) = []
  \/ (room_at h (room w) = 0%nat /\ front h (port h (got (far_end w))) = None).
(** How much was taken in all. *)
Definition within_room (w w' : cut R S) (qs : list request) : Prop := forall h,
  (length (sent_on h qs) + length (port h (got (far_end w'))) + room_at h (room w')
   <= length (port h (got (far_end w))) + room_at h (room w))%nat.
Lemma sent_on_app h a b : sent_on h (a ++ b) = sent_on h a ++ sent_on h b.
Proof. unfold sent_on. now rewrite filter_app, flat_map_app. Qed.
Lemma does_app s a b : does f s (a ++ b) = does f (does f s a) b.
Proof. apply fold_left_app. Qed.
Lemma within_none w : within_room w w [].
Proof. intros h. cbn. lia. Qed.
Lemma within_trans w1 w2 w3 a b : within_room w1 w2 a -> within_room w2 w3 b -> within_room w1 w3 (a ++ b).
Proof. intros H1 H2 h. specialize (H1 h). specialize (H2 h). rewrite sent_on_app, app_length. lia. Qed.
(** Nothing is dealt with twice, and nothing incomplete. *)
Lemma arrives_nothing h b : front h (port h (got b)) = None -> arrives f h [] b = b.
Proof.
  intros F. unfold arrives. rewrite app_nil_r.
  assert (E : {| unit_ := unit_ b; got := set_port h (port h (got b)) (got b); due := due b |} = b).
  { destruct b as [u [g1 g2] d]. destruct h; reflexivity. }
  rewrite E. destruct (length (port h (got b))); cbn [work]; [reflexivity|]. now rewrite F.
Qed.
Lemma front_nothing h : front h [] = None.
Proof. destruct h; reflexivity. Qed.
Lemma front_begun h q n : (n < length (spelled q))%nat -> speakable h q -> front h (firstn n (spelled q)) = None.
Proof.
  intros L Sp. destruct (front h (firstn n (spelled q))) as [[q' rest]|] eqn:F; [|reflexivity].
  apply c81_understood in F as [Sp' E].
  assert (F : front h (spelled q) = Some (q', rest ++ skipn n (spelled q))).
  { apply c81_understood. split; [exact Sp'|]. rewrite app_assoc, <- E. symmetry. apply firstn_skipn. }
  assert (F' : front h (spelled q) = Some (q, [])) by (apply c81_understood; rewrite app_nil_r; auto).
  rewrite F in F'. injection F' as -> X. apply app_eq_nil in X as [_ X].
  apply (f_equal (@length byte)) in X. rewrite skipn_length in X. cbn in X. lia.
Qed.
Lemma arrives_whole h q b : speakable h q -> port h (got b) = [] ->
  unit_ (arrives f h (spelled q) b) = fst (f (unit_ b) q)
  /\ forall h', port h' (got (arrives f h (spelled q) b)) = port h' (got b).
Proof.
  intros Sp E. unfold arrives. rewrite E. cbn [app].
  assert (Fr : front h (spelled q) = Some (q, [])) by (apply c81_understood; rewrite app_nil_r; auto).
  pose proof (asked_something q) as N. destruct (length (spelled q)) as [|m] eqn:Lm; [destruct (spelled q); [contradiction|discriminate]|].
  cbn [work got unit_ due]. rewrite ControlsFacts.port_set, Fr.
  destruct (f (unit_ b) q) as [s' r]. rewrite set_set.
  assert (W : forall fuel x, port h (got x) = [] -> work f fuel h x = x).
  { intros [|fuel] x Ex; cbn [work]; [reflexivity|]. now rewrite Ex, front_nothing. }
  rewrite W by (cbn [got]; apply ControlsFacts.port_set). cbn [unit_ got fst]. split; [reflexivity|].
  intros h'. destruct b as [u [g1 g2] d]. destruct h, h'; cbn in *; congruence.
Qed.
Lemma arrives_begun h q n b : (n < length (spelled q))%nat -> speakable h q -> port h (got b) = [] ->
  unit_ (arrives f h (firstn n (spelled q)) b) = unit_ b
  /\ port h (got (arrives f h (firstn n (spelled q)) b)) = firstn n (spelled q)
  /\ port (negb h) (got (arrives f h (firstn n (spelled q)) b)) = port (negb h) (got b).
Proof.
  intros L Sp E. unfold arrives. rewrite E. cbn [app].
  assert (W : forall fuel x, front h (port h (got x)) = None -> work f fuel h x = x).
  { intros [|fuel] x Ex; cbn [work]; [reflexivity|]. now rewrite Ex. }
  rewrite W by (cbn [got]; rewrite ControlsFacts.port_set; now apply front_begun). cbn [unit_ got].
  rewrite ControlsFacts.port_set. split; [reflexivity|]. split; [reflexivity|]. destruct b as [u [g1 g2] d]. destruct h; reflexivity.
Qed.
Lemma room_set h k n : room_at h (set_room h k n) = k.
Proof. destruct h; reflexivity. Qed.
Lemma room_other h k n : room_at (negb h) (set_room h k n) = room_at (negb h) n.
Proof. destruct h; reflexivity. Qed.
Lemma ports_all (P : bool -> Prop) h : P h -> P (negb h) -> forall h', P h'.
Proof. destruct h; intros A B []; assumption. Qed.
(** A port that takes nothing. *)
Lemma refused h buf w : remains w -> buf <> [] -> room_at h (room w) = 0%nat ->
  write sys w h buf = (w, match refuses adv (adversary w) with Some e => Err e | None => Ok 0%nat end).
Proof.
  intros Re N Z. cbn [write cut_off]. rewrite Z, Nat.min_0_r. cbn [firstn Nat.sub].
  destruct buf as [|b buf]; [contradiction|]. cbn [length Nat.eqb]. f_equal.
  rewrite arrives_nothing.
  - destruct w as [r [n1 n2] b0]. destruct h; cbn in *; subst; reflexivity.
  - destruct (Re h) as [E|[_ E]]; [rewrite E; apply front_nothing|exact E].
Qed.
Lemma run_stuck {A} ok h (p : talk A) : stuck ok h p -> forall l w, remains w -> room_at h (room w) = 0%nat ->
  exists a, run_talk sys (port_ends l) p w = (w, a) /\ ok a = false.
Proof.
  induction 1 as [a E|bytes k N _ IH1 _ IH2]; intros l w Re Z; cbn [run_talk]; [eauto|].
  replace (stream (port_ends l) h) with h by (destruct h; reflexivity).
  rewrite (refused h bytes w Re N Z). destruct (refuses adv (adversary w)) as [e|]; auto.
Qed.
Lemma run_asks {A} ok (p : talk A) qs : asks ok qs p -> forall l w, remains w ->
  exists w' a part rest, run_talk sys (port_ends l) p w = (w', a) /\ qs = part ++ rest /\ (ok a = true -> rest = [])
    /\ remains w' /\ within_room w w' part /\ unit_ (far_end w') = does f (unit_ (far_end w)) part.
Proof.
  induction 1 as [qs a E|qs h n k _ IH|qs h k _ IH|q qs k Sp _ IH St1 St2]; intros l w Re; cbn [run_talk].
  - exists w, a, [], qs. split; [reflexivity|]. split; [reflexivity|]. split; [exact E|]. split; [exact Re|]. split; [apply within_none|reflexivity].
  - cbn [read cut_off]. destruct (delivers adv _ _ _ _) as [r o].
    apply (IH o l {| adversary := r; room := room w; far_end := far_end w |}). exact Re.
  - cbn [shutdown cut_off]. destruct (hangs_up adv _ _) as [r o].
    replace (stream (port_ends l) h) with h by (destruct h; reflexivity).
    set (w1 := {| adversary := r; room := set_room h 0 (room w); far_end := far_end w |}).
    assert (Re1 : remains w1).
    { unfold remains, within_room; apply (ports_all _ h); cbv beta; unfold w1; cbn [far_end room]; rewrite ?room_set, ?room_other; [|apply Re].
      destruct (Re h) as [E|[_ E]]; auto. }
    destruct (IH o l w1 Re1) as (w' & a & part & rest & Er & Eq & Ok' & Re' & Wi & U).
    exists w', a, part, rest. split; [exact Er|]. split; [exact Eq|]. split; [exact Ok'|]. split; [exact Re'|]. split; [|exact U].
    unfold within_room in *; apply (ports_all _ h); cbv beta; [specialize (Wi h)|specialize (Wi (negb h))]; unfold w1 in Wi; cbn [far_end room] in Wi;
      rewrite ?room_set, ?room_other in Wi; lia.
  - replace (stream (port_ends l) (on_port q)) with (on_port q) by (destruct (on_port q); reflexivity).
    set (h := on_port q) in *. pose proof (asked_something q) as N.
    destruct (Nat.eq_dec (room_at h (room w)) 0) as [Z|Z].
    { rewrite (refused h (spelled q) w Re N Z).
      assert (St : stuck ok h (k match refuses adv (adversary w) with Some e => Err e | None => Ok 0%nat end)).
      { destruct (refuses adv (adversary w)); [apply St1|apply St2]. destruct (spelled q); [contradiction|cbn; lia]. }
      destruct (run_stuck ok h _ St l w Re Z) as (a & -> & Ea).
      exists w, a, [], (q :: qs). split; [reflexivity|]. split; [reflexivity|]. split; [congruence|]. split; [exact Re|].
      split; [apply within_none|reflexivity]. }
    assert (E : port h (got (far_end w)) = []) by (destruct (Re h) as [E|[X _]]; [exact E|contradiction]).
    cbn [write cut_off]. destruct (Nat.le_gt_cases (length (spelled q)) (room_at h (room w))) as [L|L].
    + rewrite Nat.min_l, Nat.eqb_refl, firstn_all by exact L.
      set (w1 := {| adversary := _; room := _; far_end := _ |}).
      destruct (arrives_whole h q (far_end w) Sp E) as [U1 G1].
      assert (Re1 : remains w1).
      { unfold remains, within_room; apply (ports_all _ h); cbv beta; unfold w1; cbn [far_end room]; rewrite ?room_set, ?room_other, G1; [auto|]. apply Re. }
      destruct (IH l w1 Re1) as (w' & a & part & rest & Er & Eq & Ok' & Re' & Wi & U).
      exists w', a, (q :: part), rest. split; [exact Er|]. split; [cbn [app]; now rewrite Eq|]. split; [exact Ok'|]. split; [exact Re'|].
      split; [|rewrite U; unfold w1; cbn [far_end does fold_left]; now rewrite U1].
      change (q :: part) with ([q] ++ part). eapply within_trans; [|exact Wi].
      unfold remains, within_room; apply (ports_all _ h); cbv beta; unfold w1; cbn [far_end room]; rewrite ?room_set, ?room_other, G1; unfold sent_on; cbn [filter];
        fold h; rewrite ?Bool.eqb_reflx.
      * cbn [flat_map]. rewrite app_nil_r. lia.
      * replace (Bool.eqb h (negb h)) with false by (destruct h; reflexivity). cbn. lia.
    + rewrite Nat.min_r by lia. set (n := room_at h (room w)) in *.
      replace (n =? length (spelled q))%nat with false by (symmetry; apply Nat.eqb_neq; lia).
      set (w1 := {| adversary := _; room := _; far_end := _ |}).
      destruct (arrives_begun h q n (far_end w) L Sp E) as (U1 & G1 & G2).
      assert (Re1 : remains w1).
      { unfold remains, within_room; apply (ports_all _ h); cbv beta; unfold w1; cbn [far_end room]; rewrite ?room_set, ?room_other, ?G1, ?G2; [|apply Re].
        right. split; [lia|]. now apply front_begun. }
      assert (Z1 : room_at h (room w1) = 0%nat) by (unfold w1; cbn [room]; rewrite room_set; lia).
      assert (St : stuck ok h (k match refuses adv (adversary w) with Some e => Err e | None => Ok n end)).
      { destruct (refuses adv (adversary w)); [apply St1|apply St2]. exact L. }
      destruct (run_stuck ok h _ St l w1 Re1 Z1) as (a & -> & Ea).
      exists w1, a, [], (q :: qs). split; [reflexivity|]. split; [reflexivity|]. split; [congruence|]. split; [exact Re1|].
      split; [|exact U1].
      unfold within_room; apply (ports_all _ h); cbv beta; [rewrite Z1|]; unfold w1; cbn [far_end room]; rewrite ?room_other, ?G1, ?G2, ?firstn_length; cbn; unfold n; lia.
Qed.
Lemma past_ok loc x : 0 <= loc < 256 -> proper_call x -> 0 <= locality_past loc x < 256.
Proof. intros Hl Hx. destruct x as [[]|]; cbn in *; lia. Qed.
Lemma calls_begun : forall calls l w, 0 <= l < 256 -> Forall proper_call calls -> remains w ->
  exists w' rs parts, calls_over sys (port_ends l) w calls = (w', rs) /\ begun l calls parts rs
    /\ remains w' /\ within_room w w' (concat parts) /\ unit_ (far_end w') = does f (unit_ (far_end w)) (concat parts).
Proof.
  induction calls as [|x calls IH]; intros l w Hl Hc Re.
  { exists w, [], []. split; [reflexivity|]. split; [constructor|]. split; [exact Re|]. split; [apply within_none|reflexivity]. }
  inversion Hc as [|? ? Hx Hc']; subst. pose proof (past_ok l x Hl Hx) as Hl'.
  assert (H : exists w1 r part rest,
    calls_over sys (port_ends l) w (x :: calls)
      = (let '(w2, rs) := calls_over sys (port_ends (locality_past l x)) w1 calls in (w2, r :: rs))
    /\ requests_of l x = part ++ rest /\ (succeeded r -> rest = []) /\ remains w1 /\ within_room w w1 part
    /\ unit_ (far_end w1) = does f (unit_ (far_end w)) part).
  { destruct (c102_program _ _ _ sys (port_ends l)) as [P1 P2]. change (locality (port_ends l)) with l in *.
    destruct x as [o|c cmd handles a]; cbn [calls_over locality_past proper_call] in *.
    - destruct (run_asks is_ok _ _ (asks_operation l o Hl Hx) l w Re) as (w1 & a & part & rest & Er & Eq & Ok' & Re1 & Wi & U).
      specialize (P1 o w). rewrite Er in P1. rewrite P1.
      exists w1, (Called a), part, rest. split.
      { replace (match o with Locality l0 => set_locality (port_ends l) l0 | _ => port_ends l end)
          with (port_ends (locality_after l o)) by (destruct o; reflexivity). reflexivity. }
      split; [exact Eq|]. split; [|auto]. intros Su. apply Ok'. destruct a; try contradiction; reflexivity.
    - destruct (run_asks is_ok _ _ (asks_command l c cmd handles a Hl Hx) l w Re) as (w1 & r & part & rest & Er & Eq & Ok' & Re1 & Wi & U).
      specialize (P2 c cmd handles a w). rewrite Er in P2. rewrite <- P2.
      exists w1, (Ran r), part, rest. split; [reflexivity|].
      split; [exact Eq|]. split; [|auto]. intros Su. apply Ok'. destruct r; try contradiction; reflexivity. }
  destruct H as (w1 & r & part & rest & Er & Eq & Su & Re1 & Wi & U).
  destruct (IH (locality_past l x) w1 Hl' Hc' Re1) as (w2 & rs & parts & E2 & B & Re2 & Wi2 & U2).
  rewrite Er, E2. exists w2, (r :: rs), (part :: parts). split; [reflexivity|]. split; [econstructor; eassumption|].
  split; [exact Re2|]. cbn [concat]. split; [eapply within_trans; eassumption|]. now rewrite U2, U, does_app.
Qed.
End Over.

(** ** Over ports that are cut off, with the right answers *)
Fixpoint listed {A} (pl : plan A) (qs : list request) : Prop :=
  match pl with
  | Return _ => qs = []
  | Request q k => exists qs', qs = q :: qs' /\ forall r, listed (k r) qs'
  end.
Lemma listed_after {A B} (pl : plan A) (g : A -> B) : forall qs, listed pl qs -> listed (after pl (fun a => Return (g a))) qs.
Proof.
  induction pl as [a|q k IH]; intros qs L; cbn [after listed] in *; [exact L|].
  destruct L as (qs' & -> & L). exists qs'. split; [reflexivity|]. intros r. now apply IH.
Qed.
Lemma listed_call l x : proper_call x -> listed (call_plan l x) (requests_of l x).
Proof.
  intros V. destruct x as [o|c cmd handles a]; cbn [call_plan]; apply listed_after.
  - destruct o; cbn [operation_plan requests_of told fold_right asking listed]; repeat (eexists; split; [reflexivity|]; intros _); reflexivity.
  - unfold command_plan, requests_of. cbn [proper_call] in V.
    destruct (Z.leb_spec (Z.of_nat (length (command_frame c cmd handles a))) 4096) as [L|L].
    + rewrite (build_frame c cmd handles a V L). cbn [asking listed]. eexists. split; [reflexivity|]. reflexivity.
    + destruct (build_too_long c cmd handles a V) as [E|E]; [unfold fits; lia| |]; rewrite E; reflexivity.
Qed.
Definition result_ok (r : result) : bool := match r with Called (Ok _) | Ran (Ok _) => true | _ => false end.
Lemma result_ok_iff r : result_ok r = true <-> succeeded r.
Proof. destruct r as [[]|[]]; cbn; intuition discriminate. Qed.
Lemma asks_call l x : 0 <= l < 256 -> proper_call x -> asks result_ok (requests_of l x) (call_t l x).
Proof.
  intros Hl V. rewrite <- (app_nil_r (requests_of l x)). destruct x as [o|c cmd handles a]; cbn [call_t].
  - eapply asks_next; [apply asks_operation; assumption|..]; intros [a|e|] E; try discriminate; [apply asks_said; reflexivity|eexists; split; reflexivity..].
  - eapply asks_next; [apply asks_command; assumption|..]; intros [r|e|] E; try discriminate; [apply asks_said; reflexivity|eexists; split; reflexivity..].
Qed.

Section Honest.
Context {S : Type} (pieces : S -> nat -> nat) (e : option io_error) (f : S -> request -> S * list byte).
Context (Hf : forall s q, answer_ok q (snd (f s q))).
Local Notation sys := (cut_off (honest pieces e) (answering f)).
(** All that is due on each port was delivered, except on one. *)
Definition owes (h : bool) (q : list byte) (w : cut (nat * nat) S) : Prop :=
  (exists before, port h (due (far_end w)) = before ++ q /\ length before = room_at h (adversary w))
  /\ room_at (negb h) (adversary w) = length (port (negb h) (due (far_end w))).
Definition calm (w : cut (nat * nat) S) : Prop := forall h, room_at h (adversary w) = length (port h (due (far_end w))).
Lemma owes_calm h w : owes h [] w <-> calm w.
Proof.
  unfold owes, calm. split.
  - intros [(b & E & L) N]. apply (ports_all _ h); cbv beta; [|exact N]. now rewrite E, app_nil_r.
  - intros C. split; [|apply C]. exists (port h (due (far_end w))). rewrite app_nil_r. auto.
Qed.
Lemma run_leads {A} ok qs h P (p : talk A) q : leads h P p q -> forall l w, asks ok qs p -> owes h q w -> remains w ->
  exists p' w', run_talk sys (port_ends l) p w = run_talk sys (port_ends l) p' w' /\ P p' /\ asks ok qs p'
    /\ calm w' /\ remains w' /\ room w' = room w /\ unit_ (far_end w') = unit_ (far_end w).
Proof.
  induction 1 as [p H|n k q Hn Hq _ IH]; intros l w As O Re.
  - exists p, w. split; [reflexivity|]. split; [exact H|]. split; [exact As|]. split; [now apply (owes_calm h)|]. auto.
  - assert (As' : forall o, asks ok qs (k o)) by (inversion As; subst; assumption).
    cbn [run_talk read cut_off honest delivers].
    replace (stream (port_ends l) h) with h by (destruct h; reflexivity).
    destruct O as [(b & E & L) N]. rewrite <- L, E, (skipn_app_exact' (length b)) by reflexivity.
    set (k0 := Nat.min n (Nat.max 1 (pieces (unit_ (far_end w)) (length q)))).
    set (m := length (firstn k0 q)).
    assert (Em : firstn k0 q = firstn m q).
    { unfold m. rewrite firstn_length. destruct (Nat.le_gt_cases k0 (length q)); [now rewrite Nat.min_l by assumption|].
      rewrite Nat.min_r, firstn_all by lia. apply firstn_all2. lia. }
    assert (Hm : (1 <= m /\ m <= Nat.min n (length q))%nat).
    { unfold m. rewrite firstn_length. destruct q; [contradiction|]. unfold k0. cbn [length]. lia. }
    rewrite Em.
    set (w1 := {| adversary := set_room h (length b + m) (adversary w); room := room w; far_end := far_end w |}).
    destruct (IH m (proj1 Hm) (proj2 Hm) l w1 (As' _)) as (p' & w' & R & P' & A' & C' & Re' & Ro & U); [|exact Re|].
    + split; unfold w1; cbn [far_end adversary].
      * exists (b ++ firstn m q). rewrite <- app_assoc, firstn_skipn. split; [exact E|].
        rewrite room_set, app_length, firstn_length. lia.
      * now rewrite room_other.
    + exists p', w'. auto 10.
Qed.
Lemma arrives_answered h q b s' r : f (unit_ b) q = (s', r) -> speakable h q -> port h (got b) = [] ->
  due (arrives (answering f) h (spelled q) b) = set_port h (port h (due b) ++ framed q (Some r)) (due b).
Proof.
  intros Ef Sp E. unfold arrives. rewrite E. cbn [app].
  assert (Fr : front h (spelled q) = Some (q, [])) by (apply c81_understood; rewrite app_nil_r; auto).
  pose proof (asked_something q) as N. destruct (length (spelled q)) as [|m] eqn:Lm; [destruct (spelled q); [contradiction|discriminate]|].
  cbn [work got unit_ due]. rewrite ControlsFacts.port_set, Fr. unfold answering at 1. rewrite Ef. rewrite set_set.
  assert (W : forall fuel x, port h (got x) = [] -> work (answering f) fuel h x = x).
  { intros [|fuel] x Ex; cbn [work]; [reflexivity|]. now rewrite Ex, front_nothing. }
  rewrite W by (cbn [got]; apply ControlsFacts.port_set). reflexivity.
Qed.
Lemma arrives_owed h q n b : (n < length (spelled q))%nat -> speakable h q -> port h (got b) = [] ->
  due (arrives (answering f) h (firstn n (spelled q)) b) = due b.
Proof.
  intros L Sp E. unfold arrives. rewrite E. cbn [app].
  assert (W : forall fuel x, front h (port h (got x)) = None -> work (answering f) fuel h x = x).
  { intros [|fuel] x Ex; cbn [work]; [reflexivity|]. now rewrite Ex. }
  rewrite W by (cbn [got]; rewrite ControlsFacts.port_set; now apply front_begun). reflexivity.
Qed.
(** One request that does not fit. *)
Lemma cut_request {A} ok (k : outcome io_error nat -> talk A) q l w :
  speakable (on_port q) q -> (forall e, stuck ok (on_port q) (k (Err e))) ->
  (forall n, (n < length (spelled q))%nat -> stuck ok (on_port q) (k (Ok n))) ->
  remains w -> calm w -> (room_at (on_port q) (room w) < length (spelled q))%nat ->
  exists w' a, run_talk sys (port_ends l) (Writes (on_port q) (spelled q) k) w = (w', a) /\ ok a = false
    /\ remains w' /\ calm w' /\ room w' = set_room (on_port q) 0 (room w) /\ unit_ (far_end w') = unit_ (far_end w).
Proof.
  intros Sp St1 St2 Re Ca L. cbn [run_talk].
  replace (stream (port_ends l) (on_port q)) with (on_port q) by (destruct (on_port q); reflexivity).
  set (h := on_port q) in *. pose proof (asked_something q) as N.
  destruct (Nat.eq_dec (room_at h (room w)) 0) as [Z|Z].
  { rewrite (refused (honest pieces e) (answering f) h (spelled q) w Re N Z).
    assert (St : stuck ok h (k match refuses (honest pieces e) (adversary w) with Some e => Err e | None => Ok 0%nat end)).
    { destruct (refuses (honest pieces e) (adversary w)); [apply St1|apply St2]. lia. }
    destruct (run_stuck (honest pieces e) (answering f) ok h _ St l w Re Z) as (a & -> & Ea).
    exists w, a. split; [reflexivity|]. split; [exact Ea|]. split; [exact Re|]. split; [exact Ca|]. split; [|reflexivity].
    destruct (room w) as [n1 n2]. destruct h; cbn in *; now subst. }
  assert (E : port h (got (far_end w)) = []) by (destruct (Re h) as [E|[X _]]; [exact E|contradiction]).
  cbn [write cut_off]. rewrite Nat.min_r by lia. set (n := room_at h (room w)) in *.
  replace (n =? length (spelled q))%nat with false by (symmetry; apply Nat.eqb_neq; lia).
  set (w1 := {| adversary := _; room := _; far_end := _ |}).
  destruct (arrives_begun (answering f) h q n (far_end w) L Sp E) as (U1 & G1 & G2).
  assert (Re1 : remains w1).
  { unfold remains; apply (ports_all _ h); cbv beta; unfold w1; cbn [far_end room]; rewrite ?room_set, ?room_other, ?G1, ?G2; [|apply Re].
    right. split; [lia|]. now apply front_begun. }
  assert (Z1 : room_at h (room w1) = 0%nat) by (unfold w1; cbn [room]; rewrite room_set; lia).
  assert (St : stuck ok h (k match refuses (honest pieces e) (adversary w) with Some e => Err e | None => Ok n end)).
  { destruct (refuses (honest pieces e) (adversary w)); [apply St1|apply St2]. exact L. }
  destruct (run_stuck (honest pieces e) (answering f) ok h _ St l w1 Re1 Z1) as (a & Er & Ea). rewrite Er.
  exists w1, a. split; [reflexivity|]. split; [exact Ea|]. split; [exact Re1|].
  split; [|split; [unfold w1; cbn [room]; f_equal; lia|exact U1]].
  intros h'. unfold w1. cbn [far_end adversary]. rewrite arrives_owed by assumption. apply Ca.
Qed.
(** One that fits. *)
Lemma whole_request {A} (k : outcome io_error nat -> talk A) q l w s' r :
  speakable (on_port q) q -> f (unit_ (far_end w)) q = (s', r) ->
  remains w -> calm w -> (length (spelled q) <= room_at (on_port q) (room w))%nat ->
  exists w', run_talk sys (port_ends l) (Writes (on_port q) (spelled q) k) w
      = run_talk sys (port_ends l) (k (Ok (length (spelled q)))) w'
    /\ remains w' /\ owes (on_port q) (framed q (Some r)) w'
    /\ room w' = set_room (on_port q) (room_at (on_port q) (room w) - length (spelled q)) (room w) /\ unit_ (far_end w') = s'.
Proof.
  intros Sp Ef Re Ca L. cbn [run_talk].
  replace (stream (port_ends l) (on_port q)) with (on_port q) by (destruct (on_port q); reflexivity).
  set (h := on_port q) in *. pose proof (asked_something q) as N.
  assert (Z : room_at h (room w) <> 0%nat) by (destruct (spelled q); [contradiction|cbn in L; lia]).
  assert (E : port h (got (far_end w)) = []) by (destruct (Re h) as [E|[X _]]; [exact E|contradiction]).
  cbn [write cut_off]. rewrite Nat.min_l, Nat.eqb_refl, firstn_all by exact L.
  set (w1 := {| adversary := _; room := _; far_end := _ |}).
  destruct (arrives_whole (answering f) h q (far_end w) Sp E) as [U1 G1].
  pose proof (arrives_answered h q (far_end w) s' r Ef Sp E) as D1.
  exists w1. split; [reflexivity|]. split.
  { unfold remains; apply (ports_all _ h); cbv beta; unfold w1; cbn [far_end room]; rewrite ?room_set, ?room_other, G1; [auto|]. apply Re. }
  split; [|split; [reflexivity|]].
  - unfold owes, w1. cbn [far_end adversary]. rewrite D1, ControlsFacts.port_set. split.
    + exists (port h (due (far_end w))). split; [reflexivity|]. symmetry. apply Ca.
    + replace (port (negb h) (set_port h (port h (due (far_end w)) ++ framed q (Some r)) (due (far_end w))))
        with (port (negb h) (due (far_end w))) by (destruct h; reflexivity). apply Ca.
  - unfold w1. cbn [far_end]. rewrite U1. unfold answering. now rewrite Ef.
Qed.
Lemma run_exact {A} ok (pl : plan A) : forall qs p l w, listed pl qs -> implements pl p -> asks ok qs p -> remains w -> calm w ->
  exists w' a, run_talk sys (port_ends l) p w = (w', a) /\ remains w' /\ calm w'
    /\ unit_ (far_end w') = does (answering f) (unit_ (far_end w)) (fst (through (room w) qs))
    /\ room w' = snd (through (room w) qs)
    /\ (fst (through (room w) qs) = qs -> a = snd (run_plan f pl (unit_ (far_end w))))
    /\ (fst (through (room w) qs) <> qs -> ok a = false).
Proof.
  induction pl as [a|q k IH]; intros qs p l w Li Im As Re Ca; cbn [listed implements] in *.
  { subst qs p. exists w, a. cbn [run_talk through fst snd does fold_left run_plan]. split; [reflexivity|]. split; [exact Re|]. split; [exact Ca|].
    split; [reflexivity|]. split; [reflexivity|]. split; [reflexivity|contradiction]. }
  destruct Li as (qs' & -> & Li). destruct Im as (Sp & Ne & kp & -> & Le). change (port_of q) with (on_port q) in *.
  assert (As' : asks ok qs' (kp (Ok (length (spelled q))))
    /\ (forall e, stuck ok (on_port q) (kp (Err e)))
    /\ (forall n, (n < length (spelled q))%nat -> stuck ok (on_port q) (kp (Ok n)))).
  { inversion As; subst; auto. }
  destruct As' as (As' & St1 & St2). cbn [through].
  replace (closing q) with false by (destruct q; try contradiction; reflexivity).
  destruct (Nat.leb_spec (length (spelled q)) (room_at (on_port q) (room w))) as [L|L].
  - destruct (f (unit_ (far_end w)) q) as [s' r] eqn:Ef.
    destruct (whole_request kp q l w s' r Sp Ef Re Ca L) as (w1 & -> & Re1 & O1 & Ro1 & U1).
    assert (Hr : answer_ok q r) by (specialize (Hf (unit_ (far_end w)) q); rewrite Ef in Hf; exact Hf).
    destruct (run_leads ok qs' _ _ _ _ (Le r Hr) l w1 As' O1 Re1) as (p2 & w2 & -> & Im2 & As2 & Ca2 & Re2 & Ro2 & U2).
    destruct (IH r qs' p2 l w2 (Li r) Im2 As2 Re2 Ca2) as (w' & a & Er & Re' & Ca' & U' & Ro' & Yes & No).
    rewrite <- Ro1, <- Ro2. rewrite U2, U1 in *. exists w', a. split; [exact Er|]. split; [exact Re'|]. split; [exact Ca'|].
    destruct (through (room w2) qs') as [part n']. cbn [fst snd] in *.
    split; [rewrite U'; cbn [does fold_left]; replace s' with (fst (answering f (unit_ (far_end w)) q)) by (unfold answering; now rewrite Ef); reflexivity|]. split; [exact Ro'|].
    cbn [run_plan]. rewrite Ef. split; intros X.
    + apply Yes. congruence.
    + apply No. congruence.
  - destruct (cut_request ok kp q l w Sp St1 St2 Re Ca L) as (w' & a & Er & Ea & Re' & Ca' & Ro & U).
    exists w', a. cbn [fst snd does fold_left]. split; [exact Er|]. split; [exact Re'|]. split; [exact Ca'|].
    split; [exact U|]. split; [exact Ro|]. split; [discriminate|]. intros _. exact Ea.
Qed.
(** The end of a session on a port, and its closing. *)
Lemma run_closing q bytes (K : outcome io_error unit -> failing unit) l w :
  speakable (on_port q) q -> closing q = true -> bytes = spelled q -> remains w -> calm w ->
  if (length (spelled q) <=? room_at (on_port q) (room w))%nat
  then exists w', run_talk sys (port_ends l) (try (write_all_t (on_port q) bytes) (fun _ => Shuts (on_port q) K)) w
       = run_talk sys (port_ends l) (K (Ok tt)) w'
     /\ remains w' /\ calm w' /\ room w' = set_room (on_port q) 0 (room w) /\ unit_ (far_end w') = fst (f (unit_ (far_end w)) q)
  else exists w' a, run_talk sys (port_ends l) (try (write_all_t (on_port q) bytes) (fun _ => Shuts (on_port q) K)) w = (w', a)
     /\ is_ok a = false /\ remains w' /\ calm w' /\ room w' = set_room (on_port q) 0 (room w) /\ unit_ (far_end w') = unit_ (far_end w).
Proof.
  intros Sp Cl Eb Re Ca. unfold try.
  destruct (written_all (on_port q) bytes) as (kp & W & K1); [rewrite Eb; apply asked_something|].
  pose proof (asks_write_all q bytes Sp Eb) as As. rewrite W in As |- *. rewrite Eb in *. clear Eb W. cbn [next].
  assert (St : (forall e, stuck is_ok (on_port q) (kp (Err e)))
    /\ (forall n, (n < length (spelled q))%nat -> stuck is_ok (on_port q) (kp (Ok n)))) by (inversion As; subst; auto).
  destruct St as [St1 St2].
  destruct (Nat.leb_spec (length (spelled q)) (room_at (on_port q) (room w))) as [L|L].
  - destruct (f (unit_ (far_end w)) q) as [s' r] eqn:Ef.
    match goal with |- context [Writes (on_port q) (spelled q) ?k] =>
      destruct (whole_request k q l w s' r Sp Ef Re Ca L) as (w1 & -> & Re1 & O1 & Ro1 & U1) end.
    rewrite K1. cbn [next run_talk shutdown cut_off honest hangs_up].
    replace (stream (port_ends l) (on_port q)) with (on_port q) by (destruct (on_port q); reflexivity).
    eexists. split; [reflexivity|]. cbn [room far_end fst].
    assert (F : framed q (Some r) = []) by (destruct q; try discriminate; reflexivity). rewrite F in O1. apply owes_calm in O1.
    split; [|split; [exact O1|split; [rewrite Ro1; destruct (on_port q); reflexivity|exact U1]]].
    unfold remains; apply (ports_all _ (on_port q)); cbv beta; cbn [far_end room]; rewrite ?room_set, ?room_other; [|apply Re1].
    destruct (Re1 (on_port q)) as [X|[_ X]]; auto.
  - match goal with |- context [Writes (on_port q) (spelled q) ?k] => apply (cut_request is_ok k q l w Sp) end; try assumption.
    + intros e'. eapply stuck_next; [apply St1|]. intros [[]|e2|] X; try discriminate; eexists; split; reflexivity.
    + intros n Ln. eapply stuck_next; [apply St2; exact Ln|]. intros [[]|e2|] X; try discriminate; eexists; split; reflexivity.
Qed.
Definition call_exactly (l : Z) (x : call) : Prop := forall w, remains w -> calm w ->
  let '(part, n') := through (room w) (requests_of l x) in
  exists w' r, run_talk sys (port_ends l) (call_t l x) w = (w', r) /\ remains w' /\ calm w'
    /\ unit_ (far_end w') = does (answering f) (unit_ (far_end w)) part /\ room w' = n'
    /\ (part = requests_of l x -> [r] = snd (unwired (answering f) l (unit_ (far_end w)) [x]))
    /\ (part <> requests_of l x -> ~ succeeded r).
Lemma both_exactly l o code (q : bool -> request) :
  (forall h, on_port (q h) = h /\ closing (q h) = true /\ speakable h (q h) /\ spelled (q h) = u32_bytes code) ->
  requests_of l (Call o) = [q true; q false] -> operation_t l o = shown (fun _ => Done) (end_both_t code) ->
  (forall s, snd (unwired (answering f) l s [Call o]) = [Called (Ok Done)]) -> call_exactly l (Call o).
Proof.
  intros Hq Er Et Eu w Re Ca. cbn [call_t]. rewrite Er, Et, Eu. clear Er Et Eu.
  destruct (Hq true) as (P1 & C1 & S1 & B1). destruct (Hq false) as (P2 & C2 & S2 & B2).
  unfold shown. rewrite (run_next sys (port_ends l) (next _ _)), (run_next sys (port_ends l) (end_both_t code)).
  cbn [through]. rewrite P1, C1.
  pose proof (run_closing (q true) (u32_bytes code) (fun o => match o with
     | Ok _ => try (write_all_t false (u32_bytes code)) (fun _ => Shuts false Said) | Err e0 => Said (Err e0) | Panic => Said Panic end)
     l w) as R1. rewrite P1 in R1. specialize (R1 S1 C1 (eq_sym B1) Re Ca).
  match type of R1 with context [run_talk _ _ ?p w] => change p with (end_both_t code) in R1 end.
  destruct (Nat.leb_spec (length (spelled (q true))) (room_at true (room w))) as [L|L].
  - destruct R1 as (w1 & -> & Re1 & Ca1 & Ro1 & U1). cbv beta iota. cbn [room_at set_room fst snd]. rewrite P2, C2.
    pose proof (run_closing (q false) (u32_bytes code) Said l w1) as R2. rewrite P2 in R2.
    specialize (R2 S2 C2 (eq_sym B2) Re1 Ca1). rewrite Ro1 in R2. cbn [room_at set_room fst snd] in R2 |- *.
    destruct (Nat.leb_spec (length (spelled (q false))) (snd (room w))) as [L2|L2].
    + destruct R2 as (w2 & -> & Re2 & Ca2 & Ro2 & U2). cbn [run_talk omap].
      exists w2, (Called (Ok Done)). split; [reflexivity|]. split; [exact Re2|]. split; [exact Ca2|].
      split; [|split; [exact Ro2|split; [reflexivity|contradiction]]].
      cbn [does fold_left]. rewrite U2, U1. unfold answering. destruct (f (unit_ (far_end w)) (q true)) as [s1 r1]. cbn [fst].
      destruct (f s1 (q false)); reflexivity.
    + destruct R2 as (w2 & a & -> & Ea & Re2 & Ca2 & Ro2 & U2). cbn [run_talk].
      exists w2, (Called (omap (fun _ => Done) a)). split; [reflexivity|]. split; [exact Re2|]. split; [exact Ca2|].
      split; [|split; [exact Ro2|split; [discriminate|]]].
      * cbn [does fold_left]. rewrite U2, U1. unfold answering. destruct (f (unit_ (far_end w)) (q true)); reflexivity.
      * intros _. destruct a; try discriminate; exact (fun X => X).
  - destruct R1 as (w1 & a & -> & Ea & Re1 & Ca1 & Ro1 & U1). cbn [run_talk].
    exists w1, (Called (omap (fun _ => Done) a)). split; [reflexivity|]. split; [exact Re1|]. split; [exact Ca1|].
    split; [exact U1|]. split; [exact Ro1|]. split; [discriminate|].
    intros _. destruct a; try discriminate; exact (fun X => X).
Qed.
Lemma run_plan_after {A B} (pl : plan A) (g : A -> B) : forall s,
  run_plan f (after pl (fun a => Return (g a))) s = (fst (run_plan f pl s), g (snd (run_plan f pl s))).
Proof. induction pl as [a|q k IH]; intros s; cbn [after run_plan]; [reflexivity|]. destruct (f s q) as [s' r]. apply IH. Qed.
Lemma plan_unwired l x s : [snd (run_plan f (call_plan l x) s)] = snd (unwired (answering f) l s [x]).
Proof.
  destruct (c102_plan S f l s) as [P1 P2]. destruct x as [o|c cmd handles a]; cbn [call_plan unwired]; rewrite run_plan_after.
  - rewrite P1. destruct (at_hand _ _ _ _). reflexivity.
  - rewrite P2. destruct (run_command_with_handles _ _ _ _ _ _ _). reflexivity.
Qed.
Lemma any_call_exactly l x : 0 <= l < 256 -> call_ok x -> call_exactly l x.
Proof.
  intros Hl Hx.
  assert (V : proper_call x) by (destruct x; [apply Hx|exact Hx]).
  assert (D : x = Call EndSession \/ x = Call StopSimulator \/ stays x).
  { destruct x as [[]|]; auto; right; right; split; discriminate. }
  destruct D as [->|[->|St]].
  - apply (both_exactly l _ SessionEnd AskEnd); try reflexivity. intros h. repeat split; destruct h; reflexivity.
  - apply (both_exactly l _ Stop AskStop); try reflexivity. intros h. repeat split; destruct h; reflexivity.
  - intros w Re Ca.
    destruct (run_exact result_ok _ (requests_of l x) (call_t l x) l w (listed_call l x V) (call_implemented l x Hl Hx St)
      (asks_call l x Hl V) Re Ca) as (w' & r & Er & Re' & Ca' & U & Ro & Yes & No).
    destruct (through (room w) (requests_of l x)) as [part n']. cbn [fst snd] in *.
    exists w', r. split; [exact Er|]. split; [exact Re'|]. split; [exact Ca'|]. split; [exact U|]. split; [exact Ro|]. split.
    + intros E. rewrite (Yes E). apply plan_unwired.
    + intros E Su. apply result_ok_iff in Su. rewrite (No E) in Su. discriminate.
Qed.
Lemma all_exactly : forall calls l w, 0 <= l < 256 -> Forall call_ok calls -> remains w -> calm w ->
  exists w' rs, calls_over sys (port_ends l) w calls = (w', rs)
    /\ unit_ (far_end w') = does (answering f) (unit_ (far_end w)) (concat (fst (all_through l (room w) calls)))
    /\ room w' = snd (all_through l (room w) calls)
    /\ told_so (answering f) l (unit_ (far_end w)) calls (fst (all_through l (room w) calls)) rs.
Proof.
  induction calls as [|x calls IH]; intros l w Hl Hc Re Ca.
  { exists w, []. split; [reflexivity|]. split; [reflexivity|]. split; reflexivity. }
  inversion Hc as [|? ? Hx Hc']; subst.
  assert (V : proper_call x) by (destruct x; [apply Hx|exact Hx]).
  pose proof (past_ok l x Hl V) as Hl'.
  pose proof (any_call_exactly l x Hl Hx w Re Ca) as X. cbn [all_through].
  destruct (through (room w) (requests_of l x)) as [part n1].
  destruct X as (w1 & r & Er & Re1 & Ca1 & U1 & Ro1 & Yes & No).
  destruct (IH (locality_past l x) w1 Hl' Hc' Re1 Ca1) as (w2 & rs & E2 & U2 & Ro2 & T2).
  rewrite Ro1 in *. rewrite U1 in *. destruct (all_through (locality_past l x) n1 calls) as [parts n2]. cbn [fst snd] in *.
  exists w2, (r :: rs). split.
  { destruct (c102_program _ _ _ sys (port_ends l)) as [P1 P2]. change (locality (port_ends l)) with l in *.
    destruct x as [o|c cmd handles a]; cbn [calls_over call_t] in *; rewrite run_next in Er.
    - specialize (P1 o w). destruct (run_talk sys (port_ends l) (operation_t l o) w) as [w1' r']. rewrite P1.
      cbn [run_talk] in Er. injection Er as -> <-.
      replace (match o with Locality l0 => set_locality (port_ends l) l0 | _ => port_ends l end)
        with (port_ends (locality_past l (Call o))) by (destruct o; reflexivity). now rewrite E2.
    - rewrite <- P2. destruct (run_talk sys (port_ends l) (command_t l c cmd handles a) w) as [w1' r'].
      cbn [run_talk] in Er. injection Er as -> <-. cbn [locality_past] in E2. now rewrite E2. }
  cbn [concat]. split; [now rewrite U2, does_app|]. split; [exact Ro2|]. cbn [told_so]. auto.
Qed.
End Honest.

(** ** C109 *)
(** Any calls, on ports that take any numbers of bytes, with whatever the client
    is told: the machine has done, of every call, the first requests - all of
    them if the call succeeded -, each once, in order and at its locality, and
    nothing else.  On each port these were within the bytes it took; what else it
    took stays there, is not a request, and is there only if the port takes no
    more. *)
Theorem c109_beginnings R S (adv : whims R S) (f : machine S) r0 n l s calls :
  0 <= l < 256 -> Forall proper_call calls ->
  exists w rs parts,
    calls_over (cut_off adv f) (port_ends l) {| adversary := r0; room := n; far_end := quiet s |} calls = (w, rs)
    /\ begun l calls parts rs
    /\ unit_ (far_end w) = does f s (concat parts)
    /\ forall h,
         (length (sent_on h (concat parts)) + length (port h (got (far_end w))) + room_at h (room w) <= room_at h n)%nat
         /\ front h (port h (got (far_end w))) = None
         /\ (port h (got (far_end w)) <> [] -> room_at h (room w) = 0%nat).
Proof.
  intros Hl Hc.
  destruct (calls_begun adv f calls l {| adversary := r0; room := n; far_end := quiet s |} Hl Hc) as (w & rs & parts & E & B & Re & Wi & U).
  { intros h. left. destruct h; reflexivity. }
  exists w, rs, parts. split; [exact E|]. split; [exact B|]. split; [exact U|]. intros h. specialize (Wi h). cbn [far_end room quiet got] in Wi.
  rewrite ControlsFacts.port_same in Wi. cbn [length] in Wi. split; [lia|].
  destruct (Re h) as [X|[X Y]]; [rewrite X|]; split; auto using front_nothing; congruence.
Qed.
(** So a call of several requests can be left half done, without any
    connection being lost: one wrong acknowledgement in [reinit] leaves the
    machine without power, and one in [hcrtm_sequence] leaves the sequence open.
    The client is told, nothing is undone, and what it sends next is done then
    and there. *)
Definition keeping : machine (list request) := fun s q =>
  (s ++ [q], Some match q with AskHandshake _ => repeat x00 8 | AskSizes => repeat x00 16 | AskAct _ => repeat x00 4 | _ => [] end).
(** The second thing that is read is wrong, all others are zeros. *)
Definition one_wrong : whims nat (list request) := {|
  delivers := fun r _ _ n => (S r, Ok (if (r =? 1)%nat then repeat x01 n else repeat x00 n));
  refuses := fun _ => None;
  hangs_up := fun r _ => (r, Ok tt) |}.
Theorem c109_half_done :
  let begins c := calls_over (cut_off one_wrong keeping) (port_ends 0)
    {| adversary := 0%nat; room := (100, 100)%nat; far_end := quiet [] |} [Call c; Call (Transact [x80] [])] in
  unit_ (far_end (fst (begins Reinit))) = [AskSignal NvOff; AskSignal PowerOff; AskCommand 0 [x80]]
  /\ snd (begins Reinit) = [Called (Err InvalidData); Called (Ok (Payload []))]
  /\ unit_ (far_end (fst (begins (Hcrtm [xaa])))) = [AskHashStart; AskHashData [xaa]; AskCommand 0 [x80]]
  /\ snd (begins (Hcrtm [xaa])) = [Called (Err InvalidData); Called (Ok (Payload []))].
Proof. cbn zeta. split; [vm_compute; reflexivity|]. split; [vm_compute; reflexivity|]. split; vm_compute; reflexivity. Qed.

(** With a machine that answers every request properly, and what it says
    delivered in whatever pieces, nothing but the bytes that the ports take
    decides: of each call the requests that fit are done and no others, and a
    call succeeds as at the machine itself if all of its requests fit, and fails
    if not. *)
Theorem c109_exactly S pieces e (f : S -> request -> S * list byte) n l s calls :
  (forall s q, answer_ok q (snd (f s q))) -> 0 <= l < 256 -> Forall call_ok calls ->
  let '(parts, n') := all_through l n calls in
  exists w rs,
    calls_over (cut_off (honest pieces e) (answering f)) (port_ends l)
      {| adversary := (0, 0)%nat; room := n; far_end := quiet s |} calls = (w, rs)
    /\ unit_ (far_end w) = does (answering f) s (concat parts)
    /\ room w = n'
    /\ told_so (answering f) l s calls parts rs.
Proof.
  intros Hf Hl Hc.
  destruct (all_exactly pieces e f Hf calls l {| adversary := (0, 0)%nat; room := n; far_end := quiet s |} Hl Hc) as (w & rs & E & U & Ro & T).
  { intros h. left. destruct h; reflexivity. }
  { intros []; reflexivity. }
  cbn [room far_end quiet unit_] in U, Ro, T. destruct (all_through l n calls) as [parts n']. exists w, rs. auto.
Qed.

(** In particular everything gets through, up to the first request that the
    bytes do not suffice for; and nothing on a port after that. *)
Theorem c109_suffices n qs :
  Forall (fun q => closing q = false) qs -> (forall h, (length (sent_on h qs) <= room_at h n)%nat) ->
  fst (through n qs) = qs /\ forall h, (room_at h (snd (through n qs)) + length (sent_on h qs) = room_at h n)%nat.
Proof.
  revert n. induction qs as [|q qs IH]; intros n C R; [split; [reflexivity|intros []; cbn; lia]|].
  inversion C as [|? ? Cq C']; subst. cbn [through]. rewrite Cq.
  assert (E : forall h, length (sent_on h (q :: qs)) = ((if Bool.eqb (on_port q) h then length (spelled q) else 0) + length (sent_on h qs))%nat).
  { intros h. unfold sent_on. cbn [filter]. destruct (Bool.eqb (on_port q) h); [cbn [flat_map]; apply app_length|reflexivity]. }
  assert (Rq := R (on_port q)). rewrite E, Bool.eqb_reflx in Rq.
  replace (length (spelled q) <=? room_at (on_port q) n)%nat with true by (symmetry; apply Nat.leb_le; lia).
  set (n1 := set_room (on_port q) (room_at (on_port q) n - length (spelled q)) n).
  assert (R1 : forall h, (room_at h n1 + (if Bool.eqb (on_port q) h then length (spelled q) else 0) = room_at h n)%nat).
  { apply (ports_all _ (on_port q)); unfold n1; rewrite ?room_set, ?room_other, ?Bool.eqb_reflx; [lia|].
    replace (Bool.eqb (on_port q) (negb (on_port q))) with false by (destruct (on_port q); reflexivity). lia. }
  destruct (IH n1 C') as [I1 I2]. { intros h. specialize (R h). specialize (R1 h). rewrite E in R. lia. }
  destruct (through n1 qs) as [part n']. cbn [fst snd] in *. split; [now rewrite I1|].
  intros h. specialize (I2 h). specialize (R1 h). rewrite E. lia.
Qed.
Theorem c109_cut_there n qs q rest :
  Forall (fun q => closing q = false) qs -> (forall h, (length (sent_on h qs) <= room_at h n)%nat) ->
  (room_at (on_port q) n < length (sent_on (on_port q) (qs ++ [q])))%nat ->
  fst (through n (qs ++ q :: rest)) = qs
  /\ room_at (on_port q) (snd (through n (qs ++ q :: rest))) = 0%nat
  /\ (forall q' rest', on_port q' = on_port q ->
        fst (through (snd (through n (qs ++ q :: rest))) (q' :: rest')) = []).
Proof.
  intros C R Q.
  assert (H : fst (through n (qs ++ q :: rest)) = qs /\ room_at (on_port q) (snd (through n (qs ++ q :: rest))) = 0%nat).
  { revert n C R Q. induction qs as [|q0 qs IH]; intros n C R Q.
    - cbn [app through]. unfold sent_on in Q. cbn [app filter] in Q. rewrite Bool.eqb_reflx in Q. cbn [flat_map] in Q. rewrite app_nil_r in Q.
      replace (length (spelled q) <=? room_at (on_port q) n)%nat with false by (symmetry; apply Nat.leb_gt; lia).
      cbn [fst snd]. split; [reflexivity|apply room_set].
    - inversion C as [|? ? Cq C']; subst. cbn [app through]. rewrite Cq.
      assert (E : forall h qs, length (sent_on h (q0 :: qs)) = ((if Bool.eqb (on_port q0) h then length (spelled q0) else 0) + length (sent_on h qs))%nat).
      { intros h qs1. unfold sent_on. cbn [filter]. destruct (Bool.eqb (on_port q0) h); [cbn [flat_map]; apply app_length|reflexivity]. }
      assert (Rq := R (on_port q0)). rewrite E, Bool.eqb_reflx in Rq.
      replace (length (spelled q0) <=? room_at (on_port q0) n)%nat with true by (symmetry; apply Nat.leb_le; lia).
      set (n1 := set_room (on_port q0) (room_at (on_port q0) n - length (spelled q0)) n).
      assert (R1 : forall h, (room_at h n1 + (if Bool.eqb (on_port q0) h then length (spelled q0) else 0) = room_at h n)%nat).
      { apply (ports_all _ (on_port q0)); unfold n1; rewrite ?room_set, ?room_other, ?Bool.eqb_reflx; [lia|].
        replace (Bool.eqb (on_port q0) (negb (on_port q0))) with false by (destruct (on_port q0); reflexivity). lia. }
      destruct (IH n1 C') as [I1 I2].
      { intros h. specialize (R h). specialize (R1 h). rewrite E in R. lia. }
      { specialize (R1 (on_port q)). cbn [app] in Q. rewrite E in Q. lia. }
      destruct (through n1 (qs ++ q :: rest)) as [part n']. cbn [fst snd] in *. split; [now rewrite I1|exact I2]. }
  destruct H as [H1 H2]. split; [exact H1|]. split; [exact H2|]. intros q' rest' Eq'. cbn [through]. rewrite Eq', H2.
  pose proof (asked_something q') as N. destruct (spelled q'); [contradiction|]. reflexivity.
Qed.

(** *** The hypotheses can be met *)
(** The TPM port takes 21 bytes, the other one 10, all answers are right: the
    hash sequence is cut in its data, and of [reinit] one request is done; the
    second left two bytes behind. *)
Example c109_example :
  let calls := [Call (Signal CancelOn); Call (Locality 3); Call (Transact [x80; x01] []); Call (Hcrtm [xaa]); Call Reinit; Call FailureMode] in
  let right : whims unit (list request) := {|
    delivers := fun r _ _ n => (r, Ok (repeat x00 n)); refuses := fun _ => Some UnexpectedEof; hangs_up := fun r _ => (r, Ok tt) |} in
  let over := calls_over (cut_off right keeping) (port_ends 0)
    {| adversary := tt; room := (21, 10)%nat; far_end := quiet [] |} calls in
  Forall proper_call calls
  /\ unit_ (far_end (fst over)) = [AskSignal CancelOn; AskCommand 3 [x80; x01]; AskHashStart; AskSignal NvOff]
  /\ got (far_end (fst over)) = ([x00; x00; x00; x06; x00; x00], [x00; x00])
  /\ room (fst over) = (0, 0)%nat
  /\ snd over = [Called (Ok Done); Called (Ok Done); Called (Ok (Payload [])); Called (Err UnexpectedEof);
                 Called (Err UnexpectedEof); Called (Err UnexpectedEof)].
Proof.
  cbn zeta. split; [repeat constructor; cbn; lia|]. split; [vm_compute; reflexivity|]. split; [vm_compute; reflexivity|].
  split; vm_compute; reflexivity.
Qed.
(** The same calls, with a machine that answers, and then one on the TPM port. *)
Definition counting (s : nat) (q : request) : nat * list byte :=
  (Datatypes.S s, match q with AskHandshake _ => repeat x01 8 | AskSizes => repeat x01 16 | AskAct _ => repeat x01 4
                  | AskCommand _ _ => [x80; x01] | _ => [] end).
Example c109_exactly_case :
  let calls := [Call (Signal CancelOn); Call (Locality 3); Call (Transact [x80; x01] (repeat x00 4096)); Call (Hcrtm [xaa]); Call Reinit;
                Call (Handshake 1); Call FailureMode] in
  let over n e := calls_over (cut_off (honest (fun _ _ => 3%nat) e) (answering counting)) (port_ends 0)
    {| adversary := (0, 0)%nat; room := n; far_end := quiet 0%nat |} calls in
  (forall s q, answer_ok q (snd (counting s q))) /\ Forall call_ok calls
  /\ all_through 0 (32, 10)%nat calls
     = ([[AskSignal CancelOn]; []; [AskCommand 3 [x80; x01]]; [AskHashStart; AskHashData [xaa]; AskHashEnd]; [AskSignal NvOff]; []; []], (0, 0)%nat)
  /\ unit_ (far_end (fst (over (32, 10)%nat (Some (System 32))))) = 6%nat
  /\ snd (over (32, 10)%nat (Some (System 32)))
     = [Called (Ok Done); Called (Ok Done); Called (Ok (Payload [x80; x01])); Called (Ok Done); Called (Err (System 32));
        Called (Err (System 32)); Called (Err (System 32))]
  /\ snd (over (40, 24)%nat None)
     = [Called (Ok Done); Called (Ok Done); Called (Ok (Payload [x80; x01])); Called (Ok Done); Called (Ok Done);
        Called (Ok (Versions 0x01010101 0x01010101)); Called (Ok Done)].
Proof.
  cbn zeta. split; [intros s []; cbn; try reflexivity; lia|].
  split; [repeat constructor; cbn [operation_ok]; try lia; vm_compute; congruence|].
  split; [vm_compute; reflexivity|]. split; [vm_compute; reflexivity|]. split; vm_compute; reflexivity.
Qed.
