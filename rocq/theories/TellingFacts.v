(** What the error of a call tells about it (C116). *)
From Coq Require Import String ZArith NArith List Lia Bool.
From Coq Require Import Init.Byte.
From Verif Require Import Prelude Types Marshal WireSpec Catalogue Errors Tpm2b Client ClientSpec ClientProofs ClientFacts
  Tcp TcpSpec TcpProofs Remote RemoteFacts Controls ControlsFacts Crowd CrowdProofs CrowdFacts Cut CutFacts Telling.
Import ListNotations.
Open Scope Z_scope.

(** Programs: [fin d qs a] for a call that ends with [a] when [qs] are still to
    be asked and [d] says that something was asked; [bad] for one that ends
    because it cannot write. *)
Section Reveals.
Context {A : Type} (fin : bool -> list request -> A -> Prop) (bad : A -> Prop).
Inductive jammed (h : bool) : talk A -> Prop :=
| jammed_said a : bad a -> jammed h (Said a)
| jammed_writes bytes k : bytes <> [] -> (forall z, jammed h (k (Err (System z)))) -> jammed h (k (Ok 0%nat)) -> jammed h (Writes h bytes k).
Inductive reveals : bool -> list request -> talk A -> Prop :=
| reveals_said d qs a : fin d qs a -> reveals d qs (Said a)
| reveals_reads d qs h n k : (forall o, from_system o -> reveals d qs (k o)) -> reveals d qs (Reads h n k)
| reveals_shuts d qs h k : (forall o, from_system o -> reveals d qs (k o)) -> reveals d qs (Shuts h k)
| reveals_writes d q qs k : speakable (on_port q) q -> reveals true qs (k (Ok (length (spelled q)))) ->
    (forall z, jammed (on_port q) (k (Err (System z)))) ->
    (forall n, (n < length (spelled q))%nat -> jammed (on_port q) (k (Ok n))) ->
    reveals d (q :: qs) (Writes (on_port q) (spelled q) k).
End Reveals.
Lemma jammed_next {A B} bad bad' h (p : talk A) (f : A -> talk B) :
  jammed bad h p -> (forall a, bad a -> exists b, f a = Said b /\ bad' b) -> jammed bad' h (next p f).
Proof.
  intros St F. induction St as [a E|bytes k N _ IH1 _ IH2]; cbn [next].
  - destruct (F a E) as (b & -> & Eb). now apply jammed_said.
  - apply jammed_writes; assumption.
Qed.
Lemma reveals_next {A B} (fin : bool -> list request -> A -> Prop) bad (fin' : bool -> list request -> B -> Prop) bad' qs qs' (p : talk A) (f : A -> talk B) d :
  reveals fin bad d qs p ->
  (forall d' rest a, (d = true -> d' = true) -> (qs <> [] -> rest = [] -> d' = true) -> fin d' rest a ->
     reveals fin' bad' d' (rest ++ qs') (f a)) ->
  (forall a, bad a -> exists b, f a = Said b /\ bad' b) -> reveals fin' bad' d (qs ++ qs') (next p f).
Proof.
  intros Re T F. induction Re as [d qs a E|d qs h n k _ IH|d qs h k _ IH|d q qs k Sp _ IH St1 St2]; cbn [next app].
  - apply T; [auto| |exact E]. intros N ->. contradiction.
  - apply reveals_reads. intros o So. now apply IH.
  - apply reveals_shuts. intros o So. now apply IH.
  - apply reveals_writes; [exact Sp| |intros; eapply jammed_next; eauto..].
    apply IH. intros d' rest a D _ Fi. apply T; auto.
Qed.
(** The outcomes of the functions of the connection but [transact]. *)
Definition plain {A} (d : bool) (qs : list request) (r : outcome io_error A) : Prop :=
  match r with
  | Ok _ => qs = []
  | Err UnexpectedEof | Err InvalidData => d = true
  | Err (System _) | Panic => True
  | _ => False
  end.
Definition jam {A} (r : outcome io_error A) : Prop := match r with Err WriteZero | Err (System _) => True | _ => False end.
Local Notation shows := (reveals plain jam).
Lemma shows_try {A B} qs qs' d (m : failing A) (f : A -> failing B) :
  shows d qs m -> (forall d' a, (d = true -> d' = true) -> (qs <> [] -> d' = true) -> shows d' qs' (f a)) -> shows d (qs ++ qs') (try m f).
Proof.
  intros M F. eapply reveals_next; [exact M|..].
  - intros d' rest [a|e|] D N Fi; cbn [plain] in Fi.
    + subst rest. apply F; auto.
    + apply reveals_said. exact Fi.
    + apply reveals_said. exact I.
  - intros [a|e|] E; try contradiction. eexists. split; [reflexivity|exact E].
Qed.
Lemma shows_shown {A B} qs d (f : A -> B) m : shows d qs m -> shows d qs (shown f m).
Proof.
  intros M. rewrite <- (app_nil_r qs). eapply reveals_next; [exact M|..].
  - intros d' rest [a|e|] D N Fi; apply reveals_said; cbn [plain] in *; [now subst|exact Fi|exact I].
  - intros [a|e|] E; try contradiction. eexists. split; [reflexivity|exact E].
Qed.
Lemma shows_fine {A} d (a : A) : shows d [] (fine a).
Proof. apply reveals_said. reflexivity. Qed.
Definition read_plain (d : bool) (qs : list request) (x : list byte * outcome io_error unit) : Prop := plain d qs (snd x).
Lemma shows_read_loop h : forall fuel n, reveals read_plain (fun _ => False) true [] (read_loop_t fuel h n).
Proof.
  induction fuel as [|fuel IH]; intros [|n]; cbn [read_loop_t]; try (apply reveals_said; reflexivity); try (apply reveals_said; exact I).
  apply reveals_reads. intros [[|b bs]|e|] So; try (apply reveals_said; reflexivity); try (apply reveals_said; exact I).
  - destruct (_ <? _)%nat; [apply reveals_said; exact I|].
    change (@nil request) with (@nil request ++ []). eapply reveals_next; [apply IH|..].
    + intros d' rest [bs' r] D N Fi. apply reveals_said. unfold read_plain in *. cbn [snd] in *. now rewrite app_nil_r.
    + contradiction.
  - apply reveals_said. unfold read_plain. cbn [snd]. destruct e; try contradiction. exact I.
Qed.
Lemma shows_bytes h n : shows true [] (read_bytes_t h n).
Proof.
  change (@nil request) with (@nil request ++ []). eapply reveals_next; [apply shows_read_loop|..].
  - intros d' rest [bs [u|e|]] D N Fi; apply reveals_said; unfold read_plain in Fi; cbn [plain snd omap] in *; [now subst|exact Fi|exact I].
  - contradiction.
Qed.
Ltac done_before := match goal with D : true = true -> ?d = true |- _ => rewrite (D eq_refl) in * end.
Lemma shows_u32 h : shows true [] (read_u32_t h).
Proof. apply (shows_try [] []); [apply shows_bytes|]. intros d' a D _. apply shows_fine. Qed.
Lemma shows_check h : shows true [] (check_end_t h).
Proof.
  apply (shows_try [] []); [apply shows_u32|]. intros d' z D _. rewrite (D eq_refl).
  destruct (z =? 0); [apply shows_fine|apply reveals_said; reflexivity].
Qed.
Lemma shows_shut d h : shows d [] (Shuts h Said).
Proof. apply reveals_shuts. intros [u|e|] So; apply reveals_said; cbn in *; auto. destruct e; try contradiction. exact I. Qed.
Lemma shows_whole q bytes d : speakable (on_port q) q -> bytes = spelled q -> shows d [q] (write_whole_t (on_port q) bytes).
Proof.
  intros Sp ->. unfold write_whole_t, raw_write_t, try. cbn [next]. apply reveals_writes; [exact Sp|..].
  - rewrite Nat.eqb_refl. apply shows_fine.
  - intros z. apply jammed_said. exact I.
  - intros n L. replace (n =? length (spelled q))%nat with false by (symmetry; apply Nat.eqb_neq; lia). apply jammed_said. exact I.
Qed.
Lemma jammed_loop h fuel buf : buf <> [] -> (length buf <= fuel)%nat -> jammed jam h (write_loop_t fuel h buf).
Proof.
  intros N L. destruct buf as [|b buf]; [contradiction|]. destruct fuel as [|fuel]; cbn [write_loop_t length] in *; [lia|].
  apply jammed_writes; [discriminate|intros e; apply jammed_said; exact I|apply jammed_said; exact I].
Qed.
Lemma shows_all q bytes d : speakable (on_port q) q -> bytes = spelled q -> shows d [q] (write_all_t (on_port q) bytes).
Proof.
  intros Sp ->. unfold write_all_t. pose proof (asked_something q) as N.
  destruct (spelled q) as [|b buf] eqn:E; [contradiction|]. cbn [length write_loop_t]. rewrite <- E.
  apply reveals_writes; [exact Sp|..]; rewrite ?E.
  - cbn [length]. rewrite Nat.ltb_irrefl.
    replace (skipn (S (length buf)) (b :: buf)) with (@nil byte) by (symmetry; apply skipn_all2; cbn [length]; lia).
    destruct (length buf); apply shows_fine.
  - intros e. apply jammed_said. exact I.
  - intros [|n] L; [apply jammed_said; exact I|].
    cbn [length] in L |- *. replace (S (length buf) <? S n)%nat with false by (symmetry; apply Nat.ltb_ge; lia).
    apply jammed_loop.
    + intros X. apply (f_equal (@length byte)) in X. rewrite skipn_length in X. cbn [length] in *. lia.
    + rewrite skipn_length. cbn [length]. lia.
Qed.
Lemma shows_ack q d (m : failing unit) : shows d [q] m -> forall h, shows d [q] (try m (fun _ => check_end_t h)).
Proof. intros M h. apply (shows_try [q] []); [exact M|]. intros d' a _ D. rewrite D by discriminate. apply shows_check. Qed.
Lemma shows_acks {A} q qs d (m : failing unit) (rest : failing A) h : shows d [q] m -> shows true qs rest ->
  shows d (q :: qs) (try m (fun _ => try (check_end_t h) (fun _ => rest))).
Proof.
  intros M Rs. apply (shows_try [q] qs); [exact M|]. intros d' a _ D. rewrite D by discriminate.
  apply (shows_try [] qs); [apply shows_check|]. intros d2 u D2 _. now rewrite (D2 eq_refl).
Qed.
Lemma shows_signal d g : shows d [AskSignal g] (signal_t g).
Proof. apply shows_ack, (shows_all (AskSignal g)); [reflexivity|destruct g; reflexivity]. Qed.
(** And of [transact] and [run_command]. *)
Definition whole {A} (d : bool) (qs : list request) (r : outcome io_error A) : Prop :=
  match r with
  | Ok _ | Err InvalidInput | Err (FromTss _) => qs = []
  | Err UnexpectedEof | Err InvalidData => d = true
  | Err (System _) | Panic => True
  | _ => False
  end.
Lemma plain_whole {A} d qs (r : outcome io_error A) : plain d qs r -> whole d qs r.
Proof. destruct r as [a|[]|]; cbn; tauto. Qed.
Definition sent_whole {X} (d : bool) (qs : list request) (x : list byte * outcome io_error X) : Prop := whole d qs (snd x).
Definition sent_jam {X} (x : list byte * outcome io_error X) : Prop := jam (snd x).
Lemma shows_transact loc command response d : 0 <= loc < 256 -> Z.of_nat (length command) < 2 ^ 32 ->
  reveals sent_whole sent_jam d [AskCommand loc command] (transact_t loc command response).
Proof.
  intros Hl Hc. unfold transact_t.
  replace (2 ^ 32 <=? Z.of_nat (length command)) with false by (symmetry; apply Z.leb_gt; exact Hc).
  change [AskCommand loc command] with (([AskCommand loc command] ++ []) ++ []).
  eapply reveals_next; [apply shows_try|..].
  - apply (shows_whole (AskCommand loc command)); [cbn [on_port speakable]; auto|reflexivity].
  - intros d' u _ D. rewrite D by discriminate. apply shows_u32.
  - intros d' rest [len|e|] _ D Fi; cbn [plain] in Fi.
    + subst rest. rewrite D by (reflexivity || discriminate).
      destruct (_ <? _); [apply reveals_said; reflexivity|]. cbv zeta.
      change (@nil request ++ []) with (@nil request ++ []). eapply reveals_next; [apply shows_read_loop|..]; [|contradiction].
      intros d2 rest [bs r] D2 _ Fr. rewrite (D2 eq_refl) in *. unfold read_plain in Fr. cbn [snd] in Fr. destruct r as [u|e|].
      * cbn [plain] in Fr. subst rest. change (@nil request ++ []) with (@nil request ++ []). eapply reveals_next; [apply shows_check|..].
        { intros d3 rest [[]|e|] D3 _ Fc; apply reveals_said; unfold sent_whole; cbn [snd]; cbn [plain] in Fc; [subst; reflexivity| |exact I].
          rewrite (D3 eq_refl) in *. destruct e; cbn in *; auto; contradiction. }
        { intros [[]|e|] E; try contradiction. eexists. split; [reflexivity|]. exact E. }
      * apply reveals_said. unfold sent_whole. cbn [snd]. destruct e; cbn in *; auto; contradiction.
      * apply reveals_said. exact I.
    + apply reveals_said. unfold sent_whole. cbn [snd]. destruct e; cbn in *; auto; contradiction.
    + apply reveals_said. exact I.
  - intros [len|e|] E; try contradiction. eexists. split; [reflexivity|exact E].
Qed.
Local Notation wholly := (reveals whole jam).
Lemma shows_wholly {A} d qs (p : failing A) : shows d qs p -> wholly d qs p.
Proof.
  induction 1; [apply reveals_said; now apply plain_whole|now apply reveals_reads|now apply reveals_shuts|now apply reveals_writes].
Qed.
Lemma wholly_operation loc o d : 0 <= loc < 256 -> operation_ok o -> wholly d (requests_of loc (Call o)) (operation_t loc o).
Proof.
  intros Hl Ho. destruct o as [command response|data|v|z|g| | | |z|z|z|l'| |]; cbn [operation_t requests_of]; cbn [operation_ok] in Ho.
  - change [AskCommand loc command] with ([AskCommand loc command] ++ []).
    eapply reveals_next; [apply shows_transact; assumption|..].
    + intros d' rest [rsp r] _ _ Fi. unfold sent_whole in Fi. cbn [snd] in Fi. rewrite app_nil_r. apply reveals_said.
      destruct r as [n|e|]; exact Fi.
    + intros [rsp [n|e|]] E; try contradiction. eexists. split; [reflexivity|exact E].
  - apply shows_wholly, shows_shown. unfold hcrtm_t.
    apply shows_acks; [apply (shows_all AskHashStart); reflexivity|].
    apply shows_acks; [|apply shows_ack, (shows_all AskHashEnd); reflexivity].
    apply (shows_whole (AskHashData data)); [split; [reflexivity|exact Ho]|]. rewrite Z.mod_small by lia. reflexivity.
  - apply shows_wholly, shows_shown. unfold handshake_t. apply (shows_try [AskHandshake v] []).
    { apply (shows_whole (AskHandshake v)); [split; [reflexivity|exact Ho]|reflexivity]. }
    intros d' u _ D. rewrite D by discriminate. apply (shows_try [] []); [apply shows_bytes|]. intros d2 r D2 _. rewrite (D2 eq_refl).
    apply (shows_try [] []); [apply shows_check|]. intros d3 w _ _. apply shows_fine.
  - apply shows_wholly, shows_shown, shows_ack, (shows_whole (AskAlternative z)); [split; [reflexivity|exact Ho]|reflexivity].
  - apply shows_wholly, shows_shown, shows_signal.
  - apply shows_wholly, shows_shown. unfold reinit_t.
    do 3 (refine (shows_try [_] _ _ _ _ (shows_signal _ _) _); intros ? ? _ _). apply shows_signal.
  - apply shows_wholly, shows_shown, shows_ack, (shows_all AskFailureMode); reflexivity.
  - apply shows_wholly, shows_shown. unfold sizes_t. apply (shows_try [AskSizes] []); [apply (shows_all AskSizes); reflexivity|].
    intros d' u _ D. rewrite D by discriminate. apply (shows_try [] []); [apply shows_u32|]. intros d2 n D2 _. rewrite (D2 eq_refl).
    destruct (negb _); [apply reveals_said; reflexivity|].
    apply (shows_try [] []); [apply shows_bytes|]. intros d3 r D3 _. rewrite (D3 eq_refl). apply (shows_try [] []); [apply shows_check|]. intros d4 w _ _. apply shows_fine.
  - apply shows_wholly, shows_shown. unfold act_t. apply (shows_try [AskAct z] []).
    { apply (shows_whole (AskAct z)); [split; [reflexivity|exact Ho]|reflexivity]. }
    intros d' u _ D. rewrite D by discriminate. apply (shows_try [] []); [apply shows_u32|]. intros d2 n D2 _. rewrite (D2 eq_refl).
    apply (shows_try [] []); [apply shows_check|]. intros d4 w _ _. apply shows_fine.
  - apply shows_wholly, shows_shown, shows_ack, (shows_whole (AskFirmwareHash z)); [split; [reflexivity|exact Ho]|reflexivity].
  - apply shows_wholly, shows_shown, shows_ack, (shows_whole (AskFirmwareSvn z)); [split; [reflexivity|exact Ho]|reflexivity].
  - apply shows_wholly, shows_fine.
  - apply shows_wholly, shows_shown. unfold end_both_t. apply (shows_try [AskEnd true] [AskEnd false]); [apply (shows_all (AskEnd true)); reflexivity|].
    intros d1 u1 _ _. apply (shows_try [] [AskEnd false]); [apply shows_shut|]. intros d2 u2 _ _.
    apply (shows_try [AskEnd false] []); [apply (shows_all (AskEnd false)); reflexivity|]. intros d3 u3 _ _. apply shows_shut.
  - apply shows_wholly, shows_shown. unfold end_both_t. apply (shows_try [AskStop true] [AskStop false]); [apply (shows_all (AskStop true)); reflexivity|].
    intros d1 u1 _ _. apply (shows_try [] [AskStop false]); [apply shows_shut|]. intros d2 u2 _ _.
    apply (shows_try [AskStop false] []); [apply (shows_all (AskStop false)); reflexivity|]. intros d3 u3 _ _. apply shows_shut.
Qed.
Lemma wholly_command loc c cmd handles a d : 0 <= loc < 256 -> valid_call c cmd handles a ->
  wholly d (requests_of loc (RunCommand c cmd handles a)) (command_t loc c cmd handles a).
Proof.
  intros Hl V. unfold command_t, requests_of.
  destruct (Z.leb_spec (Z.of_nat (length (command_frame c cmd handles a))) 4096) as [L|L].
  - rewrite (build_frame c cmd handles a V L).
    change [AskCommand loc ?x] with ([AskCommand loc x] ++ []).
    eapply reveals_next; [apply shows_transact; [exact Hl|lia]|..].
    + intros d' rest [rsp r] _ _ Fi. unfold sent_whole in Fi. cbn [snd] in Fi. rewrite app_nil_r. apply reveals_said.
      destruct r as [n|e|]; [|exact Fi..]. cbn [whole] in Fi. destruct (parse_response c a rsp); cbn; auto.
    + intros [rsp [n|e|]] E; try contradiction. eexists. split; [reflexivity|exact E].
  - destruct (build_too_long c cmd handles a V) as [E|E]; [unfold fits; lia| |]; rewrite E; apply reveals_said; cbn; auto.
Qed.

(** ** Over ports that are cut off *)
Section Over.
Context {R S : Type} (adv : whims R S) (f : machine S) (Hs : sound adv).
Local Notation sys := (cut_off adv f).
Lemma run_jammed {A} bad h (p : talk A) : jammed bad h p -> forall l w, remains w -> room_at h (room w) = 0%nat ->
  exists a, run_talk sys (port_ends l) p w = (w, a) /\ bad a.
Proof.
  induction 1 as [a E|bytes k N _ IH1 _ IH2]; intros l w Re Z; cbn [run_talk]; [eauto|].
  replace (stream (port_ends l) h) with h by (destruct h; reflexivity).
  rewrite (refused adv f h bytes w Re N Z). destruct (refuses adv (adversary w)) as [e|] eqn:E; auto.
  destruct Hs as (_ & Hr & _). destruct (Hr _ _ E) as (z & ->). auto.
Qed.
Lemma run_reveals {A} fin bad d (p : talk A) qs : reveals fin bad d qs p -> forall l w, remains w ->
  exists w' a part rest, run_talk sys (port_ends l) p w = (w', a) /\ qs = part ++ rest
    /\ (fin (d || negb (match part with [] => true | _ => false end)) rest a \/ bad a /\ rest <> [])
    /\ remains w' /\ unit_ (far_end w') = does f (unit_ (far_end w)) part.
Proof.
  destruct Hs as (Hd & Hr & Hh).
  induction 1 as [d qs a E|d qs h n k _ IH|d qs h k _ IH|d q qs k Sp _ IH St1 St2]; intros l w Re; cbn [run_talk].
  - exists w, a, [], qs. rewrite orb_false_r. auto.
  - cbn [read cut_off]. pose proof (Hd (adversary w) (far_end w) (stream (port_ends l) h) n) as So. destruct (delivers adv _ _ _ _) as [r o].
    apply (IH o So l {| adversary := r; room := room w; far_end := far_end w |}). exact Re.
  - cbn [shutdown cut_off]. pose proof (Hh (adversary w) (stream (port_ends l) h)) as So. destruct (hangs_up adv _ _) as [r o].
    replace (stream (port_ends l) h) with h by (destruct h; reflexivity).
    set (w1 := {| adversary := r; room := set_room h 0 (room w); far_end := far_end w |}).
    assert (Re1 : remains w1).
    { unfold remains; apply (ports_all _ h); cbv beta; unfold w1; cbn [far_end room]; rewrite ?room_set, ?room_other; [|apply Re].
      destruct (Re h) as [E|[_ E]]; auto. }
    destruct (IH o So l w1 Re1) as (w' & a & part & rest & X). exists w', a, part, rest. exact X.
  - replace (stream (port_ends l) (on_port q)) with (on_port q) by (destruct (on_port q); reflexivity).
    set (h := on_port q) in *. pose proof (asked_something q) as N.
    assert (Jam : forall n, (n < length (spelled q))%nat ->
      jammed bad h (k match refuses adv (adversary w) with Some e => Err e | None => Ok n end)).
    { intros n L. destruct (refuses adv (adversary w)) as [e|] eqn:E; [|now apply St2]. destruct (Hr _ _ E) as (z & ->). apply St1. }
    destruct (Nat.eq_dec (room_at h (room w)) 0) as [Z|Z].
    { rewrite (refused adv f h (spelled q) w Re N Z).
      destruct (run_jammed bad h _ (Jam 0%nat ltac:(destruct (spelled q); [contradiction|cbn; lia])) l w Re Z) as (a & -> & Ea).
      exists w, a, [], (q :: qs). split; [reflexivity|]. split; [reflexivity|]. split; [right; split; [exact Ea|discriminate]|]. auto. }
    assert (E : port h (got (far_end w)) = []) by (destruct (Re h) as [E|[X _]]; [exact E|contradiction]).
    cbn [write cut_off]. destruct (Nat.le_gt_cases (length (spelled q)) (room_at h (room w))) as [L|L].
    + rewrite Nat.min_l, Nat.eqb_refl, firstn_all by exact L.
      set (w1 := {| adversary := _; room := _; far_end := _ |}).
      destruct (arrives_whole f h q (far_end w) Sp E) as [U1 G1].
      assert (Re1 : remains w1).
      { unfold remains; apply (ports_all _ h); cbv beta; unfold w1; cbn [far_end room]; rewrite ?room_set, ?room_other, G1; [auto|]. apply Re. }
      destruct (IH l w1 Re1) as (w' & a & part & rest & Er & Eq & Fi & Re' & U).
      exists w', a, (q :: part), rest. split; [exact Er|]. split; [cbn [app]; now rewrite Eq|]. split; [rewrite orb_true_r; exact Fi|].
      split; [exact Re'|]. rewrite U; unfold w1; cbn [far_end does fold_left]; now rewrite U1.
    + rewrite Nat.min_r by lia. set (n := room_at h (room w)) in *.
      replace (n =? length (spelled q))%nat with false by (symmetry; apply Nat.eqb_neq; lia).
      set (w1 := {| adversary := _; room := _; far_end := _ |}).
      destruct (arrives_begun f h q n (far_end w) L Sp E) as (U1 & G1 & G2).
      assert (Re1 : remains w1).
      { unfold remains; apply (ports_all _ h); cbv beta; unfold w1; cbn [far_end room]; rewrite ?room_set, ?room_other, ?G1, ?G2; [|apply Re].
        right. split; [lia|]. now apply front_begun. }
      assert (Z1 : room_at h (room w1) = 0%nat) by (unfold w1; cbn [room]; rewrite room_set; lia).
      destruct (run_jammed bad h _ (Jam n L) l w1 Re1 Z1) as (a & -> & Ea).
      exists w1, a, [], (q :: qs). split; [reflexivity|]. split; [reflexivity|]. split; [right; split; [exact Ea|discriminate]|]. auto.
Qed.
Lemma whole_tells {A} part rest (r : outcome io_error A) :
  whole (false || negb (match part with [] => true | _ => false end)) rest r \/ jam r /\ rest <> [] -> tells part rest r.
Proof.
  intros [Wh|[J N]].
  - destruct r as [a|[]|]; cbn in *; auto; destruct part; cbn in *; congruence || contradiction.
  - destruct r as [a|[]|]; cbn in *; auto; contradiction.
Qed.
Lemma calls_told : forall calls l w, 0 <= l < 256 -> Forall proper_call calls -> remains w ->
  exists w' rs parts, calls_over sys (port_ends l) w calls = (w', rs) /\ told l calls parts rs
    /\ remains w' /\ unit_ (far_end w') = does f (unit_ (far_end w)) (concat parts).
Proof.
  induction calls as [|x calls IH]; intros l w Hl Hc Re.
  { exists w, [], []. split; [reflexivity|]. split; [constructor|]. auto. }
  inversion Hc as [|? ? Hx Hc']; subst. pose proof (past_ok l x Hl Hx) as Hl'.
  assert (H : exists w1 r part rest,
    calls_over sys (port_ends l) w (x :: calls)
      = (let '(w2, rs) := calls_over sys (port_ends (locality_past l x)) w1 calls in (w2, r :: rs))
    /\ requests_of l x = part ++ rest /\ tells_result part rest r /\ remains w1
    /\ unit_ (far_end w1) = does f (unit_ (far_end w)) part).
  { destruct (c102_program _ _ _ sys (port_ends l)) as [P1 P2]. change (locality (port_ends l)) with l in *.
    destruct x as [o|c cmd handles a]; cbn [calls_over locality_past proper_call] in *.
    - destruct (run_reveals _ _ _ _ _ (wholly_operation l o false Hl Hx) l w Re) as (w1 & a & part & rest & Er & Eq & Fi & Re1 & U).
      specialize (P1 o w). rewrite Er in P1. rewrite P1.
      exists w1, (Called a), part, rest. split.
      { replace (match o with Locality l0 => set_locality (port_ends l) l0 | _ => port_ends l end)
          with (port_ends (locality_after l o)) by (destruct o; reflexivity). reflexivity. }
      split; [exact Eq|]. split; [|auto]. now apply whole_tells.
    - destruct (run_reveals _ _ _ _ _ (wholly_command l c cmd handles a false Hl Hx) l w Re) as (w1 & r & part & rest & Er & Eq & Fi & Re1 & U).
      specialize (P2 c cmd handles a w). rewrite Er in P2. rewrite <- P2.
      exists w1, (Ran r), part, rest. split; [reflexivity|].
      split; [exact Eq|]. split; [|auto]. now apply whole_tells. }
  destruct H as (w1 & r & part & rest & Er & Eq & Te & Re1 & U).
  destruct (IH (locality_past l x) w1 Hl' Hc' Re1) as (w2 & rs & parts & E2 & B & Re2 & U2).
  rewrite Er, E2. exists w2, (r :: rs), (part :: parts). split; [reflexivity|]. split; [econstructor; eassumption|].
  split; [exact Re2|]. cbn [concat]. now rewrite U2, U, does_app.
Qed.
End Over.

(** ** C116 *)

(** A session over ports that each take some number of bytes and then no more,
    where what is read is up to an adversary and the operating system reports
    errors of its own only.  Of every call the first requests are done, and the
    outcome tells about them: success, a response that does not fit, or an error
    of the library means that all were done; that a write got nowhere, that not
    all were; the end of the stream, or an invalid answer, that some were. *)
Theorem c116_session R S (adv : whims R S) (f : machine S) r0 n l s calls :
  sound adv -> 0 <= l < 256 -> Forall proper_call calls ->
  exists w rs parts,
    calls_over (cut_off adv f) (port_ends l) {| adversary := r0; room := n; far_end := quiet s |} calls = (w, rs)
    /\ told l calls parts rs
    /\ unit_ (far_end w) = does f s (concat parts).
Proof.
  intros Hs Hl Hc.
  destruct (calls_told adv f Hs calls l {| adversary := r0; room := n; far_end := quiet s |} Hl Hc) as (w & rs & parts & E & T & _ & U).
  { intros h. left. destruct h; reflexivity. }
  exists w, rs, parts. auto.
Qed.

(** So for the last call of a session, if it makes one request: unless the
    operating system reported an error, or the call panicked, the result says
    whether the request was done - and the machine is in the state that the
    calls before left, with or without it. *)
Theorem c116_one R S (adv : whims R S) (f : machine S) r0 n l s calls x q :
  sound adv -> 0 <= l < 256 -> Forall proper_call (calls ++ [x]) ->
  requests_of (fold_left locality_past calls l) x = [q] ->
  exists w rs w' r,
    calls_over (cut_off adv f) (port_ends l) {| adversary := r0; room := n; far_end := quiet s |} calls = (w, rs)
    /\ calls_over (cut_off adv f) (port_ends l) {| adversary := r0; room := n; far_end := quiet s |} (calls ++ [x]) = (w', rs ++ [r])
    /\ (uninformative r = false ->
        unit_ (far_end w') = if says_undone r then unit_ (far_end w) else fst (f (unit_ (far_end w)) q)).
Proof.
  intros Hs Hl Hc Hx. apply Forall_app in Hc. destruct Hc as [Hc Hy]. inversion Hy as [|? ? Px _]; subst.
  set (w0 := {| adversary := r0; room := n; far_end := quiet s |}).
  assert (Re0 : remains w0) by (intros h; left; destruct h; reflexivity).
  assert (Split : forall calls l w, 0 <= l < 256 -> Forall proper_call calls -> remains w ->
    exists w1 rs parts, calls_over (cut_off adv f) (port_ends l) w calls = (w1, rs) /\ remains w1
      /\ 0 <= fold_left locality_past calls l < 256 /\ unit_ (far_end w1) = does f (unit_ (far_end w)) (concat parts)
      /\ forall more, calls_over (cut_off adv f) (port_ends l) w (calls ++ more)
         = (let '(w2, rs2) := calls_over (cut_off adv f) (port_ends (fold_left locality_past calls l)) w1 more in (w2, rs ++ rs2))).
  { clear. induction calls as [|y calls IH]; intros l w Hl Hc Re.
    - exists w, [], []. split; [reflexivity|]. split; [exact Re|]. split; [exact Hl|]. split; [reflexivity|].
      intros more. cbn [app fold_left]. destruct (calls_over _ _ _ more). reflexivity.
    - inversion Hc as [|? ? Hy Hc']; subst. pose proof (past_ok l y Hl Hy) as Hl'.
      destruct (calls_begun adv f [y] l w Hl (Forall_cons _ Hy (Forall_nil _)) Re) as (w1 & rs1 & parts1 & E1 & _ & Re1 & _ & U1).
      destruct (IH (locality_past l y) w1 Hl' Hc' Re1) as (w2 & rs2 & parts2 & E2 & Re2 & Hl2 & U2 & A2).
      assert (One : forall more, calls_over (cut_off adv f) (port_ends l) w (y :: more)
        = (let '(w2, rs2) := calls_over (cut_off adv f) (port_ends (locality_past l y)) w1 more in (w2, rs1 ++ rs2))).
      { intros more. destruct y as [o|c cmd handles a]; cbn [calls_over locality_past] in *.
        - destruct (c102_program _ _ _ (cut_off adv f) (port_ends l)) as [P1 _]. specialize (P1 o w).
          destruct (run_talk _ _ _ w) as [w3 r3]. rewrite P1 in *. injection E1 as <- <-.
          replace (match o with Locality l0 => set_locality (port_ends l) l0 | _ => port_ends l end)
            with (port_ends (locality_after l o)) by (destruct o; reflexivity). reflexivity.
        - destruct (run_command_with_handles _ _ w c cmd handles a) as [w3 r3]. injection E1 as <- <-. reflexivity. }
      exists w2, (rs1 ++ rs2), (parts1 ++ parts2). cbn [fold_left app]. split.
      { rewrite One, E2. reflexivity. }
      split; [exact Re2|]. split; [exact Hl2|]. split; [now rewrite concat_app, does_app, <- U1|].
      intros more. rewrite One, A2. destruct (calls_over _ _ _ more). now rewrite app_assoc. }
  destruct (Split calls l w0 Hl Hc Re0) as (w1 & rs1 & parts1 & E1 & Re1 & Hl1 & U1 & A1).
  destruct (calls_told adv f Hs [x] _ w1 Hl1 (Forall_cons _ Px (Forall_nil _)) Re1) as (w2 & rs2 & parts2 & E2 & T & _ & U2).
  inversion T as [|? ? ? part rest ? r ? Rq Te T']; subst. inversion T'; subst.
  exists w1, rs1, w2, r. split; [exact E1|]. split; [now rewrite A1, E2|].
  intros In. rewrite U2. cbn [concat]. rewrite app_nil_r. rewrite Hx in Rq.
  destruct part as [|q1 part]; cbn [app] in Rq.
  - subst rest. destruct r as [[y|[]|]|[y|[]|]]; cbn in *; congruence || contradiction.
  - injection Rq as <- Rq. symmetry in Rq. apply app_eq_nil in Rq. destruct Rq as [-> ->].
    destruct r as [[y|[]|]|[y|[]|]]; cbn in *; try reflexivity; try congruence; contradiction.
Qed.

(** An error of the operating system tells nothing: the same command fails in
    the same way on a port that takes nothing, and on one that takes all and
    whose answer is lost.  The machine executed it only the second time. *)
Definition reset_by_peer : whims unit (list request) := {|
  delivers := fun r _ _ _ => (r, Err (System 104));
  refuses := fun _ => Some (System 104);
  hangs_up := fun r _ => (r, Ok tt) |}.
Theorem c116_unclear :
  let x := Call (Transact [x80; x01] (repeat x00 16)) in
  let before n := {| adversary := tt; room := (n, n); far_end := quiet [] |} in
  sound reset_by_peer /\ proper_call x
  /\ (let '(w1, rs1) := calls_over (cut_off reset_by_peer keeping) (port_ends 3) (before 0%nat) [x] in
      let '(w2, rs2) := calls_over (cut_off reset_by_peer keeping) (port_ends 3) (before 100%nat) [x] in
      rs1 = [Called (Err (System 104))] /\ rs2 = rs1
      /\ unit_ (far_end w1) = [] /\ unit_ (far_end w2) = [AskCommand 3 [x80; x01]]).
Proof.
  cbv zeta. split; [|split; [reflexivity|]].
  - split; [intros; exact I|]. split; [|intros; exact I]. intros r e E. injection E as <-. now exists 104.
  - vm_compute. auto.
Qed.

(** A peer that ends the stream, or runs out of room without an error. *)
Definition silent : whims unit (list request) := {|
  delivers := fun r _ _ _ => (r, Ok []);
  refuses := fun _ => None;
  hangs_up := fun r _ => (r, Ok tt) |}.
Example c116_example :
  let x := Call (Transact [x80; x01] (repeat x00 16)) in
  let calls := [Call Reinit; x; Call (Hcrtm [x61]); x] in
  sound silent /\ Forall proper_call calls
  /\ requests_of (fold_left locality_past (firstn 3 calls) 0) x = [AskCommand 0 [x80; x01]]
  /\ (let '(w, rs) := calls_over (cut_off silent keeping) (port_ends 0) {| adversary := tt; room := (20%nat, 20%nat); far_end := quiet [] |} calls in
      rs = [Called (Err UnexpectedEof); Called (Err UnexpectedEof); Called (Err UnexpectedEof); Called (Err WriteZero)]
      /\ unit_ (far_end w) = [AskSignal NvOff; AskCommand 0 [x80; x01]; AskHashStart]).
Proof.
  cbv zeta. split; [|split; [|split; [reflexivity|vm_compute; auto]]].
  - split; [intros; exact I|]. split; [|intros; exact I]. intros r e E. discriminate.
  - repeat constructor; cbn; lia.
Qed.
