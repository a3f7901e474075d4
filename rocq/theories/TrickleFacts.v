(** Calls over a network that takes parts of what is written (C113). *)
From Coq Require Import String ZArith NArith List Lia Bool.
From Coq Require Import Init.Byte.
From Verif Require Import Prelude Types Marshal WireSpec Catalogue Errors Tpm2b Client ClientSpec ClientProofs ClientFacts
  Tcp TcpSpec TcpProofs Remote RemoteFacts Controls ControlsFacts Crowd CrowdProofs CrowdFacts Cut Trickle.
Import ListNotations.
Open Scope Z_scope.

(** ** What calls write, byte by byte *)
Section Pours.
Context {A : Type} (ok : A -> bool).
Inductive pours : list (bool * byte) -> talk A -> Prop :=
| pours_said ls a : (ok a = true -> ls = []) -> pours ls (Said a)
| pours_reads ls h n k : (forall o, pours ls (k o)) -> pours ls (Reads h n k)
| pours_shuts ls h k : (forall o, pours ls (k o)) -> pours ls (Shuts h k)
| pours_writes h bytes ls k :
    (forall n, (n <= length bytes)%nat -> pours (map (pair h) (skipn n bytes) ++ ls) (k (Ok n))) ->
    (forall e, exists a, k (Err e) = Said a /\ ok a = false) ->
    pours (map (pair h) bytes ++ ls) (Writes h bytes k).
End Pours.
Definition asks {A} (ok : A -> bool) (qs : list request) (p : talk A) : Prop := pours ok (in_bytes qs) p.
Definition is_ok {E A} (o : outcome E A) : bool := match o with Ok _ => true | _ => false end.
Lemma in_bytes_app a b : in_bytes (a ++ b) = in_bytes a ++ in_bytes b.
Proof. apply flat_map_app. Qed.
Lemma in_bytes_nil qs : in_bytes qs = [] -> qs = [].
Proof.
  destruct qs as [|q qs]; [reflexivity|]. cbn [in_bytes flat_map]. pose proof (asked_something q).
  destruct (spelled q); [contradiction|discriminate].
Qed.
Lemma asks_said {A} (ok : A -> bool) qs a : (ok a = true -> qs = []) -> asks ok qs (Said a).
Proof. intros H. apply pours_said. intros E. now rewrite (H E). Qed.
Lemma asks_reads {A} (ok : A -> bool) qs h n k : (forall o, asks ok qs (k o)) -> asks ok qs (Reads h n k).
Proof. apply pours_reads. Qed.
Lemma asks_shuts {A} (ok : A -> bool) qs h k : (forall o, asks ok qs (k o)) -> asks ok qs (Shuts h k).
Proof. apply pours_shuts. Qed.
Lemma asks_next {A B} ok ok' qs qs' (p : talk A) (f : A -> talk B) :
  asks ok qs p -> (forall a, ok a = true -> asks ok' qs' (f a)) ->
  (forall a, ok a = false -> exists b, f a = Said b /\ ok' b = false) -> asks ok' (qs ++ qs') (next p f).
Proof.
  unfold asks. intros As T F. rewrite in_bytes_app.
  induction As as [ls a E|ls h n k _ IH|ls h k _ IH|h bytes ls k _ IH St]; cbn [next].
  - destruct (ok a) eqn:Ea.
    + rewrite E by reflexivity. now apply T.
    + destruct (F a Ea) as (b & -> & Eb). apply pours_said. congruence.
  - apply pours_reads. exact IH.
  - apply pours_shuts. exact IH.
  - rewrite <- app_assoc. apply pours_writes.
    + intros n L. rewrite app_assoc. now apply IH.
    + intros e. destruct (St e) as (a & -> & Ea). cbn [next]. now apply F.
Qed.
Lemma asks_try {A B} qs qs' (m : failing A) (f : A -> failing B) :
  asks is_ok qs m -> (forall a, asks is_ok qs' (f a)) -> asks is_ok (qs ++ qs') (try m f).
Proof.
  intros M F. eapply asks_next; [exact M|..]; intros [a|e|] E; try discriminate; [apply F|eexists; split; reflexivity..].
Qed.
Lemma asks_shown {A B} qs (f : A -> B) m : asks is_ok qs m -> asks is_ok qs (shown f m).
Proof.
  intros M. rewrite <- (app_nil_r qs). eapply asks_next; [exact M|..]; intros [a|e|] E; try discriminate.
  - apply asks_said. reflexivity.
  - eexists. split; reflexivity.
  - eexists. split; reflexivity.
Qed.
Lemma asks_fine {A} (a : A) : asks is_ok [] (fine a).
Proof. apply asks_said. reflexivity. Qed.
Lemma asks_fails {A} qs e : asks is_ok qs (@fails A e).
Proof. apply asks_said. discriminate. Qed.
Lemma asks_nothing {A} qs (a : outcome io_error A) : is_ok a = false -> asks is_ok qs (Said a).
Proof. intros E. apply asks_said. congruence. Qed.
Definition read_ok (x : list byte * outcome io_error unit) : bool := is_ok (snd x).
Lemma asks_read_loop h : forall fuel n, asks read_ok [] (read_loop_t fuel h n).
Proof.
  induction fuel as [|fuel IH]; intros [|n]; cbn [read_loop_t]; try (apply asks_said; reflexivity).
  apply asks_reads. intros [[|b bs]|e|]; try (apply asks_said; reflexivity).
  destruct (_ <? _)%nat; [apply asks_said; reflexivity|].
  change (@nil request) with (@nil request ++ []). eapply asks_next; [apply IH|..]; intros [rest r] E; cbv beta iota.
  - apply asks_said. reflexivity.
  - eexists. split; [reflexivity|exact E].
Qed.
Lemma asks_read_bytes h n : asks is_ok [] (read_bytes_t h n).
Proof.
  change (@nil request) with (@nil request ++ []). eapply asks_next; [apply asks_read_loop|..]; intros [bs [u|e|]] E; try discriminate.
  - apply asks_said. reflexivity.
  - eexists. split; reflexivity.
  - eexists. split; reflexivity.
Qed.
Lemma asks_u32 h : asks is_ok [] (read_u32_t h).
Proof. apply (asks_try [] []); [apply asks_read_bytes|]. intros a. apply asks_fine. Qed.
Lemma asks_check h : asks is_ok [] (check_end_t h).
Proof. apply (asks_try [] []); [apply asks_u32|]. intros z. destruct (z =? 0); [apply asks_fine|apply asks_fails]. Qed.
Lemma asks_shut h : asks is_ok [] (Shuts h Said).
Proof. apply asks_shuts. intros o. apply asks_said. reflexivity. Qed.
(** The two ways of writing. *)
Lemma asks_write_whole q bytes : speakable (on_port q) q -> bytes = spelled q ->
  asks is_ok [q] (write_whole_t (on_port q) bytes).
Proof.
  intros _ ->. unfold asks, in_bytes. cbn [flat_map]. unfold write_whole_t, raw_write_t, try. cbn [next]. apply pours_writes.
  - intros n L. destruct (Nat.eqb_spec n (length (spelled q))) as [->|N]; apply pours_said; [|discriminate].
    intros _. rewrite skipn_all. reflexivity.
  - intros e. eexists. split; reflexivity.
Qed.
Lemma pours_loop h : forall fuel buf, (length buf <= fuel)%nat -> pours is_ok (map (pair h) buf ++ []) (write_loop_t fuel h buf).
Proof.
  induction fuel as [|fuel IH]; intros [|b buf] L; cbn [write_loop_t]; try (apply pours_said; (reflexivity || discriminate)).
  apply pours_writes.
  - intros [|n] Ln; [apply pours_said; discriminate|].
    destruct (Nat.ltb_spec (length (b :: buf)) (S n)); [lia|]. apply IH. rewrite skipn_length. cbn [length] in *. lia.
  - intros e. eexists. split; reflexivity.
Qed.
Lemma asks_write_all q bytes : speakable (on_port q) q -> bytes = spelled q ->
  asks is_ok [q] (write_all_t (on_port q) bytes).
Proof. intros _ ->. apply pours_loop. lia. Qed.
Definition sent_ok {X} (x : list byte * outcome io_error X) : bool := is_ok (snd x).
Lemma asks_transact loc command response : 0 <= loc < 256 -> Z.of_nat (length command) < 2 ^ 32 ->
  asks sent_ok [AskCommand loc command] (transact_t loc command response).
Proof.
  intros Hl Hc. unfold transact_t.
  replace (2 ^ 32 <=? Z.of_nat (length command)) with false by (symmetry; apply Z.leb_gt; exact Hc).
  change [AskCommand loc command] with (([AskCommand loc command] ++ []) ++ []).
  eapply asks_next; [apply asks_try|..].
  - apply (asks_write_whole (AskCommand loc command)); [cbn [on_port speakable]; auto|reflexivity].
  - intros _. apply asks_u32.
  - intros [len|e|] E; try discriminate. destruct (_ <? _); [apply asks_said; reflexivity|]. cbv zeta.
    change (@nil request) with (@nil request ++ []). eapply asks_next; [apply asks_read_loop|..]; intros [bs [u|e|]] Er; try discriminate.
    + change (@nil request) with (@nil request ++ []). eapply asks_next; [apply asks_check|..]; intros [[]|e|] Ec; try discriminate.
      * apply asks_said. reflexivity.
      * eexists. split; reflexivity.
      * eexists. split; reflexivity.
    + eexists. split; reflexivity.
    + eexists. split; reflexivity.
  - intros [len|e|] E; try discriminate; eexists; split; reflexivity.
Qed.
Lemma asks_ack q (m : failing unit) : asks is_ok [q] m -> forall h, asks is_ok [q] (try m (fun _ => check_end_t h)).
Proof. intros M h. apply (asks_try [q] []); [exact M|]. intros _. apply asks_check. Qed.
Lemma asks_acks {A} q qs (m : failing unit) (rest : failing A) h : asks is_ok [q] m -> asks is_ok qs rest ->
  asks is_ok (q :: qs) (try m (fun _ => try (check_end_t h) (fun _ => rest))).
Proof.
  intros M R. apply (asks_try [q] qs); [exact M|]. intros _. apply (asks_try [] qs); [apply asks_check|]. intros _. exact R.
Qed.
Lemma asks_signal g : asks is_ok [AskSignal g] (signal_t g).
Proof. apply asks_ack, (asks_write_all (AskSignal g)); [reflexivity|destruct g; reflexivity]. Qed.
Lemma asks_operation loc o : 0 <= loc < 256 -> operation_ok o -> asks is_ok (requests_of loc (Call o)) (operation_t loc o).
Proof.
  intros Hl Ho. destruct o as [command response|data|v|z|g| | | |z|z|z|l'| |]; cbn [operation_t requests_of]; cbn [operation_ok] in Ho.
  - change [AskCommand loc command] with ([AskCommand loc command] ++ []).
    eapply asks_next; [apply asks_transact; assumption|..]; intros [rsp [n|e|]] E; try discriminate.
    + apply asks_said. reflexivity.
    + eexists. split; reflexivity.
    + eexists. split; reflexivity.
  - apply asks_shown. unfold hcrtm_t.
    apply asks_acks; [apply (asks_write_all AskHashStart); reflexivity|].
    apply asks_acks; [|apply asks_ack, (asks_write_all AskHashEnd); reflexivity].
    apply (asks_write_whole (AskHashData data)); [split; [reflexivity|exact Ho]|]. rewrite Z.mod_small by lia. reflexivity.
  - apply asks_shown. unfold handshake_t. apply (asks_try [AskHandshake v] []).
    { apply (asks_write_whole (AskHandshake v)); [split; [reflexivity|exact Ho]|reflexivity]. }
    intros _. apply (asks_try [] []); [apply asks_read_bytes|]. intros r. apply (asks_try [] []); [apply asks_check|]. intros _. apply asks_fine.
  - apply asks_shown, asks_ack, (asks_write_whole (AskAlternative z)); [split; [reflexivity|exact Ho]|reflexivity].
  - apply asks_shown, asks_signal.
  - apply asks_shown. unfold reinit_t.
    do 3 (refine (asks_try [_] _ _ _ (asks_signal _) _); intros _). apply asks_signal.
  - apply asks_shown, asks_ack, (asks_write_all AskFailureMode); reflexivity.
  - apply asks_shown. unfold sizes_t. apply (asks_try [AskSizes] []); [apply (asks_write_all AskSizes); reflexivity|].
    intros _. apply (asks_try [] []); [apply asks_u32|]. intros n. destruct (negb _); [apply asks_fails|].
    apply (asks_try [] []); [apply asks_read_bytes|]. intros r. apply (asks_try [] []); [apply asks_check|]. intros _. apply asks_fine.
  - apply asks_shown. unfold act_t. apply (asks_try [AskAct z] []).
    { apply (asks_write_whole (AskAct z)); [split; [reflexivity|exact Ho]|reflexivity]. }
    intros _. apply (asks_try [] []); [apply asks_u32|]. intros r. apply (asks_try [] []); [apply asks_check|]. intros _. apply asks_fine.
  - apply asks_shown, asks_ack, (asks_write_whole (AskFirmwareHash z)); [split; [reflexivity|exact Ho]|reflexivity].
  - apply asks_shown, asks_ack, (asks_write_whole (AskFirmwareSvn z)); [split; [reflexivity|exact Ho]|reflexivity].
  - apply asks_fine.
  - apply asks_shown. unfold end_both_t. apply (asks_try [AskEnd true] [AskEnd false]); [apply (asks_write_all (AskEnd true)); reflexivity|].
    intros _. apply (asks_try [] [AskEnd false]); [apply asks_shut|]. intros _.
    apply (asks_try [AskEnd false] []); [apply (asks_write_all (AskEnd false)); reflexivity|]. intros _. apply asks_shut.
  - apply asks_shown. unfold end_both_t. apply (asks_try [AskStop true] [AskStop false]); [apply (asks_write_all (AskStop true)); reflexivity|].
    intros _. apply (asks_try [] [AskStop false]); [apply asks_shut|]. intros _.
    apply (asks_try [AskStop false] []); [apply (asks_write_all (AskStop false)); reflexivity|]. intros _. apply asks_shut.
Qed.
Lemma asks_command loc c cmd handles a : 0 <= loc < 256 -> valid_call c cmd handles a ->
  asks is_ok (requests_of loc (RunCommand c cmd handles a)) (command_t loc c cmd handles a).
Proof.
  intros Hl V. unfold command_t, requests_of.
  destruct (Z.leb_spec (Z.of_nat (length (command_frame c cmd handles a))) 4096) as [L|L].
  - rewrite (build_frame c cmd handles a V L).
    change [AskCommand loc ?x] with ([AskCommand loc x] ++ []).
    eapply asks_next; [apply asks_transact; [exact Hl|lia]|..]; intros [rsp [n|e|]] E; try discriminate.
    + apply asks_said. reflexivity.
    + eexists. split; reflexivity.
    + eexists. split; reflexivity.
  - destruct (build_too_long c cmd handles a V) as [E|E]; [unfold fits; lia| |]; rewrite E; apply asks_nothing; reflexivity.
Qed.


(** ** What stands in the bytes *)
Lemma front_grows h b x q rest : front h b = None -> front h (b ++ [x]) = Some (q, rest) -> rest = [].
Proof.
  intros N F. apply c81_understood in F as [Sp E].
  destruct rest as [|r rest] using rev_ind; [reflexivity|]. exfalso.
  rewrite app_assoc in E. apply app_inj_tail in E as [E _].
  assert (F : front h b = Some (q, rest)) by (apply c81_understood; auto). congruence.
Qed.
Lemma front_nothing h : front h [] = None.
Proof. destruct h; reflexivity. Qed.
Fixpoint left_over (kept : list byte * list byte) (l : list (bool * byte)) : list byte * list byte :=
  match l with
  | [] => kept
  | (h, x) :: l' =>
      match front h (port h kept ++ [x]) with
      | Some _ => left_over (set_port h [] kept) l'
      | None => left_over (set_port h (port h kept ++ [x]) kept) l'
      end
  end.
Lemma standing_app l1 : forall kept l2, standing kept (l1 ++ l2) = standing kept l1 ++ standing (left_over kept l1) l2.
Proof.
  induction l1 as [|[h x] l1 IH]; intros kept l2; cbn [app standing left_over]; [reflexivity|].
  destruct (front h _) as [[q rest]|]; [cbn [app]; f_equal|]; apply IH.
Qed.
Lemma left_over_app l1 : forall kept l2, left_over kept (l1 ++ l2) = left_over (left_over kept l1) l2.
Proof.
  induction l1 as [|[h x] l1 IH]; intros kept l2; cbn [app left_over]; [reflexivity|].
  destruct (front h _) as [[q rest]|]; apply IH.
Qed.
Definition partial_only (kept : list byte * list byte) : Prop := forall h, front h (port h kept) = None.
Lemma port_same h b p : port h (set_port h b p) = b.
Proof. destruct h; reflexivity. Qed.
Lemma port_other h b p : port (negb h) (set_port h b p) = port (negb h) p.
Proof. destruct h; reflexivity. Qed.
Lemma set_twice h a b p : set_port h a (set_port h b p) = set_port h a p.
Proof. destruct h, p; reflexivity. Qed.
Lemma set_same h p : set_port h (port h p) p = p.
Proof. destruct h, p; reflexivity. Qed.
Lemma both_ports (P : bool -> Prop) h : P h -> P (negb h) -> forall h', P h'.
Proof. destruct h; intros A B []; assumption. Qed.
Lemma set_partial h b kept : partial_only kept -> front h b = None -> partial_only (set_port h b kept).
Proof.
  intros P N. unfold partial_only. apply (both_ports _ h); [now rewrite port_same|rewrite port_other; apply P].
Qed.
Lemma left_over_partial l : forall kept, partial_only kept -> partial_only (left_over kept l).
Proof.
  induction l as [|[h x] l IH]; intros kept P; cbn [left_over]; [exact P|].
  destruct (front h _) as [[q rest]|] eqn:F; apply IH, set_partial; auto using front_nothing.
Qed.
(** A run of bytes on one port. *)
Lemma standing_run h bytes : forall kept qs rest, partial_only kept ->
  port h kept ++ bytes = flat_map spelled qs ++ rest -> Forall (speakable h) qs -> front h rest = None ->
  standing kept (map (pair h) bytes) = qs /\ left_over kept (map (pair h) bytes) = set_port h rest kept.
Proof.
  induction bytes as [|x bytes IH]; intros kept qs rest P E Sp N; cbn [map standing left_over].
  - rewrite app_nil_r in E. destruct qs as [|q qs].
    + cbn [flat_map app] in E. subst rest. rewrite set_same. auto.
    + exfalso. inversion Sp; subst. cbn [flat_map] in E. rewrite <- app_assoc in E.
      assert (F : front h (port h kept) = Some (q, flat_map spelled qs ++ rest)) by (apply c81_understood; auto).
      rewrite P in F. discriminate.
  - change (x :: bytes) with ([x] ++ bytes) in E. rewrite app_assoc in E.
    destruct (front h (port h kept ++ [x])) as [[q r]|] eqn:F.
    + pose proof (front_grows _ _ _ _ _ (P h) F) as ->.
      apply c81_understood in F as [Sq Eq]. rewrite app_nil_r in Eq. rewrite Eq in E.
      assert (F : front h (spelled q ++ bytes) = Some (q, bytes)) by (apply c81_understood; auto).
      destruct qs as [|q' qs].
      { cbn [flat_map app] in E. rewrite E in F. congruence. }
      inversion Sp as [|? ? Sq' Sp']; subst. cbn [flat_map] in E. rewrite <- app_assoc in E.
      assert (F' : front h (spelled q ++ bytes) = Some (q', flat_map spelled qs ++ rest)) by (apply c81_understood; auto).
      rewrite F in F'. injection F' as <- Eb.
      destruct (IH (set_port h [] kept) qs rest) as [-> ->]; auto.
      * apply set_partial; auto using front_nothing.
      * now rewrite port_same.
      * rewrite set_twice. auto.
    + destruct (IH (set_port h (port h kept ++ [x]) kept) qs rest) as [-> ->]; auto.
      * apply set_partial; auto.
      * now rewrite port_same.
      * rewrite set_twice. auto.
Qed.
Lemma does_app {S} (f : machine S) s a b : does f s (a ++ b) = does f (does f s a) b.
Proof. apply fold_left_app. Qed.
(** What the simulator makes of a run of bytes. *)
Lemma work_reads {S} (f : machine S) h fuel : forall b, (length (port h (got b)) <= fuel)%nat ->
  exists qs rest, port h (got b) = flat_map spelled qs ++ rest /\ Forall (speakable h) qs /\ front h rest = None
    /\ unit_ (work f fuel h b) = does f (unit_ b) qs /\ got (work f fuel h b) = set_port h rest (got b).
Proof.
  induction fuel as [|fuel IH]; intros b L.
  - exists [], []. destruct (port h (got b)) eqn:E; [|cbn in L; lia].
    split; [reflexivity|]. split; [constructor|]. split; [apply front_nothing|]. split; [reflexivity|].
    cbn [work]. rewrite <- E. symmetry. apply set_same.
  - cbn [work]. destruct (front h (port h (got b))) as [[q rest]|] eqn:F.
    + pose proof F as F0. apply c81_understood in F as [Sp E]. destruct (f (unit_ b) q) as [s' r] eqn:Ef.
      destruct (IH {| unit_ := s'; got := set_port h rest (got b); due := set_port h (port h (due b) ++ framed q r) (due b) |})
        as (qs & rest' & E1 & E2 & E3 & E4 & E5).
      { cbn [got]. rewrite port_same. pose proof (asked_something q). rewrite E, app_length in L.
        destruct (spelled q); [contradiction|cbn [length] in L; lia]. }
      cbn [got unit_] in *. rewrite port_same in E1. rewrite set_twice in E5.
      exists (q :: qs), rest'. split; [cbn [flat_map]; now rewrite E, E1, <- app_assoc|].
      split; [now constructor|]. split; [exact E3|]. split; [|exact E5].
      rewrite E4. cbn [does fold_left]. now rewrite Ef.
    + exists [], (port h (got b)). split; [reflexivity|]. split; [constructor|]. split; [exact F|].
      split; [reflexivity|]. symmetry. apply set_same.
Qed.
Lemma arrives_reads {S} (f : machine S) h bytes b : partial_only (got b) ->
  unit_ (arrives f h bytes b) = does f (unit_ b) (standing (got b) (map (pair h) bytes))
  /\ got (arrives f h bytes b) = left_over (got b) (map (pair h) bytes).
Proof.
  intros P. unfold arrives.
  destruct (work_reads f h (length (port h (got b) ++ bytes))
    {| unit_ := unit_ b; got := set_port h (port h (got b) ++ bytes) (got b); due := due b |})
    as (qs & rest & E1 & E2 & E3 & E4 & E5).
  { cbn [got]. now rewrite port_same. }
  cbn [got unit_] in *. rewrite port_same in E1. rewrite set_twice in E5.
  destruct (standing_run h bytes (got b) qs rest P E1 E2 E3) as [-> ->]. auto.
Qed.

(** ** Over the network *)
Section Over.
Context {R S : Type} (adv : mercy R S) (f : machine S).
Local Notation sys := (trickling adv f).
Definition heeded (s : S) (w : trickle R S) : Prop :=
  unit_ (beyond w) = does f s (standing ([], []) (passed w)) /\ got (beyond w) = left_over ([], []) (passed w).
Lemma nothing_kept : partial_only ([], []).
Proof. intros []; reflexivity. Qed.
Lemma run_pours {A} ok (p : talk A) ls : pours ok ls p -> forall l s w, heeded s w ->
  exists w' a n, run_talk sys (port_ends l) p w = (w', a) /\ passed w' = passed w ++ firstn n ls
    /\ (ok a = true -> firstn n ls = ls) /\ heeded s w'.
Proof.
  induction 1 as [ls a E|ls h n k _ IH|ls h k _ IH|h bytes ls k _ IH St]; intros l s w K; cbn [run_talk].
  - exists w, a, 0%nat. cbn [firstn]. rewrite app_nil_r. split; [reflexivity|]. split; [reflexivity|]. split; [|exact K].
    intros Ea. now rewrite E.
  - cbn [read trickling]. destruct (gives adv _ _ _ _) as [r o].
    apply (IH o l s {| humour := r; passed := passed w; beyond := beyond w |}). exact K.
  - cbn [shutdown trickling]. destruct (closes adv _ _) as [r o].
    apply (IH o l s {| humour := r; passed := passed w; beyond := beyond w |}). exact K.
  - replace (stream (port_ends l) h) with h by (destruct h; reflexivity).
    cbn [write trickling]. destruct (takes_some adv _ _ _ _) as [[r k0] e].
    set (n := Nat.min k0 (length bytes)). assert (Ln : (n <= length bytes)%nat) by (unfold n; lia). clearbody n.
    set (w1 := {| humour := r; passed := _; beyond := _ |}).
    assert (K1 : heeded s w1).
    { destruct K as [K1 K2]. destruct (arrives_reads f h (firstn n bytes) (beyond w)) as [A1 A2].
      { rewrite K2. apply left_over_partial, nothing_kept. }
      unfold w1, heeded. cbn [beyond passed]. rewrite A1, A2, standing_app, left_over_app, does_app, <- K1, <- K2. auto. }
    assert (Sp : forall m, firstn n (map (pair h) bytes) ++ firstn m (map (pair h) (skipn n bytes) ++ ls)
                 = firstn (n + m) (map (pair h) bytes ++ ls)).
    { intros m.
      assert (G : forall a b : list (bool * byte), length a = n -> firstn (n + m) (a ++ b) = a ++ firstn m b)
        by (intros a b <-; apply firstn_app_2).
      transitivity (firstn (n + m) (firstn n (map (pair h) bytes) ++ (map (pair h) (skipn n bytes) ++ ls))).
      - symmetry. apply G. rewrite firstn_length, map_length. lia.
      - rewrite app_assoc, firstn_map, <- map_app, firstn_skipn. reflexivity. }
    destruct e as [e|].
    + destruct (St e) as (a & -> & Ea). cbn [run_talk]. exists w1, a, n. split; [reflexivity|].
      split; [|split; [congruence|exact K1]]. unfold w1. cbn [passed].
      specialize (Sp 0%nat). rewrite Nat.add_0_r in Sp. cbn [firstn] in Sp. rewrite app_nil_r in Sp. now rewrite <- firstn_map, Sp.
    + destruct (IH n Ln l s w1 K1) as (w' & a & m & Er & Ep & Ok' & K').
      exists w', a, (n + m)%nat. split; [exact Er|]. rewrite <- Sp. split; [|split; [|exact K']].
      * rewrite Ep. unfold w1. cbn [passed]. now rewrite <- app_assoc, firstn_map.
      * intros Ea. rewrite (Ok' Ea), app_assoc. f_equal. rewrite firstn_map, <- map_app. now rewrite firstn_skipn.
Qed.
Lemma calls_pour : forall calls l s w, 0 <= l < 256 -> Forall proper_call calls -> heeded s w ->
  exists w' rs parts, calls_over sys (port_ends l) w calls = (w', rs) /\ poured l calls parts rs
    /\ passed w' = passed w ++ concat parts /\ heeded s w'.
Proof.
  induction calls as [|x calls IH]; intros l s w Hl Hc K.
  { exists w, [], []. split; [reflexivity|]. split; [constructor|]. split; [cbn; now rewrite app_nil_r|exact K]. }
  inversion Hc as [|? ? Hx Hc']; subst.
  assert (Hl' : 0 <= locality_past l x < 256) by (destruct x as [[]|]; cbn in *; lia).
  assert (H : exists w1 r n,
    calls_over sys (port_ends l) w (x :: calls)
      = (let '(w2, rs) := calls_over sys (port_ends (locality_past l x)) w1 calls in (w2, r :: rs))
    /\ passed w1 = passed w ++ firstn n (in_bytes (requests_of l x))
    /\ (succeeded r -> firstn n (in_bytes (requests_of l x)) = in_bytes (requests_of l x)) /\ heeded s w1).
  { destruct (c102_program _ _ _ sys (port_ends l)) as [P1 P2]. change (locality (port_ends l)) with l in *.
    destruct x as [o|c cmd handles a]; cbn [calls_over locality_past proper_call] in *.
    - destruct (run_pours is_ok _ _ (asks_operation l o Hl Hx) l s w K) as (w1 & a & n & Er & Ep & Ok' & K1).
      specialize (P1 o w). rewrite Er in P1. rewrite P1.
      exists w1, (Called a), n. split.
      { replace (match o with Locality l0 => set_locality (port_ends l) l0 | _ => port_ends l end)
          with (port_ends (locality_after l o)) by (destruct o; reflexivity). reflexivity. }
      split; [exact Ep|]. split; [|exact K1]. intros Su. apply Ok'. destruct a; try contradiction; reflexivity.
    - destruct (run_pours is_ok _ _ (asks_command l c cmd handles a Hl Hx) l s w K) as (w1 & r & n & Er & Ep & Ok' & K1).
      specialize (P2 c cmd handles a w). rewrite Er in P2. rewrite <- P2.
      exists w1, (Ran r), n. split; [reflexivity|].
      split; [exact Ep|]. split; [|exact K1]. intros Su. apply Ok'. destruct r; try contradiction; reflexivity. }
  destruct H as (w1 & r & n & Er & Ep & Su & K1).
  destruct (IH (locality_past l x) s w1 Hl' Hc' K1) as (w2 & rs & parts & E2 & B & Ep2 & K2).
  rewrite Er, E2. exists w2, (r :: rs), (firstn n (in_bytes (requests_of l x)) :: parts).
  split; [reflexivity|]. split; [econstructor; eauto|]. split; [|exact K2]. cbn [concat]. now rewrite Ep2, Ep, <- app_assoc.
Qed.
End Over.

(** ** C113 *)

(** Any calls, over a network that takes of every write what it likes: of each
    call the first so many bytes passed, all of them if it succeeded, and the
    machine has done what stands in these bytes. *)
Theorem c113_stream R S (adv : mercy R S) (f : machine S) r0 l s calls :
  0 <= l < 256 -> Forall proper_call calls ->
  exists w rs parts,
    calls_over (trickling adv f) (port_ends l) {| humour := r0; passed := []; beyond := quiet s |} calls = (w, rs)
    /\ poured l calls parts rs
    /\ passed w = concat parts
    /\ unit_ (beyond w) = does f s (standing ([], []) (concat parts)).
Proof.
  intros Hl Hc.
  destruct (calls_pour adv f calls l s {| humour := r0; passed := []; beyond := quiet s |} Hl Hc) as (w & rs & parts & E & B & P & K1 & _).
  { split; reflexivity. }
  cbn [passed app] in P. rewrite P in K1. exists w, rs, parts. auto.
Qed.

(** What stands in bytes, port by port: the requests' bytes, one after the
    other, and then no whole request. *)
Lemma other_port (h' h : bool) : h' <> h -> h = negb h'.
Proof. destruct h, h'; congruence || reflexivity. Qed.
Lemma standing_sent h : forall l kept, partial_only kept ->
  Forall (fun q => speakable (on_port q) q) (standing kept l)
  /\ port h kept ++ bytes_at h l = sent_on h (standing kept l) ++ port h (left_over kept l).
Proof.
  induction l as [|[h' x] l IH]; intros kept P; cbn [standing left_over].
  { split; [constructor|]. apply app_nil_r. }
  assert (B : bytes_at h ((h', x) :: l) = (if Bool.eqb h' h then [x] else []) ++ bytes_at h l).
  { unfold bytes_at. cbn [filter fst]. destruct (Bool.eqb h' h); reflexivity. }
  rewrite B. destruct (front h' (port h' kept ++ [x])) as [[q rest]|] eqn:F.
  - pose proof (front_grows _ _ _ _ _ (P h') F) as ->. apply c81_understood in F as [Sp E]. rewrite app_nil_r in E.
    assert (Eh : on_port q = h') by (destruct q; cbn in Sp |- *; intuition congruence).
    destruct (IH (set_port h' [] kept)) as [I1 I2]; [apply set_partial; auto using front_nothing|].
    split; [constructor; [now rewrite Eh|exact I1]|]. unfold sent_on in *. cbn [filter]. rewrite Eh.
    destruct (Bool.eqb_spec h' h) as [->|N].
    + cbn [flat_map]. rewrite <- app_assoc, <- I2, port_same, <- E, <- app_assoc. reflexivity.
    + rewrite <- I2. rewrite (other_port _ _ N). now rewrite port_other.
  - destruct (IH (set_port h' (port h' kept ++ [x]) kept)) as [I1 I2]; [apply set_partial; auto|].
    split; [exact I1|]. rewrite <- I2. destruct (Bool.eqb_spec h' h) as [->|N].
    + rewrite port_same, <- app_assoc. reflexivity.
    + rewrite (other_port _ _ N). now rewrite port_other.
Qed.
Theorem c113_standing h l :
  Forall (fun q => speakable (on_port q) q) (standing ([], []) l)
  /\ exists rest, bytes_at h l = sent_on h (standing ([], []) l) ++ rest
       /\ forall q more, speakable h q -> rest <> spelled q ++ more.
Proof.
  destruct (standing_sent h l ([], []) nothing_kept) as [H1 H2]. split; [exact H1|].
  exists (port h (left_over ([], []) l)). split.
  - rewrite <- H2. destruct h; reflexivity.
  - intros q more Sp E. assert (F : front h (port h (left_over ([], []) l)) = Some (q, more)) by (apply c81_understood; auto).
    rewrite (left_over_partial l ([], []) nothing_kept h) in F. discriminate.
Qed.

(** Requests that passed whole stand there, whatever comes behind them. *)
Lemma standing_request q kept : partial_only kept -> port (on_port q) kept = [] -> speakable (on_port q) q ->
  standing kept (map (pair (on_port q)) (spelled q)) = [q]
  /\ left_over kept (map (pair (on_port q)) (spelled q)) = kept.
Proof.
  intros P E Sp. destruct (standing_run (on_port q) (spelled q) kept [q] [] P) as [-> ->].
  - rewrite E. cbn. now rewrite !app_nil_r.
  - auto.
  - apply front_nothing.
  - rewrite <- E, set_same. auto.
Qed.
Theorem c113_whole qs : forall more, Forall (fun q => speakable (on_port q) q) qs ->
  standing ([], []) (in_bytes qs ++ more) = qs ++ standing ([], []) more.
Proof.
  induction qs as [|q qs IH]; intros more H; [reflexivity|]. inversion H; subst.
  cbn [in_bytes flat_map]. rewrite <- app_assoc, standing_app.
  destruct (standing_request q ([], []) nothing_kept) as [-> ->]; [destruct (on_port q); reflexivity|assumption|].
  cbn [app]. f_equal. now apply IH.
Qed.
Lemma requests_speakable l x : 0 <= l < 256 -> proper_call x -> Forall (fun q => speakable (on_port q) q) (requests_of l x).
Proof.
  intros Hl Hx. destruct x as [o|c cmd handles a].
  { destruct o; cbn [requests_of proper_call operation_ok] in *; repeat constructor; cbn; auto; try lia. }
  cbn [requests_of]. destruct (Z.leb_spec (Z.of_nat (length (command_frame c cmd handles a))) 4096); [|constructor].
  constructor; [cbn [speakable on_port]; split; [reflexivity|lia]|constructor].
Qed.

(** So as long as calls succeed the machine does exactly what they ask, and
    until the first failure it has done that. *)
Theorem c113_successful R S (adv : mercy R S) (f : machine S) r0 l s before after :
  0 <= l < 256 -> Forall proper_call (before ++ after) ->
  let '(w, rs) := calls_over (trickling adv f) (port_ends l) {| humour := r0; passed := []; beyond := quiet s |} (before ++ after) in
  Forall succeeded (firstn (length before) rs) ->
  exists more, unit_ (beyond w) = does f s (all_requests l before ++ more) /\ (after = [] -> more = []).
Proof.
  intros Hl Hc. destruct (c113_stream R S adv f r0 l s (before ++ after) Hl Hc) as (w & rs & parts & E & B & _ & U).
  rewrite E. intros Su. rewrite U. clear E U w.
  assert (H : exists more, concat parts = in_bytes (all_requests l before) ++ more /\ (after = [] -> more = [])
              /\ Forall (fun q => speakable (on_port q) q) (all_requests l before)).
  { revert l rs parts Hl Hc B Su. induction before as [|x before IH]; intros l rs parts Hl Hc B Su; cbn [app length all_requests] in *.
    - exists (concat parts). split; [reflexivity|]. split; [|constructor]. intros ->. inversion B; subst. reflexivity.
    - inversion B as [|? ? ? n part parts' r rs' E1 E2 B']; subst. cbn [firstn] in Su. inversion Su as [|? ? S1 S2]; subst.
      inversion Hc as [|? ? Hx Hc']; subst.
      assert (Hl' : 0 <= locality_past l x < 256) by (destruct x as [[]|]; cbn in *; lia).
      destruct (IH _ _ _ Hl' Hc' B' S2) as (more & E & Em & Sp). exists more. split; [|split].
      + cbn [concat]. now rewrite (E2 S1), E, in_bytes_app, app_assoc.
      + exact Em.
      + apply Forall_app. split; [now apply requests_speakable|exact Sp]. }
  destruct H as (more & -> & Em & Sp). rewrite c113_whole by exact Sp.
  exists (standing ([], []) more). split; [reflexivity|]. intros X. now rewrite (Em X).
Qed.

(** If the network stops in the first three bytes of a request, its port is
    deaf: nothing that calls send on it later is done any more. *)
Definition headed (b : list byte) : Prop := forall i, (i < 3)%nat -> nth i b x00 = x00.
Lemma spelled_head q : speakable (on_port q) q -> exists c rest, spelled q = x00 :: x00 :: x00 :: c :: rest.
Proof.
  intros _. destruct q as [| | | | | |[]| | | | | | |]; do 2 eexists; cbn [spelled signal_number]; unfold be_bytes; cbn; reflexivity.
Qed.
Lemma bytes_at_app h a b : bytes_at h (a ++ b) = bytes_at h a ++ bytes_at h b.
Proof. unfold bytes_at. now rewrite filter_app, map_app. Qed.
Lemma bytes_at_run h h' bytes : bytes_at h (map (pair h') bytes) = if Bool.eqb h' h then bytes else [].
Proof.
  unfold bytes_at. induction bytes as [|b bytes IH]; cbn [map filter fst]; [destruct (Bool.eqb h' h); reflexivity|].
  destruct (Bool.eqb h' h); cbn [map snd]; [now rewrite IH|exact IH].
Qed.
Lemma headed_part h qs : forall n, Forall (fun q => speakable (on_port q) q) qs -> headed (bytes_at h (firstn n (in_bytes qs))).
Proof.
  induction qs as [|q qs IH]; intros n H; [cbn; rewrite firstn_nil; intros [|[|[|i]]] L; reflexivity|].
  inversion H as [|? ? Sp H']; subst. cbn [in_bytes flat_map]. rewrite firstn_app, bytes_at_app.
  rewrite firstn_map, bytes_at_run. destruct (Bool.eqb_spec (on_port q) h) as [E|N]; [|now apply IH].
  destruct (spelled_head q Sp) as (c & rest & Es). destruct (Nat.le_gt_cases (length (spelled q)) n) as [L|L].
  - rewrite firstn_all2 by exact L. rewrite Es. intros [|[|[|i]]] Li; try reflexivity. lia.
  - rewrite map_length. replace (n - length (spelled q))%nat with 0%nat by lia. cbn [firstn]. unfold bytes_at at 1. cbn [filter map].
    rewrite app_nil_r, Es. intros i Li. destruct n as [|[|[|n]]], i as [|[|[|i]]]; try reflexivity; lia.
Qed.
Definition dull (b : list byte) : Prop := forall i, (i < 4)%nat -> nth i b x00 = x00.
Lemma dull_more z b rest : (1 <= length z)%nat -> dull z -> headed b -> dull ((z ++ b) ++ rest) \/ (length (z ++ b) < 4)%nat /\ dull (z ++ b).
Proof.
  intros L D H. assert (D' : dull (z ++ b)).
  { intros i Li. destruct (Nat.lt_ge_cases i (length z)) as [X|X]; [rewrite app_nth1 by exact X; now apply D|].
    rewrite app_nth2 by exact X. apply H. lia. }
  destruct (Nat.lt_ge_cases (length (z ++ b)) 4) as [X|X]; [auto|].
  left. intros i Li. rewrite app_nth1 by lia. now apply D'.
Qed.
Lemma dull_silent h b : dull b -> front h b = None.
Proof.
  intros D. destruct (front h b) as [[q rest]|] eqn:F; [|reflexivity].
  apply c81_understood in F as [Sp E].
  assert (X : nth 3 (spelled q) x00 <> x00).
  { destruct q as [| | | | | |[]| | | | | | |]; cbn [spelled signal_number]; unfold be_bytes; cbn; discriminate. }
  exfalso. apply X. transitivity (nth 3 b x00); [|apply D; lia]. rewrite E. symmetry. apply app_nth1.
  assert (exists c r, spelled q = x00 :: x00 :: x00 :: c :: r) as (c & r & ->); [|cbn; lia].
  apply spelled_head. destruct q; cbn in Sp |- *; intuition congruence.
Qed.
Lemma standing_deaf h : forall l kept, partial_only kept ->
  (forall a b, l = a ++ b -> front h (port h kept ++ bytes_at h a) = None) ->
  Forall (fun q => on_port q <> h) (standing kept l).
Proof.
  induction l as [|[h' x] l IH]; intros kept P D; cbn [standing]; [constructor|].
  assert (B : forall a, bytes_at h ((h', x) :: a) = (if Bool.eqb h' h then [x] else []) ++ bytes_at h a).
  { intros a. unfold bytes_at. cbn [filter fst]. destruct (Bool.eqb h' h); reflexivity. }
  destruct (front h' (port h' kept ++ [x])) as [[q rest]|] eqn:F.
  - destruct (Bool.eqb_spec h' h) as [->|N].
    { specialize (D [(h, x)] l eq_refl). rewrite B in D. cbn in D. congruence. }
    apply c81_understood in F as [Sp E].
    assert (Eh : on_port q = h') by (destruct q; cbn in Sp |- *; intuition congruence).
    constructor; [congruence|]. apply IH; [apply set_partial; auto using front_nothing|].
    intros a b ->. specialize (D ((h', x) :: a) b eq_refl). rewrite B in D.
    assert (Ek : port h (set_port h' [] kept) = port h kept) by (destruct h, h'; congruence || reflexivity). rewrite Ek. exact D.
  - apply IH; [apply set_partial; auto|]. intros a b ->. specialize (D ((h', x) :: a) b eq_refl). rewrite B in D.
    destruct (Bool.eqb_spec h' h) as [->|N].
    + rewrite port_same, <- app_assoc. exact D.
    + assert (Ek : port h (set_port h' (port h' kept ++ [x]) kept) = port h kept) by (destruct h, h'; congruence || reflexivity). rewrite Ek. exact D.
Qed.
Lemma begins_dull h : forall calls loc parts rs z, 0 <= loc < 256 -> Forall proper_call calls -> poured loc calls parts rs ->
  (1 <= length z)%nat -> dull z -> forall a b, concat parts = a ++ b -> dull (z ++ bytes_at h a).
Proof.
  induction calls as [|x calls IH]; intros loc parts rs z Hl Hc B Lz D a b E; inversion B as [|? ? ? n part parts' r rs' E1 E2 B']; subst.
  - cbn in E. symmetry in E. apply app_eq_nil in E as [-> ->]. cbn. now rewrite app_nil_r.
  - inversion Hc as [|? ? Hx Hc']; subst.
    assert (Hl' : 0 <= locality_past loc x < 256) by (destruct x as [[]|]; cbn in *; lia).
    cbn [concat] in E. set (part := firstn n (in_bytes (requests_of loc x))) in *.
    assert (Hd : forall m, headed (bytes_at h (firstn m part))).
    { intros m. unfold part. rewrite firstn_firstn. apply headed_part. now apply requests_speakable. }
    destruct (Nat.le_gt_cases (length a) (length part)) as [L|L].
    + assert (Ea : a = firstn (length a) part).
      { apply (f_equal (firstn (length a))) in E. rewrite !firstn_app in E. rewrite Nat.sub_diag, firstn_all in E.
        replace (length a - length part)%nat with 0%nat in E by lia. cbn [firstn] in E. now rewrite !app_nil_r in E. }
      rewrite Ea. destruct (dull_more z (bytes_at h (firstn (length a) part)) [] Lz D (Hd _)) as [X|[_ X]]; [|exact X].
      now rewrite app_nil_r in X.
    + assert (Ea : a = part ++ skipn (length part) a /\ concat parts' = skipn (length part) a ++ b).
      { split.
        - apply (f_equal (firstn (length part))) in E. rewrite !firstn_app, Nat.sub_diag, firstn_all in E.
          replace (length part - length a)%nat with 0%nat in E by lia. cbn [firstn] in E. rewrite !app_nil_r in E.
          rewrite E at 1. symmetry. apply firstn_skipn.
        - apply (f_equal (skipn (length part))) in E. rewrite !skipn_app, Nat.sub_diag, skipn_all in E.
          replace (length part - length a)%nat with 0%nat in E by lia. exact E. }
      destruct Ea as [Ea Eb]. rewrite Ea, bytes_at_app, app_assoc.
      specialize (Hd (length part)). rewrite firstn_all in Hd.
      destruct (dull_more z (bytes_at h part) (bytes_at h (skipn (length part) a)) Lz D Hd) as [X|[_ X]]; [exact X|].
      eapply IH; try eassumption. rewrite app_length. lia.
Qed.
Theorem c113_deaf qs q n loc calls parts rs :
  Forall (fun q => speakable (on_port q) q) (qs ++ [q]) -> (1 <= n <= 3)%nat ->
  0 <= loc < 256 -> Forall proper_call calls -> poured loc calls parts rs ->
  exists more, standing ([], []) (in_bytes qs ++ firstn n (in_bytes [q]) ++ concat parts) = qs ++ more
    /\ Forall (fun q' => on_port q' <> on_port q) more.
Proof.
  intros Sp Ln Hl Hc B. apply Forall_app in Sp as [Sp Sq]. inversion Sq as [|? ? Sq' _]; subst.
  rewrite c113_whole by exact Sp. eexists. split; [reflexivity|].
  destruct (spelled_head q Sq') as (c & rest & Es).
  assert (Ez : firstn n (in_bytes [q]) = map (pair (on_port q)) (repeat x00 n)).
  { cbn [in_bytes flat_map]. rewrite Es, app_nil_r. destruct n as [|[|[|[|n]]]]; try lia; reflexivity. }
  rewrite Ez. set (h := on_port q). set (z := repeat x00 n).
  assert (Dz : forall m, dull (repeat x00 m)).
  { intros m i _. destruct (Nat.lt_ge_cases i m) as [X|X]; [|apply nth_overflow; rewrite repeat_length; exact X].
    revert i X. induction m as [|m IH]; intros [|i] X; try reflexivity. cbn. apply IH. lia. }
  apply standing_deaf; [apply nothing_kept|]. intros a b E. apply dull_silent.
  replace (port h ([], [])) with (@nil byte) by (destruct h; reflexivity). cbn [app].
  assert (Lz : length (map (pair h) z) = n) by (unfold z; rewrite map_length; apply repeat_length).
  destruct (Nat.le_gt_cases (length a) n) as [L|L].
  - assert (Ea : a = map (pair h) (repeat x00 (length a))).
    { apply (f_equal (firstn (length a))) in E. rewrite !firstn_app in E. rewrite Nat.sub_diag, firstn_all in E.
      replace (length a - length (map (pair h) z))%nat with 0%nat in E by lia. cbn [firstn] in E. rewrite !app_nil_r in E.
      rewrite <- E at 1. unfold z. rewrite firstn_map. f_equal. clear - L. revert L. generalize (length a) as m. intros m.
      revert m. induction n as [|n IH]; intros [|m] L; try reflexivity; [lia|]. cbn. f_equal. apply IH. lia. }
    rewrite Ea, bytes_at_run, Bool.eqb_reflx. apply Dz.
  - assert (Ea : a = map (pair h) z ++ skipn n a /\ concat parts = skipn n a ++ b).
    { rewrite <- Lz. split.
      - apply (f_equal (firstn (length (map (pair h) z)))) in E. rewrite !firstn_app, Nat.sub_diag, firstn_all in E.
        replace (length (map (pair h) z) - length a)%nat with 0%nat in E by lia. cbn [firstn] in E. rewrite !app_nil_r in E.
        rewrite E at 1. symmetry. apply firstn_skipn.
      - apply (f_equal (skipn (length (map (pair h) z)))) in E. rewrite !skipn_app, Nat.sub_diag, skipn_all in E.
        replace (length (map (pair h) z) - length a)%nat with 0%nat in E by lia. exact E. }
    destruct Ea as [Ea Eb]. rewrite Ea, bytes_at_app, bytes_at_run, Bool.eqb_reflx.
    apply (begins_dull h calls loc parts rs z Hl Hc B) with (b := b); [unfold z; rewrite repeat_length; lia|apply Dz|exact Eb].
Qed.

(** A measurement of which the network does not take the last four bytes, and
    then another one, perhaps the same again: the code that starts the second
    sequence is measured as the end of the first one's data, and the second
    one's data are measured in the same sequence. *)
Theorem c113_measured loc data again :
  (4 <= length data)%nat -> Z.of_nat (length data) < 2 ^ 32 -> Z.of_nat (length again) < 2 ^ 32 ->
  standing ([], [])
    (firstn (12 + (length data - 4)) (in_bytes (requests_of loc (Call (Hcrtm data))))
     ++ in_bytes (requests_of loc (Call (Hcrtm again))))
  = [AskHashStart; AskHashData (firstn (length data - 4) data ++ [x00; x00; x00; x05]); AskHashData again; AskHashEnd].
Proof.
  intros L H1 H2. set (mixed := firstn (length data - 4) data ++ [x00; x00; x00; x05]).
  assert (Lm : length mixed = length data).
  { unfold mixed. rewrite app_length, firstn_length. cbn [length]. lia. }
  rewrite <- (app_nil_r [AskHashStart; AskHashData mixed; AskHashData again; AskHashEnd]).
  transitivity (standing ([], []) (in_bytes [AskHashStart; AskHashData mixed; AskHashData again; AskHashEnd] ++ [])).
  2: { rewrite c113_whole; [reflexivity|]. repeat constructor; cbn [speakable on_port]; rewrite ?Lm; auto. }
  f_equal. cbn [requests_of in_bytes flat_map on_port spelled]. rewrite Lm, !app_nil_r.
  assert (F : forall a b : list (bool * byte), length a = 4%nat ->
    firstn (12 + (length data - 4)) (a ++ b) = a ++ firstn (8 + (length data - 4)) b).
  { intros a b La. replace (12 + (length data - 4))%nat with (length a + (8 + (length data - 4)))%nat by lia. apply firstn_app_2. }
  rewrite F by (rewrite map_length, be_bytes_length; reflexivity). rewrite <- app_assoc. f_equal.
  rewrite firstn_app, !map_length, !app_length, !be_bytes_length.
  replace (8 + (length data - 4) - (4 + (4 + length data)))%nat with 0%nat by lia. cbn [firstn]. rewrite app_nil_r.
  rewrite firstn_map, (app_assoc (be_bytes 4 6)). rewrite firstn_app, app_length, !be_bytes_length.
  rewrite firstn_all2 by (rewrite app_length, !be_bytes_length; lia).
  replace (8 + (length data - 4) - (4 + 4))%nat with (length data - 4)%nat by lia.
  unfold mixed. rewrite !map_app, <- !app_assoc. reflexivity.
Qed.

(** Over a network that reports what it takes and delivers what is due, and
    takes 14 bytes of the first measurement: it fails, the second succeeds, and
    so does a signal on the other port in between. *)
Definition so_much : mercy (list nat * (nat * nat)) (list request) := {|
  takes_some := fun r b h buf =>
    match fst r with [] => (r, length buf, None) | n :: ns => ((ns, snd r), n, None) end;
  gives := fun r b h n =>
    let q := skipn (room_at h (snd r)) (port h (due b)) in
    ((fst r, set_room h (room_at h (snd r) + length (firstn n q)) (snd r)), Ok (firstn n q));
  closes := fun r _ => (r, Ok tt)
|}.
Definition obliging : machine (list request) := fun s q => (s ++ [q], Some []).
Example c113_example :
  let '(w, rs) := calls_over (trickling so_much obliging) (port_ends 0)
    {| humour := ([4; 10]%nat, (0, 0)%nat); passed := []; beyond := quiet [] |}
    [Call (Hcrtm [x61; x62; x63; x64; x65; x66]); Call (Signal NvOn); Call (Hcrtm [x61; x62; x63; x64; x65; x66])] in
  rs = [Called (Err WriteZero); Called (Ok Done); Called (Ok Done)]
  /\ unit_ (beyond w) = [AskHashStart; AskSignal NvOn; AskHashData [x61; x62; x00; x00; x00; x05];
                          AskHashData [x61; x62; x63; x64; x65; x66]; AskHashEnd].
Proof. vm_compute. auto. Qed.
(** And one that takes three bytes of the first call. *)
Example c113_deaf_example :
  let '(w, rs) := calls_over (trickling so_much obliging) (port_ends 0)
    {| humour := ([3; 0]%nat, (0, 0)%nat); passed := []; beyond := quiet [] |}
    [Call (Handshake 1); Call (Signal NvOn); Call (Signal NvOn); Call (Handshake 1)] in
  rs = [Called (Err WriteZero); Called (Err WriteZero); Called (Ok Done); Called (Err UnexpectedEof)]
  /\ unit_ (beyond w) = [AskSignal NvOn].
Proof. vm_compute. auto. Qed.
