(** Calls over ports that break (C111). *)
From Coq Require Import String ZArith NArith List Lia Bool.
From Coq Require Import Init.Byte.
From Verif Require Import Prelude Types Marshal WireSpec Catalogue Errors Tpm2b Client ClientSpec ClientProofs ClientFacts
  Tcp TcpSpec TcpProofs RemoteFacts Controls ControlsFacts Crowd CrowdProofs CrowdFacts GoneSpec Frail.
From Verif Require Clients ClientsFacts GoneFacts CutFacts.
Import ListNotations.
Open Scope Z_scope.

(** ** Calls whose port is gone *)
Section Brittle.
Context {A : Type} (err : A -> bool).
(** A call that ends soon, and with an error, if nothing arrives any more. *)
Inductive doomed (h : bool) : nat -> talk A -> Prop :=
| D_said d a : err a = true -> doomed h d (Said a)
| D_writes d bytes k : (forall e, doomed h d (k (Err e))) -> (forall n, (n <= length bytes)%nat -> doomed h d (k (Ok n))) ->
    doomed h (S d) (Writes h bytes k)
| D_reads d n k : (forall e, doomed h d (k (Err e))) -> doomed h d (k (Ok [])) -> doomed h (S d) (Reads h n k).
Definition soon : nat := 8.
(** A call that is so whenever it is stopped. *)
Inductive brittle (h : bool) : talk A -> Prop :=
| B_said a : brittle h (Said a)
| B_reads n k : (forall o, brittle h (k o)) -> (forall e, doomed h 0 (k (Err e))) -> doomed h 0 (k (Ok [])) -> brittle h (Reads h n k)
| B_writes bytes k : (forall o, brittle h (k o)) -> (forall e, doomed h soon (k (Err e))) ->
    (forall n, (n <= length bytes)%nat -> doomed h soon (k (Ok n))) -> brittle h (Writes h bytes k).
Lemma doomed_more h d p : doomed h d p -> forall d', (d <= d')%nat -> doomed h d' p.
Proof.
  induction 1 as [d a E|d bytes k _ IH1 _ IH2|d n k _ IH1 _ IH2]; intros d' L.
  - now apply D_said.
  - destruct d' as [|d']; [lia|]. apply D_writes; intros; [apply IH1|apply IH2]; (assumption || lia).
  - destruct d' as [|d']; [lia|]. apply D_reads; intros; [apply IH1|apply IH2]; lia.
Qed.
End Brittle.
Lemma doomed_next {A B} err err' h d (p : talk A) (f : A -> talk B) :
  doomed err h d p -> (forall a, err a = true -> exists b, f a = Said b /\ err' b = true) -> doomed err' h d (next p f).
Proof.
  intros D F. induction D as [d a E|d bytes k _ IH1 _ IH2|d n k _ IH1 _ IH2]; cbn [next].
  - destruct (F a E) as (b & -> & Eb). now apply D_said.
  - now apply D_writes.
  - now apply D_reads.
Qed.
Lemma brittle_next {A B} err err' h (p : talk A) (f : A -> talk B) :
  brittle err h p -> (forall a, err a = false -> brittle err' h (f a)) ->
  (forall a, err a = true -> exists b, f a = Said b /\ err' b = true) -> brittle err' h (next p f).
Proof.
  intros Br T F. induction Br as [a|n k _ IH D1 D2|bytes k _ IH D1 D2]; cbn [next].
  - destruct (err a) eqn:E; [destruct (F a E) as (b & -> & _); apply B_said|now apply T].
  - apply B_reads; [exact IH|intros e|]; eapply doomed_next; eauto.
  - apply B_writes; [exact IH|intros e|intros n L]; eapply doomed_next; eauto.
Qed.
Definition err_out {E A} (o : outcome E A) : bool := match o with Err _ => true | _ => false end.
Lemma brittle_try {A B} h (m : failing A) (f : A -> failing B) :
  brittle err_out h m -> (forall a, brittle err_out h (f a)) -> brittle err_out h (try m f).
Proof.
  intros M F. eapply brittle_next; [exact M|..]; intros [a|e|] E; try discriminate; [apply F|apply B_said|eexists; split; reflexivity].
Qed.
Lemma doomed_try {A B} h d (m : failing A) (f : A -> failing B) : doomed err_out h d m -> doomed err_out h d (try m f).
Proof. intros M. eapply doomed_next; [exact M|]. intros [a|e|] E; try discriminate. eexists; split; reflexivity. Qed.
Lemma brittle_shown {A B} h (f : A -> B) m : brittle err_out h m -> brittle err_out h (shown f m).
Proof. intros M. eapply brittle_next; [exact M|..]; intros [a|e|] E; try discriminate; [apply B_said|apply B_said|eexists; split; reflexivity]. Qed.
Definition err_read {X} (x : list byte * outcome io_error X) : bool := err_out (snd x).
Lemma brittle_read_loop h : forall fuel n, brittle err_read h (read_loop_t fuel h n).
Proof.
  induction fuel as [|fuel IH]; intros [|n]; cbn [read_loop_t]; try apply B_said.
  apply B_reads.
  - intros [[|b bs]|e|]; try apply B_said. destruct (_ <? _)%nat; [apply B_said|].
    eapply brittle_next; [apply IH|..]; intros [rest r] E; [apply B_said|]. eexists. split; [reflexivity|exact E].
  - intros e. apply D_said. reflexivity.
  - apply D_said. reflexivity.
Qed.
Lemma doomed_read_loop h fuel n : doomed err_read h 1 (read_loop_t (S fuel) h (S n)).
Proof. cbn [read_loop_t]. apply D_reads; [intros e|]; apply D_said; reflexivity. Qed.
Lemma brittle_bytes h n : brittle err_out h (read_bytes_t h n).
Proof.
  eapply brittle_next; [apply brittle_read_loop|..]; intros [bs [u|e|]] E; try discriminate; [apply B_said|apply B_said|eexists; split; reflexivity].
Qed.
Lemma doomed_bytes h n : doomed err_out h 1 (read_bytes_t h (S n)).
Proof. eapply doomed_next; [apply doomed_read_loop|]. intros [bs [u|e|]] E; try discriminate. eexists. split; reflexivity. Qed.
Lemma brittle_u32 h : brittle err_out h (read_u32_t h).
Proof. apply brittle_try; [apply brittle_bytes|]. intros a. apply B_said. Qed.
Lemma doomed_u32 h : doomed err_out h 1 (read_u32_t h).
Proof. apply doomed_try, doomed_bytes. Qed.
Lemma brittle_check h : brittle err_out h (check_end_t h).
Proof. apply brittle_try; [apply brittle_u32|]. intros z. destruct (z =? 0); apply B_said. Qed.
Lemma doomed_check h : doomed err_out h 1 (check_end_t h).
Proof. apply doomed_try, doomed_u32. Qed.
(** Writing, and then reading. *)
Lemma brittle_whole {A} h bytes (rest : failing A) : brittle err_out h rest -> doomed err_out h 1 rest ->
  brittle err_out h (try (write_whole_t h bytes) (fun _ => rest)).
Proof.
  intros Br D. unfold write_whole_t, raw_write_t, try. cbn [next]. apply B_writes.
  - intros [n|e|]; try apply B_said. destruct (n =? length bytes)%nat; [exact Br|apply B_said].
  - intros e. apply D_said. reflexivity.
  - intros n L. destruct (n =? length bytes)%nat; [eapply doomed_more; [exact D|unfold soon; lia]|apply D_said; reflexivity].
Qed.
Lemma doomed_loop {A} h (rest : failing A) : doomed err_out h 1 rest -> forall fuel buf, (length buf <= fuel)%nat ->
  doomed err_out h (S fuel) (try (write_loop_t fuel h buf) (fun _ => rest)).
Proof.
  intros D. induction fuel as [|fuel IH]; intros [|b buf] L; cbn [write_loop_t try next]; unfold try; cbn [next];
    try (eapply doomed_more; [exact D|lia]); [cbn in L; lia|].
  apply D_writes; [intros e; apply D_said; reflexivity|]. intros [|n] Ln; [apply D_said; reflexivity|].
  replace (length (b :: buf) <? S n)%nat with false by (symmetry; apply Nat.ltb_ge; exact Ln).
  apply IH. rewrite skipn_length. cbn [length] in *. lia.
Qed.
Lemma brittle_loop {A} h (rest : failing A) : brittle err_out h rest -> doomed err_out h 1 rest -> forall fuel buf,
  (fuel <= 7)%nat -> (length buf <= fuel)%nat -> brittle err_out h (try (write_loop_t fuel h buf) (fun _ => rest)).
Proof.
  intros Br D. induction fuel as [|fuel IH]; intros [|b buf] F L; unfold try; cbn [write_loop_t next]; try exact Br; [cbn in L; lia|].
  apply B_writes.
  - intros [[|n]|e|]; try apply B_said. destruct (length (b :: buf) <? S n)%nat eqn:Ln; [apply B_said|].
    apply IH; [lia|]. rewrite skipn_length. cbn [length] in *. lia.
  - intros e. apply D_said. reflexivity.
  - intros [|n] Ln; [apply D_said; reflexivity|].
    replace (length (b :: buf) <? S n)%nat with false by (symmetry; apply Nat.ltb_ge; exact Ln).
    eapply doomed_more; [apply (doomed_loop h rest D)|unfold soon; lia]. rewrite skipn_length. cbn [length] in *. lia.
Qed.
Lemma brittle_code {A} h z (rest : failing A) : brittle err_out h rest -> doomed err_out h 1 rest ->
  brittle err_out h (try (write_all_t h (u32_bytes z)) (fun _ => rest)).
Proof.
  intros Br D. unfold write_all_t. apply brittle_loop; try assumption; unfold u32_bytes; rewrite be_bytes_length; lia.
Qed.
Lemma brittle_signal g : brittle err_out false (signal_t g).
Proof. apply brittle_code; [apply brittle_check|apply doomed_check]. Qed.
Lemma brittle_transact loc command response : brittle err_read true (transact_t loc command response).
Proof.
  unfold transact_t. destruct (2 ^ 32 <=? Z.of_nat (length command)); [apply B_said|].
  eapply brittle_next; [apply brittle_whole; [apply brittle_u32|apply doomed_u32]|..]; intros [len|e|] E; try discriminate.
  - destruct (_ <? _); [apply B_said|]. cbv zeta. eapply brittle_next; [apply brittle_read_loop|..]; intros [bs [u|e|]] Er; try discriminate; try apply B_said.
    + eapply brittle_next; [apply brittle_check|..]; intros [[]|e|] Ec; try discriminate; [apply B_said|apply B_said|eexists; split; reflexivity].
    + eexists. split; reflexivity.
  - apply B_said.
  - eexists. split; reflexivity.
Qed.
Lemma brittle_operation loc o : stays (Call o) -> brittle err_out (call_port (Call o)) (operation_t loc o).
Proof.
  intros [S1 S2]. destruct o as [command response|data|v|z|g| | | |z|z|z|l'| |]; cbn [operation_t call_port].
  - eapply brittle_next; [apply brittle_transact|..]; intros [rsp [n|e|]] E; try discriminate; [apply B_said|apply B_said|eexists; split; reflexivity].
  - apply brittle_shown. unfold hcrtm_t. apply brittle_code; [|apply doomed_try, doomed_check].
    apply brittle_try; [apply brittle_check|intros _]. apply brittle_whole; [|apply doomed_try, doomed_check].
    apply brittle_try; [apply brittle_check|intros _]. apply brittle_code; [apply brittle_check|apply doomed_check].
  - apply brittle_shown. unfold handshake_t. apply brittle_whole; [|apply doomed_try, doomed_bytes].
    apply brittle_try; [apply brittle_bytes|intros r]. apply brittle_try; [apply brittle_check|intros _; apply B_said].
  - apply brittle_shown. apply brittle_whole; [apply brittle_check|apply doomed_check].
  - apply brittle_shown, brittle_signal.
  - apply brittle_shown. unfold reinit_t. do 3 (apply brittle_try; [apply brittle_signal|intros _]). apply brittle_signal.
  - apply brittle_shown. apply brittle_code; [apply brittle_check|apply doomed_check].
  - apply brittle_shown. unfold sizes_t. apply brittle_code; [|apply doomed_try, doomed_u32].
    apply brittle_try; [apply brittle_u32|intros n]. destruct (negb _); [apply B_said|].
    apply brittle_try; [apply brittle_bytes|intros r]. apply brittle_try; [apply brittle_check|intros _; apply B_said].
  - apply brittle_shown. unfold act_t. apply brittle_whole; [|apply doomed_try, doomed_u32].
    apply brittle_try; [apply brittle_u32|intros r]. apply brittle_try; [apply brittle_check|intros _; apply B_said].
  - apply brittle_shown. apply brittle_whole; [apply brittle_check|apply doomed_check].
  - apply brittle_shown. apply brittle_whole; [apply brittle_check|apply doomed_check].
  - apply B_said.
  - now destruct S1.
  - now destruct S2.
Qed.
Definition err_result (r : result) : bool := match r with Called (Err _) | Ran (Err _) => true | _ => false end.
Lemma err_failed r : err_result r = true -> failed r.
Proof. destruct r as [[]|[]]; cbn; intros; (discriminate || exact I). Qed.
Lemma brittle_call loc x : stays x -> brittle err_result (call_port x) (call_t loc x).
Proof.
  intros Hs. destruct x as [o|c cmd handles a]; cbn [call_t].
  - eapply brittle_next; [apply brittle_operation; exact Hs|..]; intros [v|e|] E; try discriminate; [apply B_said|apply B_said|eexists; split; reflexivity].
  - eapply (brittle_next err_out err_result); [|intros [v|e|] E; try discriminate; apply B_said|intros [v|e|] E; try discriminate; eexists; split; reflexivity].
    unfold command_t. destruct (build_command c cmd handles a) as [bytes|e|]; try apply B_said.
    eapply brittle_next; [apply brittle_transact|..]; intros [rsp [n|e|]] E; try discriminate; [apply B_said|apply B_said|eexists; split; reflexivity].
Qed.
(** The requests of a call are all for its port. *)
Fixpoint plan_on {A} (h : bool) (pl : plan A) : Prop :=
  match pl with Return _ => True | Request q k => port_of q = h /\ forall r, plan_on h (k r) end.
Lemma plan_on_after {A B} h (pl : plan A) (g : A -> B) : plan_on h pl -> plan_on h (after pl (fun a => Return (g a))).
Proof. induction pl as [a|q k IH]; cbn [plan_on after]; [auto|]. intros [P K]. split; [exact P|]. intros r. apply IH, K. Qed.
Lemma call_on loc x : stays x -> plan_on (call_port x) (call_plan loc x).
Proof.
  intros [S1 S2]. destruct x as [o|c cmd handles a]; cbn [call_plan]; apply plan_on_after.
  - destruct o; cbn [operation_plan told fold_right asking plan_on call_port];
      repeat (split; [reflexivity|]; intros _); try exact I; exfalso; (now apply S1) || (now apply S2).
  - unfold command_plan. destruct (build_command c cmd handles a); cbn [asking plan_on call_port]; auto.
Qed.
Lemma walked_on {A} h (p : plan A) tr p' : walked p tr p' -> plan_on h p -> plan_on h p' /\ Forall (fun e => port_of (fst e) = h) tr.
Proof.
  induction 1 as [p|q k r tr p W IH]; intros P; [auto|]. destruct P as [P K]. destruct (IH (K r)) as [A1 A2]. auto.
Qed.

(** ** What was asked, call by call *)
Definition item : Type := request * option (list byte).
Definition entry : Type := trace * option request.
Definition items (e : entry) : list item :=
  map (fun x => (fst x, Some (snd x))) (fst e) ++ match snd e with Some q => [(q, None)] | None => [] end.
Definition ledger (es : list entry) : list item := flat_map items es.
Definition filt (h : bool) (l : list item) : list item := filter (fun e => to_port h (fst e)) l.
Definition answered (tr : trace) : list item := map (fun x => (fst x, Some (snd x))) tr.
Lemma to_port_of h q : to_port h q = Bool.eqb h (port_of q).
Proof. destruct q; reflexivity. Qed.
Lemma filt_app h a b : filt h (a ++ b) = filt h a ++ filt h b.
Proof. apply filter_app. Qed.
Lemma ledger_app a b : ledger (a ++ b) = ledger a ++ ledger b.
Proof. apply flat_map_app. Qed.
Lemma filt_answered h tr : filt h (answered tr) = answered (at_port h tr).
Proof.
  induction tr as [|[q r] tr IH]; [reflexivity|]. unfold filt, answered, at_port in *. cbn [map filter fst snd].
  destruct (to_port h q); cbn [map]; now rewrite IH.
Qed.
Lemma answered_last tr A q : answered tr <> A ++ [(q, None)].
Proof.
  intros E. apply (f_equal (@rev item)) in E. unfold answered in E. rewrite rev_app_distr, <- map_rev in E. cbn in E.
  destruct (rev tr); discriminate.
Qed.
Lemma exists_last' {A} (l : list A) : l = [] \/ exists b z, l = b ++ [z].
Proof. destruct (rev l) as [|z r] eqn:E; [left|right]; rewrite <- (rev_involutive l), E; [reflexivity|]. cbn. eauto. Qed.
Inductive told_of (broken : bool -> bool) : Z -> list call -> list entry -> list result -> Prop :=
| T_none l : told_of broken l [] [] []
| T_whole l c cs part r es rs :
    walked (call_plan l c) part (Return r) -> told_of broken (level_after l c) cs es rs ->
    told_of broken l (c :: cs) ((part, None) :: es) (r :: rs)
| T_failed l c cs part rest owed r es rs :
    broken (call_port c) = true -> walked (call_plan l c) part rest -> failed r ->
    (owed = None \/ exists q k, rest = Request q k /\ owed = Some q) ->
    told_of broken (level_after l c) cs es rs ->
    told_of broken l (c :: cs) ((part, owed) :: es) (r :: rs).
Lemma told_length br l cs es rs : told_of br l cs es rs -> length cs = length rs.
Proof. induction 1; cbn [length]; lia. Qed.
Lemma told_more br br' l cs es rs : (forall h, br h = true -> br' h = true) -> told_of br l cs es rs -> told_of br' l cs es rs.
Proof. intros M T. induction T; [constructor|eapply T_whole; eauto|eapply T_failed; eauto]. Qed.
Lemma told_snoc br l cs es rs c part owed r : told_of br l cs es rs ->
  told_of br (level_of l cs) [c] [(part, owed)] [r] -> told_of br l (cs ++ [c]) (es ++ [(part, owed)]) (rs ++ [r]).
Proof.
  intros T E. induction T as [l|l c0 cs part0 r0 es rs W T IH|l c0 cs part0 rest0 owed0 r0 es rs Br W F O T IH]; cbn [app].
  - exact E.
  - eapply T_whole; [exact W|]. apply IH, E.
  - eapply T_failed; [exact Br|exact W|exact F|exact O|]. apply IH, E.
Qed.
(** What was asked and not taken is the last on its port: it is taken, or it
    is lost. *)
Lemma told_change br l cs es rs : told_of br l cs es rs -> forall h q A X,
  (X = [] \/ exists r, X = [(q, Some r)]) -> filt h (ledger es) = A ++ [(q, None)] ->
  exists es', told_of br l cs es' rs /\ filt h (ledger es') = A ++ X /\ filt (negb h) (ledger es') = filt (negb h) (ledger es).
Proof.
  induction 1 as [l|l c cs part r es rs W T IH|l c cs part rest owed r es rs Br W F O T IH]; intros h q A X HX E.
  - destruct A; discriminate.
  - change (ledger ((part, None) :: es)) with (items (part, None) ++ ledger es) in *. rewrite filt_app in E.
    destruct (exists_last' (filt h (ledger es))) as [N|(B & z & N)].
    + rewrite N, app_nil_r in E. unfold items in E. cbn [fst snd] in E. rewrite app_nil_r in E.
      fold (answered part) in E. rewrite filt_answered in E. now apply answered_last in E.
    + rewrite N, app_assoc in E. apply app_inj_tail in E as [EA ->].
      destruct (IH h q B X HX N) as (es' & T' & F1 & F2). exists ((part, None) :: es'). split; [eapply T_whole; eauto|].
      change (ledger ((part, None) :: es')) with (items (part, None) ++ ledger es').
      split; [rewrite filt_app, F1, app_assoc; f_equal; exact EA|rewrite !filt_app; now rewrite F2].
  - change (ledger ((part, owed) :: es)) with (items (part, owed) ++ ledger es) in *. rewrite filt_app in E.
    destruct (exists_last' (filt h (ledger es))) as [N|(B & z & N)].
    + rewrite N, app_nil_r in E. unfold items in E. cbn [fst snd] in E. fold (answered part) in E. rewrite filt_app, filt_answered in E.
      destruct O as [->|(q0 & k & -> & ->)]; [cbn in E; rewrite app_nil_r in E; now apply answered_last in E|].
      cbn [filt filter fst] in E. destruct (to_port h q0) eqn:P; [|rewrite app_nil_r in E; now apply answered_last in E].
      apply app_inj_tail in E as [<- E]. injection E as ->.
      assert (P' : to_port (negb h) q = false) by (rewrite to_port_of in *; destruct h, (port_of q); (discriminate || reflexivity)).
      destruct HX as [->|(r0 & ->)].
      * exists ((part, None) :: es). split; [eapply T_failed; eauto|].
        change (ledger ((part, None) :: es)) with (items (part, None) ++ ledger es). unfold items. cbn [fst snd]. fold (answered part).
        rewrite !filt_app, !filt_answered, N. cbn [filt filter fst]. rewrite P', !app_nil_r. auto.
      * exists ((part ++ [(q, r0)], None) :: es). split; [eapply T_failed; [exact Br|apply GoneFacts.walked_snoc; exact W|exact F|auto|exact T]|].
        change (ledger ((part ++ [(q, r0)], None) :: es)) with (items (part ++ [(q, r0)], None) ++ ledger es). unfold items. cbn [fst snd].
        rewrite map_app. fold (answered part). cbn [map fst snd].
        rewrite !filt_app, !filt_answered, N. cbn [filt filter fst]. rewrite P, P', !app_nil_r. auto.
    + rewrite N, app_assoc in E. apply app_inj_tail in E as [EA ->].
      destruct (IH h q B X HX N) as (es' & T' & F1 & F2). exists ((part, owed) :: es'). split; [eapply T_failed; eauto|].
      change (ledger ((part, owed) :: es')) with (items (part, owed) ++ ledger es').
      split; [rewrite filt_app, F1, app_assoc; f_equal; exact EA|rewrite !filt_app; now rewrite F2].
Qed.

(** ** Users *)
Local Notation outs h x := (port h (out (person x))).
Local Notation incs h x := (port h (inc (person x))).
Definition pend (h : bool) (x : guest) : list request := match front h (outs h x) with Some (q, _) => [q] | None => [] end.
Definition owing (qs : list request) : list item := map (fun q => (q, None)) qs.
Definition balanced (x : guest) (es : list entry) (log : trace) : Prop :=
  forall h, filt h (ledger es) = answered (at_port h log) ++ owing (pend h x).
Definition idle (h : bool) (x : guest) : Prop := incs h x = [] /\ (is_torn h x = false -> outs h x = []).
Definition tidy (x : guest) : Prop := forall h q rest, front h (outs h x) = Some (q, rest) -> rest = [].
Inductive stage (h : bool) (x : guest) (p : talk result) (b : nat) : plan result -> option request -> Prop :=
| G_ready pl m : implements pl p -> within m pl -> idle h x -> (m <= b)%nat -> stage h x p b pl None
| G_asked q k m : is_torn h x = false -> speakable h q -> no_end q ->
    (forall r, answer_ok q r -> leads h (implements (k r)) p (framed q (Some r))) -> within m (Request q k) ->
    outs h x = spelled q -> incs h x = [] -> (m <= b + 1)%nat -> stage h x p b (Request q k) (Some q)
| G_answer pl m s s' : leads h (implements pl) p (s ++ s') -> within m pl -> s ++ s' <> [] -> incs h x = s ->
    (s' <> [] -> is_torn h x = true) -> (is_torn h x = false -> outs h x = []) -> (length (s ++ s') + m <= b)%nat -> stage h x p b pl None
| G_doomed pl owed d : is_torn h x = true -> doomed err_result h d p -> incs h x = [] ->
    (owed = None \/ exists q k, pl = Request q k /\ owed = Some q) -> (d + 1 <= b)%nat -> stage h x p b pl owed.
Definition inv (n : nat) (l : Z) (cs : list call) (x : guest) (log : trace) : Prop :=
  exists cs1 es, told_of (fun h => is_torn h x) l cs1 es (have (person x)) /\ tidy x
    /\ 0 <= set_level (person x) < 256 /\ Forall (fun c => call_ok c /\ stays c) (calls (person x))
    /\ match in_call (person x) with
       | None => cs = cs1 ++ calls (person x) /\ set_level (person x) = level_of l cs1 /\ (forall h, idle h x) /\ balanced x es log
           /\ (whole_call * length (calls (person x)) <= n)%nat
       | Some p => exists c pl part owed b,
           cs = cs1 ++ c :: calls (person x) /\ set_level (person x) = level_of l (cs1 ++ [c])
           /\ walked (call_plan (level_of l cs1) c) part pl /\ stays c /\ brittle err_result (call_port c) p
           /\ idle (negb (call_port c)) x /\ stage (call_port c) x p b pl owed /\ balanced x (es ++ [(part, owed)]) log
           /\ (b + whole_call * length (calls (person x)) <= n)%nat
       end.
Definition fin (x : guest) : Prop := calls (person x) = [] /\ in_call (person x) = None.
Definition blocked (h : bool) (x : guest) : Prop := is_torn h x = false /\ outs h x <> [].
Lemma level_snoc l cs c : level_of l (cs ++ [c]) = level_after (level_of l cs) c.
Proof. unfold level_of. rewrite fold_left_app. reflexivity. Qed.
Lemma within_pos {A} n (pl : plan A) : within n pl -> (1 <= n)%nat.
Proof. destruct pl; cbn [within]; [auto|]. intros [H _]. unfold leg, RESP_BUFFER_SIZE in H. lia. Qed.
Lemma pend_nothing h x : outs h x = [] -> pend h x = [].
Proof. intros E. unfold pend. rewrite E. destruct h; reflexivity. Qed.
Lemma front_spelled h q : speakable h q -> front h (spelled q) = Some (q, []).
Proof. intros Sp. apply c81_understood. rewrite app_nil_r. auto. Qed.
Lemma speak_port h q : speakable h q -> port_of q = h.
Proof. destruct q; cbn [speakable port_of]; intros H; try destruct H; auto. Qed.
Lemma items_open part : items (part, None) = answered part.
Proof. unfold items. cbn [fst snd]. apply app_nil_r. Qed.
Lemma items_owed part q : items (part, Some q) = answered part ++ [(q, None)].
Proof. reflexivity. Qed.
Lemma ledger_snoc es e : ledger (es ++ [e]) = ledger es ++ items e.
Proof. rewrite ledger_app. cbn. now rewrite app_nil_r. Qed.
Lemma stage_more h x p b pl owed : stage h x p b pl owed -> forall b', (b <= b')%nat -> stage h x p b' pl owed.
Proof. destruct 1; intros b' L; [eapply G_ready|eapply G_asked|eapply G_answer|eapply G_doomed]; eauto; lia. Qed.
Lemma inv_more n n' l cs x log : (n <= n')%nat -> inv n l cs x log -> inv n' l cs x log.
Proof.
  intros L (cs1 & es & T & Ti & Hl & Hc & M). exists cs1, es. repeat (split; [assumption|]).
  destruct (in_call (person x)).
  - destruct M as (c & pl & part & owed & b & H). exists c, pl, part, owed, b. intuition lia.
  - intuition lia.
Qed.
Lemma port_set_other h b p : port (negb h) (set_port h b p) = port (negb h) p.
Proof. destruct h; reflexivity. Qed.
Lemma the_other h h' : h' <> h -> h' = negb h.
Proof. destruct h, h'; cbn; congruence. Qed.
Ltac either_port h h' :=
  let N := fresh "N" in destruct (Bool.bool_dec h' h) as [->|N]; [|apply the_other in N; subst h'].
Lemma other_port h (P : bool -> Prop) : P h -> P (negb h) -> forall h', P h'.
Proof. destruct h; intros A B []; assumption. Qed.

(** A move of the user. *)
Lemma goes_step piece o n l cs x log : inv n l cs x log ->
  exists n', (n' <= n)%nat /\ inv n' l cs (guest_moves piece o x) log /\ torn (guest_moves piece o x) = torn x
    /\ (n' = n -> guest_moves piece o x = x /\ (fin x \/ exists h, blocked h x)).
Proof.
  intros (cs1 & es & T & Ti & Hl & Hc & M). destruct x as [u t]. unfold guest_moves. cbn [person torn] in *.
  destruct (in_call u) as [p|] eqn:D.
  2:{ destruct M as (Ecs & El & Id & Ba & N). unfold user_moves. rewrite D. destruct (calls u) as [|c rest] eqn:Cu.
      - exists n. split; [lia|]. split; [|split; [reflexivity|intros _; split; [reflexivity|left; split; assumption]]].
        exists cs1, es. cbn [person]. rewrite D, Cu. auto 10.
      - inversion Hc as [|? ? [Hok Hst] Hc']; subst. cbn [length] in N. rewrite <- mult_n_Sm in N.
        assert (Hl' : 0 <= level_after (set_level u) c < 256).
        { destruct c as [o'|]; [|exact Hl]. destruct Hok as [Hok _]. clear - Hl Hok. destruct o'; cbn [level_after locality_after operation_ok] in *; lia. }
        assert (W1 : (1 <= whole_call)%nat) by (unfold whole_call; lia).
        exists (n - 1)%nat. split; [lia|]. split; [|split; [reflexivity|intros E; lia]].
        exists cs1, es. cbn [person have set_level calls in_call]. split; [exact T|]. split; [exact Ti|]. split; [exact Hl'|]. split; [exact Hc'|].
        exists c, (call_plan (level_of l cs1) c), [], None, (whole_call - 1)%nat.
        split; [reflexivity|]. split; [rewrite level_snoc; now rewrite El|]. split; [apply walked_none|]. split; [exact Hst|].
        split; [apply brittle_call; exact Hst|]. split; [apply Id|]. split; [|split; [|lia]].
        + eapply G_ready; [rewrite El; apply call_implemented; try assumption; rewrite <- El; exact Hl|apply call_within; exact Hst|apply Id|unfold whole_call; lia].
        + intros h. rewrite ledger_snoc, filt_app, (Ba h). cbn. now rewrite app_nil_r. }
  destruct M as (c & pl & part & owed & b & Ecs & El & W & Sc & Br & Id & St & Ba & N).
  destruct (walked_on _ _ _ _ W (call_on _ _ Sc)) as [Po Fp]. set (h := call_port c) in *.
  destruct St as [pl m Im Wi Ih Lb|q k m Tn Sp Ne Le Wi O I Lb|pl m s s' Le Wi Ns I Tn On Lb|pl owed d Tn Do I Ow Lb].
  - destruct pl as [r|q k].
    + cbn [implements] in Im. subst p. unfold user_moves. rewrite D. cbn [within] in Wi.
      exists (n - 1)%nat. split; [lia|]. split; [|split; [reflexivity|intros E; lia]].
      exists (cs1 ++ [c]), (es ++ [(part, None)]). cbn [person have set_level calls in_call]. split.
      { apply told_snoc; [exact T|]. eapply T_whole; [exact W|constructor]. }
      split; [exact Ti|]. split; [exact Hl|]. split; [exact Hc|]. split; [rewrite <- app_assoc; exact Ecs|]. split; [exact El|].
      split; [|split; [exact Ba|lia]]. apply (other_port h); assumption.
    + cbn [implements] in Im. destruct Im as (Sp & Ne & kp & -> & Le). cbn [plan_on] in Po. destruct Po as [Pq Pk]. rewrite Pq in *.
      inversion Br as [| |bytes' k' Bk D1 D2]; subst. assert (Wi' := Wi). cbn [within] in Wi'. destruct Wi' as [Wl _].
      assert (Lg : (20 <= leg)%nat) by (unfold leg, RESP_BUFFER_SIZE; lia).
      destruct (is_torn h {| person := u; torn := t |}) eqn:Tn.
      * exists (n - 1)%nat. split; [lia|]. split; [|split; [reflexivity|intros E; lia]].
        exists cs1, es. unfold proceeds. cbn [person have set_level calls in_call]. split; [exact T|]. split; [exact Ti|]. split; [exact Hl|]. split; [exact Hc|].
        exists c, (Request q k), part, None, (b - 1)%nat. fold h.
        split; [reflexivity|]. split; [exact El|]. split; [exact W|]. split; [exact Sc|].
        split; [apply Bk|]. split; [exact Id|]. split; [|split; [exact Ba|lia]].
        eapply (G_doomed _ _ _ _ _ _ soon); [exact Tn| |apply (proj1 Ih)|auto|unfold soon; lia].
        destruct o as [n0|e]; [apply D2; lia|apply D1].
      * assert (Ob : outs h {| person := u; torn := t |} = []) by (apply (proj2 Ih); exact Tn). cbn [person] in Ob.
        exists (n - 1)%nat. split; [lia|]. split; [|split; [reflexivity|intros E; lia]].
        unfold user_moves. rewrite D. rewrite Ob. cbn [app].
        exists cs1, es. unfold proceeds. cbn [person have set_level calls in_call]. split; [exact T|]. split.
        { intros h' q' rest. cbn [person out]. either_port h h'.
          - rewrite port_set, front_spelled by exact Sp. congruence.
          - rewrite (port_set_other h). apply Ti. }
        split; [exact Hl|]. split; [exact Hc|].
        exists c, (Request q k), part, (Some q), (b - 1)%nat. fold h.
        split; [reflexivity|]. split; [exact El|]. split; [exact W|]. split; [exact Sc|].
        split; [apply Bk|]. split.
        { destruct Id as [Id1 Id2]. split; cbn [person inc out]; [exact Id1|]. intros Tn'. rewrite (port_set_other h). apply Id2, Tn'. }
        split; [|split; [|lia]].
        -- eapply G_asked; cbn [person inc out]; [exact Tn|exact Sp|exact Ne|exact Le|exact Wi|apply port_set|apply (proj1 Ih)|lia].
        -- intros h'. specialize (Ba h'). either_port h h'.
           ++ rewrite ledger_snoc, items_open in Ba. rewrite ledger_snoc, items_owed, app_assoc, filt_app, Ba, pend_nothing by exact Ob.
              unfold pend. cbn [person out]. rewrite port_set, front_spelled by exact Sp. cbn [owing map app filt filter fst].
              rewrite to_port_of, Pq, Bool.eqb_reflx, !app_nil_r. reflexivity.
           ++ rewrite ledger_snoc, items_open in Ba. rewrite ledger_snoc, items_owed, app_assoc, filt_app, Ba.
              cbn [filt filter fst]. rewrite to_port_of, Pq. replace (Bool.eqb (negb h) h) with false by (destruct h; reflexivity).
              rewrite app_nil_r. unfold pend. cbn [person out]. now rewrite (port_set_other h).
  - destruct (some_answer q) as [r Hr]. specialize (Le r Hr) as Lr. pose proof (answered_nonempty q r Ne) as Na.
    inversion Lr as [p' X E1 E2|hn kk q' Hn Hq X E1 E2]; subst; [congruence|]. cbn [person] in I. rewrite I, Tn.
    unfold user_moves. rewrite D, I.
    exists n. split; [lia|]. split; [|split; [reflexivity|intros _; split; [reflexivity|]]].
    + exists cs1, es. cbn [person]. rewrite D. split; [exact T|]. split; [exact Ti|]. split; [exact Hl|]. split; [exact Hc|].
      exists c, (Request q k), part, (Some q), b. repeat (split; [assumption || reflexivity|]). split; [|split; assumption].
      eapply G_asked; eauto.
    + right. exists h. split; [exact Tn|]. rewrite O. apply asked_something.
  - inversion Le as [p' X E1 E2|hn kk q' Hn Hq X E1 E2]; subst; [congruence|]. cbn [person] in Lb, X, Hq, Tn, On.
    inversion Br as [|n' k' Bk D1 D2|]; subst. pose proof (within_pos _ _ Wi) as Wp.
    set (s := port h (inc u)) in *.
    destruct (list_eq_dec Byte.byte_eq_dec s []) as [Es|Es].
    + rewrite Es in *. cbn [app] in *. rewrite (Tn Hq).
      assert (Ls : (1 <= length s')%nat) by (destruct s'; [congruence|cbn [length]; lia]).
      exists (n - 1)%nat. split; [lia|]. split; [|split; [reflexivity|intros E; lia]].
      exists cs1, es. unfold proceeds. cbn [person have set_level calls in_call]. split; [exact T|]. split; [exact Ti|]. split; [exact Hl|]. split; [exact Hc|].
      exists c, pl, part, None, (b - 1)%nat. fold h. repeat (split; [assumption || reflexivity|]). split; [apply Bk|]. split; [exact Id|].
      split; [|split; [exact Ba|lia]].
      eapply (G_doomed _ _ _ _ _ _ 0); [exact (Tn Hq)| |exact Es|auto|lia].
      destruct o as [n0|e]; [exact D2|apply D1].
    + assert (Eg : (match s with [] => (if is_torn h {| person := u; torn := t |} then
          {| person := proceeds u (kk match o with Claims _ => Ok [] | Complains e => Err e end) (out u) (inc u); torn := t |}
          else {| person := user_moves piece u; torn := t |}) | _ :: _ => {| person := user_moves piece u; torn := t |} end)
          = {| person := user_moves piece u; torn := t |}) by (destruct s; [congruence|reflexivity]).
      replace (match s with [] => match is_torn h {| person := u; torn := t |} with
          | true => {| person := proceeds u (kk match o with Claims _ => Ok [] | Complains e => Err e end) (out u) (inc u); torn := t |}
          | false => {| person := user_moves piece u; torn := t |} end | _ :: _ => {| person := user_moves piece u; torn := t |} end)
        with {| person := user_moves piece u; torn := t |} by (symmetry; exact Eg). clear Eg.
      set (mm := Nat.min (Nat.min hn (length s)) (Nat.max 1 piece)).
      assert (Ls : (1 <= length s)%nat) by (destruct s; [congruence|cbn [length]; lia]).
      assert (M : (1 <= mm)%nat /\ (mm <= hn)%nat /\ (mm <= length s)%nat) by (unfold mm; lia).
      assert (Eu : user_moves piece u = proceeds u (kk (Ok (firstn mm s))) (out u) (set_port h (skipn mm s) (inc u))).
      { unfold user_moves. rewrite D. fold s. unfold mm. clear - Es. clearbody s. destruct s; [congruence|reflexivity]. }
      rewrite Eu. clear Eu.
      rewrite app_length in Lb.
      specialize (X mm (proj1 M)). rewrite app_length in X. specialize (X ltac:(lia)).
      rewrite firstn_app_le, skipn_app_le in X by lia.
      exists (n - 1)%nat. split; [lia|]. split; [|split; [reflexivity|intros E; lia]].
      exists cs1, es. unfold proceeds. cbn [person have set_level calls in_call]. split; [exact T|]. split; [exact Ti|]. split; [exact Hl|]. split; [exact Hc|].
      exists c, pl, part, None, (b - 1)%nat. fold h. repeat (split; [assumption || reflexivity|]). split; [apply Bk|].
      split.
      { destruct Id as [Id1 Id2]. split; cbn [person inc out]; [rewrite (port_set_other h); exact Id1|exact Id2]. }
      split; [|split; [exact Ba|lia]].
      destruct (list_eq_dec Byte.byte_eq_dec (skipn mm s ++ s') []) as [En|En].
      * rewrite En in X. inversion X as [p' X' E1 E2|hn' kk' q'' Hn' Hq' X' E1 E2]; subst; [|congruence].
        apply app_eq_nil in En as [En1 En2].
        eapply G_ready; [exact X'|exact Wi| |lia]. split; cbn [person inc out]; [now rewrite port_set|exact On].
      * assert (Lk := skipn_length mm s).
        eapply (G_answer _ _ _ _ _ _ (skipn mm s) s'); cbn [person inc out]; [exact X|exact Wi|exact En|apply port_set|exact Tn|exact On|].
        rewrite app_length. lia.
  - inversion Do as [d' a Ea E1 E2|d' bytes k D1 D2 E1 E2|d' rn k D1 D2 E1 E2]; subst.
    + unfold user_moves. rewrite D. exists (n - 1)%nat. split; [lia|]. split; [|split; [reflexivity|intros E; lia]].
      exists (cs1 ++ [c]), (es ++ [(part, owed)]). cbn [person have set_level calls in_call]. split.
      { apply told_snoc; [exact T|]. eapply T_failed; [exact Tn|exact W|apply err_failed; exact Ea|exact Ow|constructor]. }
      split; [exact Ti|]. split; [exact Hl|]. split; [exact Hc|]. split; [rewrite <- app_assoc; reflexivity|]. split; [exact El|].
      split; [|split; [exact Ba|lia]]. apply (other_port h); [|exact Id]. split; [exact I|]. intros X. change (is_torn h {| person := u; torn := t |} = false) in X. congruence.
    + rewrite Tn. exists (n - 1)%nat. split; [lia|]. split; [|split; [reflexivity|intros E; lia]].
      exists cs1, es. unfold proceeds. cbn [person have set_level calls in_call]. split; [exact T|]. split; [exact Ti|]. split; [exact Hl|]. split; [exact Hc|].
      exists c, pl, part, owed, (b - 1)%nat. fold h. repeat (split; [assumption || reflexivity|]).
      split; [inversion Br; subst; auto|]. split; [exact Id|]. split; [|split; [exact Ba|lia]].
      eapply (G_doomed _ _ _ _ _ _ d'); [exact Tn| |exact I|exact Ow|lia]. destruct o as [n0|e]; [apply D2; lia|apply D1].
    + cbn [person] in I. rewrite I, Tn. exists (n - 1)%nat. split; [lia|]. split; [|split; [reflexivity|intros E; lia]].
      exists cs1, es. unfold proceeds. cbn [person have set_level calls in_call]. split; [exact T|]. split; [exact Ti|]. split; [exact Hl|]. split; [exact Hc|].
      exists c, pl, part, owed, (b - 1)%nat. fold h. repeat (split; [assumption || reflexivity|]).
      split; [inversion Br; subst; auto|]. split; [exact Id|]. split; [|split; [exact Ba|lia]].
      eapply (G_doomed _ _ _ _ _ _ d'); [exact Tn| |exact I|exact Ow|lia]. destruct o as [n0|e]; [exact D2|apply D1].
Qed.

(** ** What becomes of what was sent *)
Lemma stage_owed h x p b pl owed : stage h x p b pl owed -> owed = None \/ exists q k, pl = Request q k /\ owed = Some q.
Proof. destruct 1; eauto. Qed.
Lemma stage_same h x x' p b pl owed : stage h x p b pl owed -> outs h x' = outs h x -> incs h x' = incs h x ->
  is_torn h x' = is_torn h x -> stage h x' p b pl owed.
Proof.
  intros St O I T. destruct St as [pl m Im Wi [I1 I2] L|q k m Tn Sp Ne Le Wi O' I' L|pl m s s' Le Wi Ns I' Tn On L|pl owed d Tn Do I' Ow L].
  - eapply G_ready; eauto. split; rewrite ?T, ?O, ?I; auto.
  - eapply G_asked; eauto; congruence.
  - eapply G_answer; eauto; rewrite ?T, ?O, ?I; auto.
  - eapply G_doomed; eauto; congruence.
Qed.
Lemma stage_torn h x x' p b pl owed : stage h x p b pl owed -> is_torn h x = true -> incs h x' = incs h x ->
  is_torn h x' = true -> stage h x' p b pl owed.
Proof.
  intros St T I T'. destruct St as [pl m Im Wi [I1 I2] L|q k m Tn Sp Ne Le Wi O' I' L|pl m s s' Le Wi Ns I' Tn On L|pl owed d Tn Do I' Ow L].
  - eapply G_ready; eauto. split; [congruence|]. rewrite T'. discriminate.
  - congruence.
  - eapply G_answer; eauto; [congruence|]. rewrite T'. discriminate.
  - eapply G_doomed; eauto; congruence.
Qed.
Lemma at_port_app h a b : at_port h (a ++ b) = at_port h a ++ at_port h b.
Proof. apply filter_app. Qed.
Lemma answered_app a b : answered (a ++ b) = answered a ++ answered b.
Proof. apply map_app. Qed.
Lemma balanced_to h x x' es es' log log' X :
  at_port (negb h) log' = at_port (negb h) log -> answered (at_port h log') = answered (at_port h log) ++ X ->
  pend h x' = [] -> pend (negb h) x' = pend (negb h) x ->
  filt h (ledger es') = answered (at_port h log) ++ X -> filt (negb h) (ledger es') = filt (negb h) (ledger es) ->
  balanced x es log -> balanced x' es' log'.
Proof.
  intros L1 L2 P1 P2 F1 F2 B h'. either_port h h'.
  - rewrite P1, F1, L2. cbn [owing map]. now rewrite app_nil_r.
  - rewrite F2, P2, L1. apply B.
Qed.
(** A request that was asked is taken ([Some]) or lost. *)
Definition written (log : trace) (q : request) (o : option (list byte)) : trace :=
  log ++ match o with Some r => [(q, r)] | None => [] end.
Definition outcome_of (q : request) (o : option (list byte)) : list item := match o with Some r => [(q, Some r)] | None => [] end.
Lemma written_here h log q o : port_of q = h -> answered (at_port h (written log q o)) = answered (at_port h log) ++ outcome_of q o.
Proof.
  intros P. unfold written. rewrite at_port_app, answered_app. f_equal. destruct o as [r|]; [|reflexivity].
  unfold at_port. cbn [filter fst]. rewrite to_port_of, P, Bool.eqb_reflx. reflexivity.
Qed.
Lemma eqb_other h : Bool.eqb (negb h) h = false.
Proof. destruct h; reflexivity. Qed.
Lemma written_there h log q o : port_of q = h -> at_port (negb h) (written log q o) = at_port (negb h) log.
Proof.
  intros P. unfold written. rewrite at_port_app. destruct o as [r|]; [|apply app_nil_r].
  unfold at_port at 2. cbn [filter fst]. rewrite to_port_of, P, eqb_other. apply app_nil_r.
Qed.
Lemma outcome_two q o : outcome_of q o = [] \/ exists r, outcome_of q o = [(q, Some r)].
Proof. destruct o; cbn; eauto. Qed.
Lemma change_ended br l cs es rs h x x' q o log : told_of br l cs es rs -> balanced x es log -> pend h x = [q] -> port_of q = h ->
  pend h x' = [] -> pend (negb h) x' = pend (negb h) x ->
  exists es', told_of br l cs es' rs /\ balanced x' es' (written log q o).
Proof.
  intros T B P Pq P1 P2. assert (E := B h). rewrite P in E. cbn [owing map] in E.
  destruct (told_change _ _ _ _ _ T h q _ _ (outcome_two q o) E) as (es' & T' & F1 & F2).
  exists es'. split; [exact T'|]. apply (balanced_to h x x' es es' log _ (outcome_of q o)); auto using written_here, written_there.
Qed.
Lemma change_open {A} br l cs es rs h x x' q o log part owed (pl0 pl : plan A) :
  told_of br l cs es rs -> balanced x (es ++ [(part, owed)]) log -> pend h x = [q] -> port_of q = h ->
  pend h x' = [] -> pend (negb h) x' = pend (negb h) x ->
  walked pl0 part pl -> (owed = None \/ exists q k, pl = Request q k /\ owed = Some q) ->
  exists es' part' owed' pl', told_of br l cs es' rs /\ balanced x' (es' ++ [(part', owed')]) (written log q o)
    /\ walked pl0 part' pl'
    /\ ((pl' = pl /\ owed' = owed) \/ (owed = Some q /\ owed' = None)).
Proof.
  intros T B P Pq P1 P2 W Ow. assert (E := B h). rewrite P in E. cbn [owing map] in E.
  rewrite ledger_snoc, filt_app in E.
  assert (C : filt h (items (part, owed)) = [] \/ owed = Some q).
  { destruct (exists_last' (filt h (items (part, owed)))) as [Z|(bb & z & Z)]; [auto|]. right.
    assert (Z' := Z). rewrite Z, app_assoc in E. apply app_inj_tail in E as [_ ->].
    destruct Ow as [->|(q0 & k & -> & ->)].
    - rewrite items_open, filt_answered in Z. now apply answered_last in Z.
    - rewrite items_owed, filt_app, filt_answered in Z. cbn [filt filter fst] in Z. destruct (to_port h q0).
      + apply app_inj_tail in Z as [_ Z]. congruence.
      + rewrite app_nil_r in Z. now apply answered_last in Z. }
  destruct C as [C| ->].
  - rewrite C, app_nil_r in E. destruct (told_change _ _ _ _ _ T h q _ _ (outcome_two q o) E) as (es' & T' & F1 & F2).
    exists es', part, owed, pl. split; [exact T'|]. split; [|auto].
    apply (balanced_to h x x' (es ++ [(part, owed)]) _ log _ (outcome_of q o)); auto using written_here, written_there.
    + rewrite ledger_snoc, filt_app, C, app_nil_r. exact F1.
    + rewrite !ledger_snoc, !filt_app. now rewrite F2.
  - destruct Ow as [|(q0 & k & -> & E0)]; [discriminate|]. injection E0 as <-.
    rewrite items_owed, filt_app, filt_answered in E. cbn [filt filter fst] in E. rewrite to_port_of, Pq, Bool.eqb_reflx, app_assoc in E.
    apply app_inj_tail in E as [E _].
    destruct o as [r|].
    + exists es, (part ++ [(q, r)]), None, (k r). split; [exact T|]. split; [|split; [apply GoneFacts.walked_snoc; exact W|auto]].
      apply (balanced_to h x x' (es ++ [(part, Some q)]) _ log _ (outcome_of q (Some r))); auto using written_here, written_there.
      * rewrite ledger_snoc, items_open, answered_app, !filt_app, !filt_answered, app_assoc, E. f_equal.
        unfold at_port. cbn [filter fst]. rewrite to_port_of, Pq, Bool.eqb_reflx. reflexivity.
      * rewrite !ledger_snoc, items_open, items_owed, answered_app, !filt_app. do 2 f_equal.
        cbn [answered map filt filter fst snd]. rewrite to_port_of, Pq, eqb_other. reflexivity.
    + exists es, part, None, (Request q k). split; [exact T|]. split; [|split; [exact W|auto]].
      apply (balanced_to h x x' (es ++ [(part, Some q)]) _ log _ (outcome_of q None)); auto using written_here, written_there.
      * rewrite ledger_snoc, items_open, filt_app, filt_answered, E. cbn [outcome_of]. now rewrite app_nil_r.
      * rewrite !ledger_snoc, items_open, items_owed, !filt_app. f_equal.
        cbn [filt filter fst]. rewrite to_port_of, Pq, eqb_other. now rewrite app_nil_r.
Qed.
Definition with_out (h : bool) (o : list byte) (x : guest) : guest :=
  let u := person x in
  {| person := {| set_level := set_level u; calls := calls u; in_call := in_call u; have := have u; out := set_port h o (out u); inc := inc u |};
     torn := torn x |}.
Lemma with_out_tidy h o x : front h o = None -> tidy x -> tidy (with_out h o x).
Proof.
  intros F Ti h' q rest. unfold with_out. cbn [person out]. either_port h h'.
  - rewrite port_set, F. discriminate.
  - rewrite (port_set_other h). apply Ti.
Qed.
Lemma with_out_pend h o x : front h o = None -> pend h (with_out h o x) = [] /\ pend (negb h) (with_out h o x) = pend (negb h) x.
Proof.
  intros F. unfold pend, with_out. cbn [person out]. rewrite port_set, F, (port_set_other h). auto.
Qed.
Lemma with_out_idle h o x h' : is_torn h x = true -> idle h' x -> idle h' (with_out h o x).
Proof.
  intros T [I1 I2]. split; [exact I1|]. intros T'. change (is_torn h' x = false) in T'. unfold with_out. cbn [person out].
  either_port h h'; [congruence|]. rewrite (port_set_other h). auto.
Qed.
Lemma with_out_stage h o x h' p b pl owed : is_torn h x = true -> stage h' x p b pl owed -> stage h' (with_out h o x) p b pl owed.
Proof.
  intros T St. either_port h h'.
  - eapply stage_torn; eauto.
  - eapply stage_same; eauto. unfold with_out. cbn [person out]. apply port_set_other.
Qed.
(** On a broken port. *)
Lemma torn_out h o n l cs x log : inv n l cs x log -> is_torn h x = true -> front h o = None -> pend h x = [] ->
  inv n l cs (with_out h o x) log.
Proof.
  intros (cs1 & es & T & Ti & Hl & Hc & M) Tn F P. destruct (with_out_pend h o x F) as [P1 P2].
  assert (B : forall es', balanced x es' log -> balanced (with_out h o x) es' log).
  { intros es' B h'. rewrite (B h'). either_port h h'; [now rewrite P, P1|now rewrite P2]. }
  exists cs1, es. split; [exact T|]. split; [now apply with_out_tidy|]. split; [exact Hl|]. split; [exact Hc|].
  change (in_call (person (with_out h o x))) with (in_call (person x)). change (calls (person (with_out h o x))) with (calls (person x)).
  change (set_level (person (with_out h o x))) with (set_level (person x)).
  destruct (in_call (person x)) as [p|].
  - destruct M as (c & pl & part & owed & b & Ecs & El & W & Sc & Br & Id & St & Ba & N).
    exists c, pl, part, owed, b. repeat (split; [assumption|]). split; [now apply with_out_idle|].
    split; [now apply with_out_stage|]. split; [now apply B|exact N].
  - destruct M as (Ecs & El & Id & Ba & N). split; [exact Ecs|]. split; [exact El|]. split; [intros h'; now apply with_out_idle|].
    split; [now apply B|exact N].
Qed.
Lemma torn_out_one h o q r n l cs x log : inv n l cs x log -> is_torn h x = true -> front h o = None -> pend h x = [q] ->
  port_of q = h -> inv n l cs (with_out h o x) (written log q r).
Proof.
  intros (cs1 & es & T & Ti & Hl & Hc & M) Tn F P Pq. destruct (with_out_pend h o x F) as [P1 P2]. unfold inv.
  change (fun h0 => is_torn h0 (with_out h o x)) with (fun h0 => is_torn h0 x). change (have (person (with_out h o x))) with (have (person x)).
  change (in_call (person (with_out h o x))) with (in_call (person x)). change (calls (person (with_out h o x))) with (calls (person x)).
  change (set_level (person (with_out h o x))) with (set_level (person x)).
  destruct (in_call (person x)) as [p|].
  - destruct M as (c & pl & part & owed & b & Ecs & El & W & Sc & Br & Id & St & Ba & N).
    destruct (walked_on _ _ _ _ W (call_on _ _ Sc)) as [Po _].
    destruct (change_open _ _ _ _ _ h x (with_out h o x) q r log part owed _ pl T Ba P Pq P1 P2 W (stage_owed _ _ _ _ _ _ St))
      as (es' & part' & owed' & pl' & T' & B' & W' & C).
    exists cs1, es'. split; [exact T'|]. split; [now apply with_out_tidy|]. split; [exact Hl|]. split; [exact Hc|].
    exists c, pl', part', owed', b. repeat (split; [assumption|]). split; [now apply with_out_idle|].
    split; [|split; [exact B'|exact N]].
    destruct C as [[-> ->]|[-> ->]]; [now apply with_out_stage|].
    assert (Hh : call_port c = h).
    { destruct (stage_owed _ _ _ _ _ _ St) as [|(q0 & k & -> & E0)]; [discriminate|]. injection E0 as <-. destruct Po. congruence. }
    subst h. rewrite Hh in *. inversion St as [| q0 k m Tn'| |pl1 owed1 d Tn' Do I' Ow L]; subst; [congruence|].
    eapply G_doomed; [exact Tn|exact Do|exact I'|auto|exact L].
  - destruct M as (Ecs & El & Id & Ba & N).
    destruct (change_ended _ _ _ _ _ h x (with_out h o x) q r log T Ba P Pq P1 P2) as (es' & T' & B').
    exists cs1, es'. split; [exact T'|]. split; [now apply with_out_tidy|]. split; [exact Hl|]. split; [exact Hc|].
    split; [exact Ecs|]. split; [exact El|]. split; [intros h'; now apply with_out_idle|]. auto.
Qed.

(** ** The machine attends to a port *)
Lemma untorn_out n l cs x log h : inv n l cs x log -> is_torn h x = false -> outs h x <> [] ->
  exists p, in_call (person x) = Some p /\ exists cs1 es c q k part b m, told_of (fun h => is_torn h x) l cs1 es (have (person x))
    /\ cs = cs1 ++ c :: calls (person x) /\ set_level (person x) = level_of l (cs1 ++ [c])
    /\ walked (call_plan (level_of l cs1) c) part (Request q k) /\ stays c /\ call_port c = h /\ brittle err_result h p
    /\ idle (negb h) x /\ balanced x (es ++ [(part, Some q)]) log /\ (b + whole_call * length (calls (person x)) <= n)%nat
    /\ speakable h q /\ no_end q
    /\ (forall r, answer_ok q r -> leads h (implements (k r)) p (framed q (Some r))) /\ within m (Request q k)
    /\ outs h x = spelled q /\ incs h x = [] /\ (m <= b + 1)%nat.
Proof.
  intros (cs1 & es & T & Ti & Hl & Hc & M) Tn O.
  destruct (in_call (person x)) as [p|].
  2:{ destruct M as (_ & _ & Id & _). destruct (Id h) as [_ I2]. now elim O; apply I2. }
  exists p. split; [reflexivity|]. destruct M as (c & pl & part & owed & b & Ecs & El & W & Sc & Br & Id & St & Ba & N).
  either_port (call_port c) h; [|now elim O; apply (proj2 Id)].
  destruct St as [pl m Im Wi [I1 I2] L|q k m Tn' Sp Ne Le Wi O' I' L|pl m s s' Le Wi Ns I' Tn' On L|pl owed d Tn' Do I' Ow L].
  - now elim O; apply I2.
  - exists cs1, es, c, q, k, part, b, m. auto 30.
  - now elim O; apply On.
  - congruence.
Qed.
Lemma attended_none {S} (f : S -> request -> S * list byte) h s x : front h (outs h x) = None ->
  guest_attended (answering f) h s x = (s, x).
Proof.
  intros F. unfold guest_attended. cbn [work got unit_ due]. rewrite F. cbn [unit_ got due].
  destruct x as [[l0 c0 d0 v0 o0 i0] t]. cbn [person torn set_level calls in_call have out inc]. destruct (is_torn _ _); reflexivity.
Qed.
Lemma attended_some {S} (f : S -> request -> S * list byte) h s x q rest : front h (outs h x) = Some (q, rest) ->
  guest_attended (answering f) h s x =
  (fst (f s q), {| person := {| set_level := set_level (person x); calls := calls (person x); in_call := in_call (person x);
      have := have (person x); out := set_port h rest (out (person x));
      inc := if is_torn h x then inc (person x) else set_port h (incs h x ++ framed q (Some (snd (f s q)))) (inc (person x)) |};
      torn := torn x |}).
Proof.
  intros F. unfold guest_attended. cbn [work got unit_ due]. rewrite F. unfold answering. destruct (f s q) as [s' r].
  reflexivity.
Qed.
Definition took {S} (f : S -> request -> S * list byte) (h : bool) (s : S) (x : guest) : trace :=
  match front h (outs h x) with Some (q, _) => [(q, snd (f s q))] | None => [] end.
Lemma takes_step {S} (f : S -> request -> S * list byte) (Hf : polite f) h s n l cs x log : inv n l cs x log ->
  exists n', (n' <= n)%nat /\ inv n' l cs (snd (guest_attended (answering f) h s x)) (log ++ took f h s x)
    /\ (n' = n -> ~ blocked h x /\ forall h', blocked h' (snd (guest_attended (answering f) h s x)) <-> blocked h' x).
Proof.
  intros Inv. assert (Ti : tidy x) by (destruct Inv as (? & ? & _ & Ti & _); exact Ti). unfold took.
  destruct (front h (outs h x)) as [[q rest]|] eqn:F.
  2:{ rewrite (attended_none f h s x F), app_nil_r. exists n. split; [lia|]. split; [exact Inv|]. intros _. split; [|intros; reflexivity].
      intros [Tn O]. destruct (untorn_out _ _ _ _ _ _ Inv Tn O) as (p & _ & cs1 & es & c & q & k & part & b & m & H).
      destruct H as (_ & _ & _ & _ & _ & _ & _ & _ & _ & _ & Sp & _ & _ & _ & Ho & _).
      rewrite Ho, (front_spelled h q Sp) in F. discriminate. }
  rewrite (attended_some f h s x q rest F). cbn [snd]. pose proof (Ti h q rest F) as ->. assert (F' := F).
  apply c81_understood in F' as [Spq Eo]. rewrite app_nil_r in Eo. pose proof (speak_port h q Spq) as Pq.
  destruct (is_torn h x) eqn:Tn.
  - exists n. split; [lia|]. split; [|intros _; split; [intros [X _]; congruence|]].
    + change {| person := _; torn := _ |} with (with_out h [] x). change (log ++ [(q, snd (f s q))]) with (written log q (Some (snd (f s q)))).
      apply torn_out_one; try assumption; [destruct h; reflexivity|]. unfold pend. now rewrite F.
    + intros h'. unfold blocked. change (is_torn h' {| person := _; torn := torn x |}) with (is_torn h' x). cbn [person out].
      either_port h h'; [split; intros [X _]; congruence|]. now rewrite (port_set_other h).
  - assert (On : outs h x <> []) by (rewrite Eo; apply asked_something).
    destruct (untorn_out _ _ _ _ _ _ Inv Tn On) as (p & D & cs1 & es & c & q0 & k & part & b & m & H).
    destruct H as (T & Ecs & El & W & Sc & Hh & Br & Id & Ba & N & Sp & Ne & Le & Wi & Ho & I & Lb).
    assert (q0 = q) as ->. { rewrite Ho, (front_spelled h q0 Sp) in F. congruence. }
    specialize (Hf s q). set (r := snd (f s q)) in *. rewrite I. cbn [app].
    cbn [within] in Wi. destruct Wi as [Wl Wi]. specialize (Wi r Hf). pose proof (answered_short q r Hf) as Sh.
    destruct Inv as (_ & _ & _ & _ & Hl & Hc & _).
    exists (n - 1)%nat. assert (Lg : (20 <= leg)%nat) by (unfold leg, RESP_BUFFER_SIZE; lia).
    split; [lia|]. split; [|intros X; lia].
    exists cs1, es. cbn [person have in_call calls set_level]. split; [exact T|]. split.
    { intros h' q' rest'. cbn [person out]. either_port h h'; [rewrite port_set; destruct h; discriminate|rewrite (port_set_other h); apply Ti]. }
    split; [exact Hl|]. split; [exact Hc|]. rewrite D.
    exists c, (k r), (part ++ [(q, r)]), None, (b - 1)%nat. rewrite Hh.
    split; [exact Ecs|]. split; [exact El|]. split; [apply GoneFacts.walked_snoc; exact W|]. split; [exact Sc|]. split; [exact Br|].
    split; [|split; [|split; [|lia]]].
    + destruct Id as [I1 I2]. split; cbn [person inc out]; rewrite (port_set_other h); assumption.
    + eapply (G_answer _ _ _ _ _ _ (framed q (Some r)) []); rewrite ?app_nil_r; cbn [person inc out];
        [apply Le; exact Hf|exact Wi|apply answered_nonempty; exact Ne|apply port_set|congruence|intros _; apply port_set|].
      unfold leg in *. lia.
    + assert (E := Ba h). unfold pend in E. rewrite F in E. cbn [owing map] in E.
      rewrite ledger_snoc, items_owed, !filt_app, filt_answered in E. cbn [filt filter fst] in E. rewrite to_port_of, Pq, Bool.eqb_reflx, app_assoc in E.
      apply app_inj_tail in E as [E _].
      eapply (balanced_to h x _ (es ++ [(part, Some q)]) _ log _ (outcome_of q (Some r))).
      * apply (written_there h log q (Some r) Pq).
      * apply (written_here h log q (Some r) Pq).
      * apply pend_nothing. cbn [person out]. apply port_set.
      * unfold pend. cbn [person out]. now rewrite (port_set_other h).
      * rewrite ledger_snoc, items_open, answered_app, !filt_app, !filt_answered, app_assoc, E. f_equal.
        unfold at_port. cbn [filter fst]. rewrite to_port_of, Pq, Bool.eqb_reflx. reflexivity.
      * rewrite !ledger_snoc, items_open, items_owed, answered_app, !filt_app. do 2 f_equal.
        cbn [answered map filt filter fst snd]. rewrite to_port_of, Pq, eqb_other. reflexivity.
      * exact Ba.
Qed.

(** ** A port breaks *)
Lemma front_less h a b : front h (firstn a b) <> None -> exists q rest, front h b = Some (q, rest ++ skipn a b) /\ front h (firstn a b) = Some (q, rest).
Proof.
  destruct (front h (firstn a b)) as [[q rest]|] eqn:F; [|congruence]. intros _. exists q, rest. split; [|reflexivity].
  apply c81_understood in F as [Sp E]. apply c81_understood. split; [exact Sp|].
  rewrite app_assoc, <- E. symmetry. apply firstn_skipn.
Qed.
Definition with_torn (h : bool) (keep : nat) (x : guest) : guest :=
  let u := person x in
  {| person := {| set_level := set_level u; calls := calls u; in_call := in_call u; have := have u; out := out u;
                  inc := set_port h (firstn keep (port h (inc u))) (inc u) |};
     torn := tear h (torn x) |}.
Lemma torn_here h keep x : is_torn h (with_torn h keep x) = true.
Proof. destruct h; reflexivity. Qed.
Lemma torn_there h keep x : is_torn (negb h) (with_torn h keep x) = is_torn (negb h) x.
Proof. destruct h; reflexivity. Qed.
Lemma torn_stays h keep x h' : is_torn h' x = true -> is_torn h' (with_torn h keep x) = true.
Proof. destruct h, h'; cbn; auto. Qed.
Lemma tears_first h keep n l cs x log : inv n l cs x log ->
  exists n', (n' <= n)%nat /\ inv n' l cs (with_torn h keep x) log /\ (n' = n -> ~ blocked h x).
Proof.
  intros Inv. assert (Inv' := Inv). destruct Inv' as (cs1 & es & T & Ti & Hl & Hc & M).
  assert (Idl : forall h', idle h' x -> idle h' (with_torn h keep x)).
  { intros h' [I1 I2]. either_port h h'; split.
    - unfold with_torn. cbn [person inc]. rewrite port_set, I1. apply firstn_nil.
    - rewrite torn_here. discriminate.
    - unfold with_torn. cbn [person inc]. rewrite (port_set_other h). exact I1.
    - rewrite torn_there. exact I2. }
  assert (T' : told_of (fun h' => is_torn h' (with_torn h keep x)) l cs1 es (have (person x))).
  { eapply told_more; [|exact T]. intros h'. apply torn_stays. }
  destruct (in_call (person x)) as [p|] eqn:D.
  2:{ exists n. split; [lia|]. split.
      - exists cs1, es. cbn [with_torn person have in_call calls set_level]. rewrite D.
        destruct M as (Ecs & El & Id & Ba & N). repeat (split; [assumption|]). split; [intros h'; apply Idl, Id|]. split; [exact Ba|exact N].
      - intros _ [Tn O]. destruct M as (_ & _ & Id & _). apply O, (Id h), Tn. }
  destruct M as (c & pl & part & owed & b & Ecs & El & W & Sc & Br & Id & St & Ba & N).
  assert (K : exists b' owed', (b' <= b)%nat /\ stage (call_port c) (with_torn h keep x) p b' pl owed'
      /\ balanced x (es ++ [(part, owed')]) log /\ (b' = b -> ~ blocked h x)).
  { either_port (call_port c) h.
    2:{ exists b, owed. split; [lia|]. split; [|split; [exact Ba|]].
        - eapply stage_same; [exact St|reflexivity|unfold with_torn; cbn [person inc]; destruct (call_port c); reflexivity|destruct (call_port c); reflexivity].
        - intros _ [Tn O]. apply O, (proj2 Id), Tn. }
    pose proof (torn_here (call_port c) keep x) as Tn'.
    assert (I' : incs (call_port c) (with_torn (call_port c) keep x) = firstn keep (incs (call_port c) x)) by apply port_set.
    destruct St as [pl m Im Wi [I1 I2] L|q k m Tn Sp Ne Le Wi O I L|pl m s s' Le Wi Ns I Tn On L|pl owed d Tn Do I Ow L].
    - exists b, None. split; [lia|]. split; [|split; [exact Ba|intros _ [Tn O]; apply O, I2, Tn]].
      eapply G_ready; [exact Im|exact Wi| |exact L]. apply Idl. split; assumption.
    - exists (b - 1)%nat, (Some q). assert (Wl := proj1 Wi). assert (Lg : (20 <= leg)%nat) by (unfold leg, RESP_BUFFER_SIZE; lia).
      split; [lia|]. split; [|split; [exact Ba|lia]].
      destruct (some_answer q) as [r Hr]. specialize (Le r Hr) as Lr. pose proof (answered_nonempty q r Ne) as Na.
      inversion Lr as [p' X E1 E2|hn kk q' Hn Hq X E1 E2]; subst; [congruence|].
      inversion Br as [|n' k' Bk D1 D2|]; subst.
      eapply (G_doomed _ _ _ _ _ _ 1); [exact Tn'|apply D_reads; assumption|rewrite I', I; apply firstn_nil|eauto|lia].
    - exists b, None. split; [lia|]. split; [|split; [exact Ba|intros _ [X O]; apply O, On, X]].
      eapply (G_answer _ _ _ _ _ _ (firstn keep s) (skipn keep s ++ s')).
      + rewrite app_assoc, firstn_skipn. exact Le.
      + exact Wi.
      + rewrite app_assoc, firstn_skipn. exact Ns.
      + rewrite I', I. reflexivity.
      + intros _. exact Tn'.
      + rewrite Tn'. discriminate.
      + rewrite app_assoc, firstn_skipn. exact L.
    - exists b, owed. split; [lia|]. split; [|split; [exact Ba|intros _ [X _]; congruence]].
      eapply G_doomed; [exact Tn'|exact Do|rewrite I', I; apply firstn_nil|exact Ow|exact L]. }
  destruct K as (b' & owed' & Lb & St' & Ba' & Bl).
  exists (n - (b - b'))%nat. split; [lia|]. split; [|intros E; apply Bl; lia].
  exists cs1, es. cbn [with_torn person have in_call calls set_level]. rewrite D. repeat (split; [assumption|]).
  exists c, pl, part, owed', b'. repeat (split; [assumption|]). split; [apply Idl, Id|]. split; [exact St'|]. split; [exact Ba'|lia].
Qed.
Lemma guest_torn_out h keep_out keep_in x :
  guest_torn h keep_out keep_in x = with_out h (firstn keep_out (outs h x)) (with_torn h keep_in x).
Proof. reflexivity. Qed.
Lemma set_same h (p : list byte * list byte) : set_port h (port h p) p = p.
Proof. destruct h, p; reflexivity. Qed.
Lemma tears_step h keep_out keep_in n l cs x log : inv n l cs x log ->
  exists n', (n' <= n)%nat /\ inv n' l cs (guest_torn h keep_out keep_in x) log
    /\ (n' = n -> forall h', blocked h' (guest_torn h keep_out keep_in x) <-> blocked h' x).
Proof.
  intros Inv. destruct (tears_first h keep_in n l cs x log Inv) as (n' & L & Inv' & Bl). exists n'. split; [exact L|].
  rewrite guest_torn_out. set (x1 := with_torn h keep_in x) in *. pose proof (torn_here h keep_in x : is_torn h x1 = true) as Tn.
  assert (Ti : tidy x1) by (destruct Inv' as (? & ? & _ & Ti & _); exact Ti).
  split.
  - change (outs h x) with (outs h x1). destruct (front h (firstn keep_out (outs h x1))) as [[q rest]|] eqn:F.
    + destruct (front_less h keep_out (outs h x1)) as (q' & rest' & F1 & F2); [congruence|]. pose proof (Ti h _ _ F1) as E.
      apply app_eq_nil in E as [_ E].
      assert (Eo : firstn keep_out (outs h x1) = outs h x1) by (rewrite <- (firstn_skipn keep_out (outs h x1)) at 2; rewrite E; symmetry; apply app_nil_r).
      rewrite Eo. unfold with_out. rewrite set_same. destruct x1 as [[l0 c0 d0 v0 o0 i0] t]. exact Inv'.
    + destruct (front h (outs h x1)) as [[q rest]|] eqn:F1.
      * replace log with (written log q None) by apply app_nil_r. apply torn_out_one; try assumption; [unfold pend; now rewrite F1|].
        apply (speak_port h). now apply c81_understood in F1.
      * apply torn_out; try assumption. unfold pend. now rewrite F1.
  - intros E h'. specialize (Bl E). either_port h h'.
    + split; [intros [X _]; change (is_torn h x1 = false) in X; congruence|intros X; contradiction].
    + unfold blocked. change (is_torn (negb h) (with_out h (firstn keep_out (outs h x)) x1)) with (is_torn (negb h) x1).
      unfold x1 at 1. rewrite torn_there. unfold with_out. cbn [person out]. now rewrite (port_set_other h).
Qed.
