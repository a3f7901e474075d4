(** What the error of a call tells about it when writes are taken in parts (C116). *)
From Coq Require Import String ZArith NArith List Lia Bool.
From Coq Require Import Init.Byte.
From Verif Require Import Prelude Types Marshal WireSpec Catalogue Errors Tpm2b Client ClientSpec ClientProofs ClientFacts
  Tcp TcpSpec TcpProofs Remote RemoteFacts Controls ControlsFacts Crowd CrowdProofs CrowdFacts Cut Trickle TrickleFacts Telling Hinting.
From Verif Require CutFacts.
Import ListNotations.
Open Scope Z_scope.

(** Programs: [fin ls a] for a call that ends with [a] when [ls] are the bytes
    still to be written. *)
Section Betrays.
Context {A : Type} (fin : list (bool * byte) -> A -> Prop).
Inductive betrays : list (bool * byte) -> talk A -> Prop :=
| betrays_said ls a : fin ls a -> betrays ls (Said a)
| betrays_reads ls h n k : (forall o, from_system o -> betrays ls (k o)) -> betrays ls (Reads h n k)
| betrays_shuts ls h k : (forall o, from_system o -> betrays ls (k o)) -> betrays ls (Shuts h k)
| betrays_writes h bytes ls k :
    (forall n o, (n <= length bytes)%nat -> o = Ok n \/ (exists z, o = Err (System z)) ->
       betrays (map (pair h) (skipn n bytes) ++ ls) (k o)) ->
    betrays (map (pair h) bytes ++ ls) (Writes h bytes k).
End Betrays.
Lemma betrays_next {A B} (fin : list (bool * byte) -> A -> Prop) (fin' : list (bool * byte) -> B -> Prop) ls ls' (p : talk A) (f : A -> talk B) :
  betrays fin ls p -> (forall rest a, fin rest a -> betrays fin' (rest ++ ls') (f a)) -> betrays fin' (ls ++ ls') (next p f).
Proof.
  intros Be T. induction Be as [ls a E|ls h n k _ IH|ls h k _ IH|h bytes ls k _ IH]; cbn [next].
  - now apply T.
  - apply betrays_reads. exact IH.
  - apply betrays_shuts. exact IH.
  - rewrite <- app_assoc. apply betrays_writes. intros n o L O. rewrite app_assoc. now apply IH.
Qed.
(** The outcomes of the functions of the connection but [transact]; fewer than
    [N] bytes are missing once something was to be read. *)
Definition plain {A} (N : nat) (ls : list (bool * byte)) (r : outcome io_error A) : Prop :=
  match r with
  | Ok _ => ls = []
  | Err WriteZero => ls <> []
  | Err UnexpectedEof | Err InvalidData => (length ls < N)%nat
  | Err (System _) | Panic => True
  | _ => False
  end.
Definition whole {A} (N : nat) (ls : list (bool * byte)) (r : outcome io_error A) : Prop :=
  match r with
  | Ok _ | Err InvalidInput | Err (FromTss _) => ls = []
  | _ => plain N ls r
  end.
Lemma plain_whole {A} N ls (r : outcome io_error A) : plain N ls r -> whole N ls r.
Proof. destruct r as [a|[]|]; cbn; tauto. Qed.
Local Notation shows N qs := (betrays (plain N) (in_bytes qs)).
Lemma shows_try {A B} N1 N qs qs' (m : failing A) (f : A -> failing B) :
  (N1 + length (in_bytes qs') <= N)%nat ->
  shows N1 qs m -> (forall a, shows N qs' (f a)) -> shows N (qs ++ qs') (try m f).
Proof.
  intros L M F. rewrite in_bytes_app. eapply betrays_next; [exact M|].
  intros rest [a|e|] Fi.
  - cbn [plain] in Fi. subst rest. apply F.
  - apply betrays_said. destruct e; cbn [plain] in *; auto; rewrite ?app_length; try lia.
    intros X. apply app_eq_nil in X. tauto.
  - apply betrays_said. exact I.
Qed.
Lemma shows_shown {A B} N qs (f : A -> B) m : shows N qs m -> shows N qs (shown f m).
Proof.
  intros M. rewrite <- (app_nil_r (in_bytes qs)). eapply betrays_next; [exact M|].
  intros rest [a|e|] Fi; rewrite app_nil_r; apply betrays_said; exact Fi.
Qed.
Lemma shows_fine {A} N (a : A) : shows N [] (fine a).
Proof. apply betrays_said. reflexivity. Qed.
Definition read_plain (N : nat) (ls : list (bool * byte)) (x : list byte * outcome io_error unit) : Prop := plain N ls (snd x).
Lemma shows_read_loop h N : (1 <= N)%nat -> forall fuel n, betrays (read_plain N) [] (read_loop_t fuel h n).
Proof.
  intros L. induction fuel as [|fuel IH]; intros [|n]; cbn [read_loop_t]; try (apply betrays_said; reflexivity); try (apply betrays_said; exact I).
  apply betrays_reads. intros [[|b bs]|e|] So; try (apply betrays_said; exact L); try (apply betrays_said; exact I).
  - destruct (_ <? _)%nat; [apply betrays_said; exact I|].
    change (@nil (bool * byte)) with (@nil (bool * byte) ++ []). eapply betrays_next; [apply IH|].
    intros rest [bs' r] Fi. apply betrays_said. unfold read_plain in *. cbn [snd] in *. now rewrite app_nil_r.
  - apply betrays_said. unfold read_plain. cbn [snd]. destruct e; try contradiction. exact I.
Qed.
Lemma shows_bytes h n N : (1 <= N)%nat -> shows N [] (read_bytes_t h n).
Proof.
  intros L. change (in_bytes []) with (@nil (bool * byte) ++ []). eapply betrays_next; [apply (shows_read_loop h N L)|].
  intros rest [bs [u|e|]] Fi; rewrite app_nil_r; apply betrays_said; exact Fi.
Qed.
Lemma shows_u32 h N : (1 <= N)%nat -> shows N [] (read_u32_t h).
Proof. intros L. apply (shows_try N N [] []); [cbn; lia|now apply shows_bytes|]. intros a. apply shows_fine. Qed.
Lemma shows_check h N : (1 <= N)%nat -> shows N [] (check_end_t h).
Proof.
  intros L. apply (shows_try N N [] []); [cbn; lia|now apply shows_u32|]. intros z.
  destruct (z =? 0); [apply shows_fine|apply betrays_said; exact L].
Qed.
Lemma shows_shut N h : shows N [] (Shuts h Said).
Proof. apply betrays_shuts. intros [u|e|] So; apply betrays_said; cbn in *; auto. destruct e; try contradiction. exact I. Qed.
Lemma left_to_write (h : bool) n (bytes : list byte) ls : (n < length bytes)%nat -> map (pair h) (skipn n bytes) ++ ls <> [].
Proof. intros L X. apply (f_equal (@length _)) in X. rewrite app_length, map_length, skipn_length in X. cbn in X. lia. Qed.
Lemma shows_whole q bytes N : bytes = spelled q -> shows N [q] (write_whole_t (on_port q) bytes).
Proof.
  intros ->. unfold in_bytes. cbn [flat_map]. unfold write_whole_t, raw_write_t, try. cbn [next]. apply betrays_writes.
  intros n o L [->|(z & ->)]; [|apply betrays_said; exact I].
  destruct (Nat.eqb_spec n (length (spelled q))) as [->|D]; apply betrays_said; cbn [plain].
  - rewrite skipn_all. reflexivity.
  - apply left_to_write. lia.
Qed.
Lemma shows_loop h N : forall fuel buf, (length buf <= fuel)%nat -> betrays (plain N) (map (pair h) buf ++ []) (write_loop_t fuel h buf).
Proof.
  induction fuel as [|fuel IH]; intros [|b buf] L; cbn [write_loop_t].
  - apply shows_fine.
  - apply betrays_said. exact I.
  - apply shows_fine.
  - apply betrays_writes. intros n o Ln [->|(z & ->)]; [|apply betrays_said; exact I].
    destruct n as [|n]; [apply betrays_said; cbn; discriminate|].
    destruct (Nat.ltb_spec (length (b :: buf)) (S n)); [lia|]. apply IH. rewrite skipn_length. cbn [length] in *. lia.
Qed.
Lemma shows_all q bytes N : bytes = spelled q -> shows N [q] (write_all_t (on_port q) bytes).
Proof. intros ->. apply shows_loop. lia. Qed.
Lemma shows_ack q N (m : failing unit) : (1 <= N)%nat -> shows 0%nat [q] m -> forall h, shows N [q] (try m (fun _ => check_end_t h)).
Proof. intros L M h. apply (shows_try 0 N [q] []); [cbn; lia|exact M|]. intros a. now apply shows_check. Qed.
Lemma shows_acks {A} q qs N (m : failing unit) (rest : failing A) h : (length (in_bytes qs) < N)%nat ->
  shows 0%nat [q] m -> shows N qs rest -> shows N (q :: qs) (try m (fun _ => try (check_end_t h) (fun _ => rest))).
Proof.
  intros L M Rs. apply (shows_try 0 N [q] qs); [lia|exact M|]. intros a.
  apply (shows_try 1 N [] qs); [lia|now apply shows_check|]. intros u. exact Rs.
Qed.
Lemma shows_signal N g : (1 <= N)%nat -> shows N [AskSignal g] (signal_t g).
Proof. intros L. apply shows_ack; [exact L|]. apply (shows_all (AskSignal g)). destruct g; reflexivity. Qed.
(** And of [transact] and [run_command]. *)
Definition sent_whole {X} (N : nat) (ls : list (bool * byte)) (x : list byte * outcome io_error X) : Prop := whole N ls (snd x).
Lemma shows_transact loc command response : 0 <= loc < 256 -> Z.of_nat (length command) < 2 ^ 32 ->
  betrays (sent_whole 1) (in_bytes [AskCommand loc command]) (transact_t loc command response).
Proof.
  intros Hl Hc. unfold transact_t.
  replace (2 ^ 32 <=? Z.of_nat (length command)) with false by (symmetry; apply Z.leb_gt; exact Hc).
  rewrite <- (app_nil_r (in_bytes [AskCommand loc command])).
  eapply betrays_next; [apply (shows_try 0 1 [AskCommand loc command] [])|].
  - cbn; lia.
  - now apply (shows_whole (AskCommand loc command)).
  - intros u. now apply shows_u32.
  - intros rest [len|e|] Fi.
    + cbn [plain] in Fi. subst rest. destruct (_ <? _); [apply betrays_said; reflexivity|]. cbv zeta.
      eapply betrays_next; [now apply (shows_read_loop _ 1)|].
      intros rest [bs r] Fr. unfold read_plain in Fr. cbn [snd] in Fr. destruct r as [u|e|].
      * cbn [plain] in Fr. subst rest. rewrite app_nil_r. change (@nil (bool * byte)) with (@nil (bool * byte) ++ []).
        eapply betrays_next; [now apply (shows_check _ 1)|].
        intros rest [[]|e|] Fc; rewrite app_nil_r; apply betrays_said; unfold sent_whole; cbn [snd]; [exact Fc| |exact I].
        destruct e; cbn in *; auto; contradiction.
      * rewrite app_nil_r. apply betrays_said. unfold sent_whole. cbn [snd]. destruct e; cbn in *; auto; contradiction.
      * apply betrays_said. exact I.
    + rewrite app_nil_r. apply betrays_said. unfold sent_whole. cbn [snd]. destruct e; cbn in *; auto; contradiction.
    + apply betrays_said. exact I.
Qed.
Local Notation wholly N qs := (betrays (whole N) (in_bytes qs)).
Lemma shows_wholly {A} N ls (p : failing A) : betrays (plain N) ls p -> betrays (whole N) ls p.
Proof.
  induction 1; [apply betrays_said; now apply plain_whole|now apply betrays_reads|now apply betrays_shuts|now apply betrays_writes].
Qed.
(** Once something is read the first request has passed whole. *)
Definition limit (qs : list request) : nat := match qs with [] => 0 | _ :: more => S (length (in_bytes more)) end.
Lemma wholly_operation loc o : 0 <= loc < 256 -> operation_ok o ->
  wholly (limit (requests_of loc (Call o))) (requests_of loc (Call o)) (operation_t loc o).
Proof.
  intros Hl Ho. destruct o as [command response|data|v|z|g| | | |z|z|z|l'| |]; cbn [operation_t requests_of]; cbn [operation_ok] in Ho.
  - rewrite <- (app_nil_r (in_bytes _)). eapply betrays_next; [apply shows_transact; assumption|].
    intros rest [rsp r] Fi. unfold sent_whole in Fi. cbn [snd] in Fi. rewrite app_nil_r. apply betrays_said. destruct r as [n|e|]; exact Fi.
  - apply shows_wholly, shows_shown. unfold hcrtm_t. set (N := limit _).
    assert (LN : (length (in_bytes [AskHashData data; AskHashEnd]) < N)%nat) by (unfold N, limit; lia).
    change [AskHashData data; AskHashEnd] with ([AskHashData data] ++ [AskHashEnd]) in LN. rewrite in_bytes_app, app_length in LN.
    apply shows_acks; [|now apply (shows_all AskHashStart)|].
    { change [AskHashData data; AskHashEnd] with ([AskHashData data] ++ [AskHashEnd]). rewrite in_bytes_app, app_length. exact LN. }
    apply shows_acks; [lia| |apply shows_ack; [lia|now apply (shows_all AskHashEnd)]].
    apply (shows_whole (AskHashData data)). rewrite Z.mod_small by lia. reflexivity.
  - apply shows_wholly, shows_shown. unfold handshake_t. apply (shows_try 0 1 [AskHandshake v] []); [cbn; lia|now apply (shows_whole (AskHandshake v))|].
    intros u. apply (shows_try 1 1 [] []); [cbn; lia|now apply shows_bytes|]. intros r.
    apply (shows_try 1 1 [] []); [cbn; lia|now apply shows_check|]. intros w. apply shows_fine.
  - apply shows_wholly, shows_shown, shows_ack; [cbn; lia|now apply (shows_whole (AskAlternative z))].
  - apply shows_wholly, shows_shown, shows_signal. cbn; lia.
  - apply shows_wholly, shows_shown. unfold reinit_t.
    do 3 (refine (shows_try 1 _ [_] _ _ _ _ (shows_signal _ _ (le_n 1)) _); [vm_compute; lia|]; intros ?). apply shows_signal. vm_compute; lia.
  - apply shows_wholly, shows_shown, shows_ack; [cbn; lia|now apply (shows_all AskFailureMode)].
  - apply shows_wholly, shows_shown. unfold sizes_t. apply (shows_try 0 1 [AskSizes] []); [cbn; lia|now apply (shows_all AskSizes)|].
    intros u. apply (shows_try 1 1 [] []); [cbn; lia|now apply shows_u32|]. intros n.
    destruct (negb _); [apply betrays_said; cbn; lia|].
    apply (shows_try 1 1 [] []); [cbn; lia|now apply shows_bytes|]. intros r.
    apply (shows_try 1 1 [] []); [cbn; lia|now apply shows_check|]. intros w. apply shows_fine.
  - apply shows_wholly, shows_shown. unfold act_t. apply (shows_try 0 1 [AskAct z] []); [cbn; lia|now apply (shows_whole (AskAct z))|].
    intros u. apply (shows_try 1 1 [] []); [cbn; lia|now apply shows_u32|]. intros n.
    apply (shows_try 1 1 [] []); [cbn; lia|now apply shows_check|]. intros w. apply shows_fine.
  - apply shows_wholly, shows_shown, shows_ack; [cbn; lia|now apply (shows_whole (AskFirmwareHash z))].
  - apply shows_wholly, shows_shown, shows_ack; [cbn; lia|now apply (shows_whole (AskFirmwareSvn z))].
  - apply shows_wholly, shows_fine.
  - apply shows_wholly, shows_shown. unfold end_both_t. apply (shows_try 0 _ [AskEnd true] [AskEnd false]); [vm_compute; lia|now apply (shows_all (AskEnd true))|].
    intros u1. apply (shows_try 0 _ [] [AskEnd false]); [vm_compute; lia|apply shows_shut|]. intros u2.
    apply (shows_try 0 _ [AskEnd false] []); [vm_compute; lia|now apply (shows_all (AskEnd false))|]. intros u3. apply shows_shut.
  - apply shows_wholly, shows_shown. unfold end_both_t. apply (shows_try 0 _ [AskStop true] [AskStop false]); [vm_compute; lia|now apply (shows_all (AskStop true))|].
    intros u1. apply (shows_try 0 _ [] [AskStop false]); [vm_compute; lia|apply shows_shut|]. intros u2.
    apply (shows_try 0 _ [AskStop false] []); [vm_compute; lia|now apply (shows_all (AskStop false))|]. intros u3. apply shows_shut.
Qed.
Lemma wholly_command loc c cmd handles a : 0 <= loc < 256 -> valid_call c cmd handles a ->
  wholly (limit (requests_of loc (RunCommand c cmd handles a))) (requests_of loc (RunCommand c cmd handles a)) (command_t loc c cmd handles a).
Proof.
  intros Hl V. unfold command_t, requests_of.
  destruct (Z.leb_spec (Z.of_nat (length (command_frame c cmd handles a))) 4096) as [L|L].
  - rewrite (build_frame c cmd handles a V L).
    rewrite <- (app_nil_r (in_bytes _)). eapply betrays_next; [apply shows_transact; [exact Hl|lia]|].
    intros rest [rsp r] Fi. unfold sent_whole in Fi. cbn [snd] in Fi. rewrite app_nil_r. apply betrays_said.
    destruct r as [n|e|]; [|exact Fi..]. cbn [whole] in Fi. destruct (parse_response c a rsp); cbn; auto.
  - destruct (build_too_long c cmd handles a V) as [E|E]; [unfold fits; lia| |]; rewrite E; apply betrays_said; cbn; auto.
Qed.

(** ** Over the network *)
Lemma whole_hints {A} reqs part rest (r : outcome io_error A) :
  in_bytes reqs = part ++ rest -> whole (limit reqs) rest r -> hints reqs part r.
Proof.
  intros E W.
  assert (Early : (length rest < limit reqs)%nat -> exists q more extra, reqs = q :: more /\ part = in_bytes [q] ++ extra).
  { intros L. destruct reqs as [|q more]; cbn [limit] in L; [lia|].
    change (q :: more) with ([q] ++ more) in E. rewrite in_bytes_app in E.
    exists q, more, (skipn (length (in_bytes [q])) part). split; [reflexivity|].
    assert (Ll : (length (in_bytes [q]) <= length part)%nat) by (apply (f_equal (@length _)) in E; rewrite !app_length in E; lia).
    apply (f_equal (firstn (length (in_bytes [q])))) in E. rewrite !firstn_app, Nat.sub_diag, firstn_all in E.
    replace (length (in_bytes [q]) - length part)%nat with 0%nat in E by lia. cbn [firstn] in E. rewrite !app_nil_r in E.
    rewrite E at 2. rewrite E at 1. rewrite firstn_length, Nat.min_l by exact Ll. now rewrite firstn_skipn. }
  destruct r as [a|[]|]; cbn in *; auto; try (subst rest; now rewrite app_nil_r in E).
  intros ->. apply W. rewrite <- (app_nil_r (in_bytes reqs)) in E at 1. now apply app_inv_head in E.
Qed.
Section Over.
Context {R S : Type} (adv : mercy R S) (f : machine S) (Ho : honest adv).
Local Notation sys := (trickling adv f).
Lemma run_betrays {A} fin (p : talk A) ls : betrays fin ls p -> forall l s w, heeded f s w ->
  exists w' a part rest, run_talk sys (port_ends l) p w = (w', a) /\ ls = part ++ rest /\ passed w' = passed w ++ part
    /\ fin rest a /\ heeded f s w'.
Proof.
  destruct Ho as (Ht & Hg & Hcl).
  induction 1 as [ls a E|ls h n k _ IH|ls h k _ IH|h bytes ls k _ IH]; intros l s w K; cbn [run_talk].
  - exists w, a, [], ls. rewrite app_nil_r. auto.
  - cbn [read trickling]. pose proof (Hg (humour w) (beyond w) (stream (port_ends l) h) n) as So. destruct (gives adv _ _ _ _) as [r o].
    apply (IH o So l s {| humour := r; passed := passed w; beyond := beyond w |}). exact K.
  - cbn [shutdown trickling]. pose proof (Hcl (humour w) (stream (port_ends l) h)) as So. destruct (closes adv _ _) as [r o].
    apply (IH o So l s {| humour := r; passed := passed w; beyond := beyond w |}). exact K.
  - replace (stream (port_ends l) h) with h by (destruct h; reflexivity).
    cbn [write trickling]. pose proof (Ht (humour w) (beyond w) h bytes) as So. destruct (takes_some adv _ _ _ _) as [[r k0] e]. cbn [snd] in So.
    set (n := Nat.min k0 (length bytes)). assert (Ln : (n <= length bytes)%nat) by (unfold n; lia). clearbody n.
    set (w1 := {| humour := r; passed := _; beyond := _ |}).
    assert (K1 : heeded f s w1).
    { destruct K as [K1 K2]. destruct (arrives_reads f h (firstn n bytes) (beyond w)) as [A1 A2].
      { rewrite K2. apply left_over_partial, nothing_kept. }
      unfold w1, heeded. cbn [beyond passed]. rewrite A1, A2, standing_app, left_over_app, does_app, <- K1, <- K2. auto. }
    destruct (IH n (match e with Some e => Err e | None => Ok n end) Ln) with (l := l) (s := s) (w := w1)
      as (w' & a & part & rest & Er & El & Ep & Fi & K'); [|exact K1|].
    { destruct e as [[]|]; try contradiction; eauto. }
    exists w', a, (map (pair h) (firstn n bytes) ++ part), rest. split; [exact Er|].
    split; [now rewrite <- app_assoc, <- El, app_assoc, <- map_app, firstn_skipn|].
    split; [|auto]. rewrite Ep. unfold w1. cbn [passed]. now rewrite app_assoc.
Qed.
Lemma calls_hinted : forall calls l s w, 0 <= l < 256 -> Forall proper_call calls -> heeded f s w ->
  exists w' rs parts, calls_over sys (port_ends l) w calls = (w', rs) /\ hinted l calls parts rs
    /\ passed w' = passed w ++ concat parts /\ heeded f s w'.
Proof.
  induction calls as [|x calls IH]; intros l s w Hl Hc K.
  { exists w, [], []. split; [reflexivity|]. split; [constructor|]. split; [cbn; now rewrite app_nil_r|exact K]. }
  inversion Hc as [|? ? Hx Hc']; subst. pose proof (CutFacts.past_ok l x Hl Hx) as Hl'.
  assert (H : exists w1 r part rest,
    calls_over sys (port_ends l) w (x :: calls)
      = (let '(w2, rs) := calls_over sys (port_ends (locality_past l x)) w1 calls in (w2, r :: rs))
    /\ in_bytes (requests_of l x) = part ++ rest /\ passed w1 = passed w ++ part
    /\ hints_result (requests_of l x) part r /\ heeded f s w1).
  { destruct (c102_program _ _ _ sys (port_ends l)) as [P1 P2]. change (locality (port_ends l)) with l in *.
    destruct x as [o|c cmd handles a]; cbn [calls_over locality_past proper_call] in *.
    - destruct (run_betrays _ _ _ (wholly_operation l o Hl Hx) l s w K) as (w1 & a & part & rest & Er & El & Ep & Fi & K1).
      specialize (P1 o w). rewrite Er in P1. rewrite P1.
      exists w1, (Called a), part, rest. split.
      { replace (match o with Locality l0 => set_locality (port_ends l) l0 | _ => port_ends l end)
          with (port_ends (locality_after l o)) by (destruct o; reflexivity). reflexivity. }
      split; [exact El|]. split; [exact Ep|]. split; [|exact K1]. eapply whole_hints; eassumption.
    - destruct (run_betrays _ _ _ (wholly_command l c cmd handles a Hl Hx) l s w K) as (w1 & r & part & rest & Er & El & Ep & Fi & K1).
      specialize (P2 c cmd handles a w). rewrite Er in P2. rewrite <- P2.
      exists w1, (Ran r), part, rest. split; [reflexivity|].
      split; [exact El|]. split; [exact Ep|]. split; [|exact K1]. eapply whole_hints; eassumption. }
  destruct H as (w1 & r & part & rest & Er & El & Ep & Hi & K1).
  destruct (IH (locality_past l x) s w1 Hl' Hc' K1) as (w2 & rs & parts & E2 & B & Ep2 & K2).
  rewrite Er, E2. exists w2, (r :: rs), (part :: parts).
  split; [reflexivity|]. split; [econstructor; eassumption|]. split; [|exact K2]. cbn [concat]. now rewrite Ep2, Ep, <- app_assoc.
Qed.
End Over.

(** ** C116 *)

(** A session over a network that takes of every write as many bytes as it
    likes, and may report an error of the operating system even then.  Of every
    call the first so many bytes passed, and its outcome tells about them:
    success, a response that does not fit, or an error of the library means that
    all passed; that a write got nowhere, that not all did; the end of the
    stream, or an invalid answer, that those of the first request did.  The
    machine has done what stands in these bytes. *)
Theorem c116_stream R S (adv : mercy R S) (f : machine S) r0 l s calls :
  honest adv -> 0 <= l < 256 -> Forall proper_call calls ->
  exists w rs parts,
    calls_over (trickling adv f) (port_ends l) {| humour := r0; passed := []; beyond := quiet s |} calls = (w, rs)
    /\ hinted l calls parts rs
    /\ passed w = concat parts
    /\ unit_ (beyond w) = does f s (standing ([], []) (concat parts)).
Proof.
  intros Ho Hl Hc.
  destruct (calls_hinted adv f Ho calls l s {| humour := r0; passed := []; beyond := quiet s |} Hl Hc) as (w & rs & parts & E & B & P & K1 & _).
  { split; reflexivity. }
  cbn [passed app] in P. rewrite P in K1. exists w, rs, parts. auto.
Qed.

Lemma standing_begun q n : speakable (on_port q) q -> (n < length (spelled q))%nat ->
  standing ([], []) (firstn n (in_bytes [q])) = [].
Proof.
  intros Sp L. unfold in_bytes. cbn [flat_map]. rewrite app_nil_r, firstn_map.
  destruct (standing_run (on_port q) (firstn n (spelled q)) ([], []) [] (firstn n (spelled q)) nothing_kept) as [-> _]; auto.
  - destruct (on_port q); reflexivity.
  - now apply CutFacts.front_begun.
Qed.
(** The whole requests in the first so many bytes of some. *)
Lemma standing_part : forall qs part rest, Forall (fun q => speakable (on_port q) q) qs -> in_bytes qs = part ++ rest ->
  exists done missing, qs = done ++ missing /\ standing ([], []) part = done
    /\ (part = in_bytes qs -> missing = []) /\ (part <> in_bytes qs -> missing <> [])
    /\ forall q more extra, qs = q :: more -> part = in_bytes [q] ++ extra -> done <> [].
Proof.
  induction qs as [|q qs IH]; intros part rest Sp E.
  { symmetry in E. apply app_eq_nil in E as [-> ->]. exists [], []. split; [reflexivity|]. split; [reflexivity|]. split; [reflexivity|].
    split; [intros X; now contradiction X|]. intros q more extra X. discriminate X. }
  inversion Sp as [|? ? Sq Sp']; subst. pose proof E as E0. change (q :: qs) with ([q] ++ qs) in E. rewrite in_bytes_app in E.
  destruct (Nat.le_gt_cases (length (in_bytes [q])) (length part)) as [L|L].
  - assert (P : exists part', part = in_bytes [q] ++ part' /\ in_bytes qs = part' ++ rest).
    { exists (skipn (length (in_bytes [q])) part). split.
      - apply (f_equal (firstn (length (in_bytes [q])))) in E. rewrite !firstn_app, Nat.sub_diag, firstn_all in E.
        replace (length (in_bytes [q]) - length part)%nat with 0%nat in E by lia. cbn [firstn] in E. rewrite !app_nil_r in E.
        rewrite E at 1. symmetry. apply firstn_skipn.
      - apply (f_equal (skipn (length (in_bytes [q])))) in E. rewrite !skipn_app, Nat.sub_diag, skipn_all in E.
        replace (length (in_bytes [q]) - length part)%nat with 0%nat in E by lia. exact E. }
    destruct P as (part' & -> & E'). destruct (IH part' rest Sp' E') as (done & missing & -> & St & W1 & W2 & _).
    exists (q :: done), missing. split; [reflexivity|].
    split; [rewrite c113_whole by (constructor; [exact Sq|constructor]); now rewrite St|].
    change (q :: done ++ missing) with ([q] ++ (done ++ missing)). rewrite (in_bytes_app [q]). split; [|split].
    + intros X. apply app_inv_head in X. auto.
    + intros X. apply W2. intros Y. apply X. now rewrite Y.
    + intros. discriminate.
  - exists [], (q :: qs). split; [reflexivity|].
    assert (P : part = firstn (length part) (in_bytes [q])).
    { apply (f_equal (firstn (length part))) in E. rewrite !firstn_app, Nat.sub_diag, firstn_all in E.
      replace (length part - length (in_bytes [q]))%nat with 0%nat in E by lia. cbn [firstn] in E. now rewrite !app_nil_r in E. }
    assert (Lq : length (in_bytes [q]) = length (spelled q)) by (unfold in_bytes; cbn [flat_map]; now rewrite app_nil_r, map_length).
    split; [rewrite P; apply standing_begun; [exact Sq|lia]|]. split; [|split].
    + intros X. exfalso. rewrite X in L. change (q :: qs) with ([q] ++ qs) in L. rewrite in_bytes_app, app_length in L. lia.
    + discriminate.
    + intros q0 more extra X Y. injection X as <- <-. exfalso. rewrite Y, app_length in L. lia.
Qed.

(** A program that stops at the first call that did not ask for everything: the
    machine has done all requests of the calls before and the first requests of
    the last one, nothing else, and its outcome tells about them as in
    [c116_session]. *)
Theorem c116_stop R S (adv : mercy R S) (f : machine S) r0 l s calls x :
  honest adv -> 0 <= l < 256 -> Forall proper_call (calls ++ [x]) ->
  exists w rs r,
    calls_over (trickling adv f) (port_ends l) {| humour := r0; passed := []; beyond := quiet s |} (calls ++ [x]) = (w, rs ++ [r])
    /\ length rs = length calls
    /\ (forallb completed rs = true ->
        exists done missing, requests_of (fold_left locality_past calls l) x = done ++ missing
          /\ tells_result done missing r
          /\ unit_ (beyond w) = does f s (all_requests l calls ++ done)).
Proof.
  intros Ho Hl Hc.
  destruct (c116_stream R S adv f r0 l s (calls ++ [x]) Ho Hl Hc) as (w & rs0 & parts & E & B & _ & U).
  set (reqs := requests_of (fold_left locality_past calls l) x).
  assert (H : exists rs r part more, rs0 = rs ++ [r] /\ length rs = length calls /\ in_bytes reqs = part ++ more /\ hints_result reqs part r
    /\ Forall (fun q => speakable (on_port q) q) reqs
    /\ (forallb completed rs = true -> concat parts = in_bytes (all_requests l calls) ++ part /\ Forall (fun q => speakable (on_port q) q) (all_requests l calls))).
  { subst reqs. clear E U. revert l rs0 parts Hl Hc B. induction calls as [|y calls IH]; intros l rs0 parts Hl Hc B; cbn [app fold_left all_requests] in *.
    - inversion B as [|? ? ? part rest parts' r rs' E1 E2 B']; subst. inversion B'; subst. inversion Hc; subst.
      exists [], r, part, rest. repeat (split; [first [reflexivity|assumption]|]). split; [now apply requests_speakable|].
      intros _. cbn [concat]. rewrite app_nil_r. split; [reflexivity|constructor].
    - inversion B as [|? ? ? part rest parts' r rs' E1 E2 B']; subst. inversion Hc as [|? ? Hy Hc']; subst.
      destruct (IH _ _ _ (CutFacts.past_ok l y Hl Hy) Hc' B') as (rs & r1 & part1 & more & -> & Ln & Eq & Hi & Sp & Co).
      exists (r :: rs), r1, part1, more. split; [reflexivity|]. split; [cbn; now rewrite Ln|]. repeat (split; [assumption|]).
      cbn [forallb]. intros X. apply andb_prop in X as [X1 X2]. destruct (Co X2) as [C1 C2]. split.
      + cbn [concat]. rewrite C1, in_bytes_app, <- app_assoc. f_equal.
        destruct r as [[y0|[]|]|[y0|[]|]]; try discriminate X1; exact E2.
      + apply Forall_app. split; [now apply requests_speakable|exact C2]. }
  destruct H as (rs & r & part & more & -> & Ln & Eq & Hi & Sp & Co).
  exists w, rs, r. split; [exact E|]. split; [exact Ln|]. intros Cm. destruct (Co Cm) as [Ec Sa].
  destruct (standing_part reqs part more Sp Eq) as (done & missing & Er & St & W1 & W2 & W3).
  exists done, missing. split; [exact Er|]. split; [|rewrite U, Ec, c113_whole by exact Sa; now rewrite St].
  assert (T : forall A (o : outcome io_error A), hints reqs part o -> tells done missing o).
  { intros A [a|[]|]; cbn [hints tells]; auto; intros (q0 & more0 & extra & Y1 & Y2); eauto. }
  destruct r; cbn [hints_result tells_result] in *; auto.
Qed.

(** So the result of a call that makes one request, after such calls, says
    whether it was done - unless the operating system reported an error, or the
    call panicked. *)
Theorem c116_parts R S (adv : mercy R S) (f : machine S) r0 l s calls x q :
  honest adv -> 0 <= l < 256 -> Forall proper_call (calls ++ [x]) ->
  requests_of (fold_left locality_past calls l) x = [q] ->
  exists w rs r,
    calls_over (trickling adv f) (port_ends l) {| humour := r0; passed := []; beyond := quiet s |} (calls ++ [x]) = (w, rs ++ [r])
    /\ length rs = length calls
    /\ (forallb completed rs = true -> uninformative r = false ->
        unit_ (beyond w) = does f s (all_requests l calls ++ (if says_undone r then [] else [q]))).
Proof.
  intros Ho Hl Hc Hx. destruct (c116_stop R S adv f r0 l s calls x Ho Hl Hc) as (w & rs & r & E & Ln & H).
  exists w, rs, r. split; [exact E|]. split; [exact Ln|]. intros Cm In. destruct (H Cm) as (done & missing & Rq & Te & ->).
  rewrite Hx in Rq. f_equal. f_equal. destruct done as [|q1 done]; cbn [app] in Rq.
  - subst missing. destruct r as [[y|[]|]|[y|[]|]]; cbn in *; congruence || contradiction.
  - injection Rq as <- Rq. symmetry in Rq. apply app_eq_nil in Rq. destruct Rq as [-> ->].
    destruct r as [[y|[]|]|[y|[]|]]; cbn in *; try reflexivity; try congruence; contradiction.
Qed.

(** A network that takes at most three bytes at a time, and whose answers end
    at once: codes get through in two parts, but not a command, of which only the
    first three bytes pass. *)
Definition sparing : mercy unit (list request) := {|
  takes_some := fun r _ _ _ => (r, 3%nat, None);
  gives := fun r _ _ _ => (r, Ok []);
  closes := fun r _ => (r, Ok tt) |}.
Example c116_parts_example :
  let x := Call (Transact [x80; x01] (repeat x00 16)) in
  let calls := [Call (Locality 2); Call EndSession] in
  honest sparing /\ Forall proper_call (calls ++ [x])
  /\ requests_of (fold_left locality_past calls 0) x = [AskCommand 2 [x80; x01]]
  /\ (let '(w, rs) := calls_over (trickling sparing CutFacts.keeping) (port_ends 0) {| humour := tt; passed := []; beyond := quiet [] |} (calls ++ [x]) in
      forallb completed (firstn 2 rs) = true /\ skipn 2 rs = [Called (Err WriteZero)]
      /\ unit_ (beyond w) = [AskEnd true; AskEnd false])
  /\ (let '(w, rs) := calls_over (trickling sparing CutFacts.keeping) (port_ends 0) {| humour := tt; passed := []; beyond := quiet [] |} [Call FailureMode] in
      rs = [Called (Err UnexpectedEof)] /\ unit_ (beyond w) = [AskFailureMode]).
Proof.
  cbv zeta. split; [|split; [|split; [reflexivity|split; vm_compute; auto]]].
  - repeat split; intros; exact I.
  - repeat constructor; cbn; lia.
Qed.
(** The same, but everything is acknowledged: a measurement stops after its
    start. *)
Definition sparing_acks : mercy unit (list request) := {|
  takes_some := fun r _ _ _ => (r, 3%nat, None);
  gives := fun r _ _ n => (r, Ok (repeat x00 n));
  closes := fun r _ => (r, Ok tt) |}.
Example c116_stop_example :
  let calls := [Call FailureMode; Call Reinit] in
  honest sparing_acks /\ Forall proper_call (calls ++ [Call (Hcrtm [x61])])
  /\ (let '(w, rs) := calls_over (trickling sparing_acks CutFacts.keeping) (port_ends 0) {| humour := tt; passed := []; beyond := quiet [] |}
        (calls ++ [Call (Hcrtm [x61])]) in
      forallb completed (firstn 2 rs) = true /\ skipn 2 rs = [Called (Err WriteZero)]
      /\ unit_ (beyond w) = all_requests 0 calls ++ [AskHashStart]).
Proof.
  cbv zeta. split; [|split; [|vm_compute; auto]].
  - repeat split; intros; exact I.
  - repeat constructor; cbn; lia.
Qed.
