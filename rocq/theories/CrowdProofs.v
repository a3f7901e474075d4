(** Calls of several users of a simulator, and what they ask of it (C102). *)
From Coq Require Import String ZArith NArith List Lia Bool.
From Coq Require Import Init.Byte.
From Verif Require Import Prelude Types Marshal WireSpec Catalogue Errors Tpm2b Client ClientSpec ClientProofs ClientFacts
  Tcp TcpSpec TcpProofs RemoteFacts Controls ControlsFacts Crowd.
From Verif Require Clients ClientsFacts.
Import ListNotations.
Open Scope Z_scope.

(** ** The calls are those of Tcp.v *)
Section Same.
Context {W H C : Type} (sys : world W H C) (c : tcp H).
Local Notation run := (run_talk sys c).
Lemma run_next {A B} (p : talk A) (f : A -> talk B) w :
  run (next p f) w = let '(w', a) := run p w in run (f a) w'.
Proof.
  revert w. induction p as [a|h bs k IH|h n k IH|h k IH]; intros w; cbn [next run_talk]; [reflexivity|..].
  - destruct (write sys w (stream c h) bs) as [w' o]. apply IH.
  - destruct (read sys w (stream c h) n) as [w' o]. apply IH.
  - destruct (shutdown sys w (stream c h)) as [w' o]. apply IH.
Qed.
Definition is {A} (m : failing A) (m' : io W A) : Prop := forall w, run m w = m' w.
Lemma run_try {A B} (m : failing A) m' (f : A -> failing B) f' :
  is m m' -> (forall a, is (f a) (f' a)) -> is (try m f) (m' >>= f').
Proof.
  intros M F w. unfold try, io_bind. rewrite run_next, M. destruct (m' w) as [w' [a|e|]]; [apply F|reflexivity..].
Qed.
Lemma run_fine {A} (a : A) : is (fine a) (io_ret a).
Proof. intros w. reflexivity. Qed.
Lemma run_fails {A} e : is (@fails A e) (io_err e).
Proof. intros w. reflexivity. Qed.
Lemma run_if {A} (b : bool) (m n : failing A) m' n' : is m m' -> is n n' -> is (if b then m else n) (if b then m' else n').
Proof. intros M N. destruct b; assumption. Qed.
Lemma run_write_loop h : forall fuel buf, is (write_loop_t fuel h buf) (write_loop sys fuel (stream c h) buf).
Proof.
  induction fuel as [|fuel IH]; intros [|b buf] w; try reflexivity.
  cbn [write_loop_t write_loop run_talk]. destruct (write sys w (stream c h) (b :: buf)) as [w' [[|n]|e|]]; try reflexivity.
  destruct (length (b :: buf) <? S n)%nat; [reflexivity|]. apply IH.
Qed.
Lemma run_write_all h buf : is (write_all_t h buf) (write_all sys (stream c h) buf).
Proof. apply run_write_loop. Qed.
Lemma run_read_loop h : forall fuel n w,
  run (read_loop_t fuel h n) w = let '(w', bs, r) := read_loop sys fuel (stream c h) n w in (w', (bs, r)).
Proof.
  induction fuel as [|fuel IH]; intros [|n] w; try reflexivity.
  cbn [read_loop_t read_loop run_talk]. destruct (read sys w (stream c h) (S n)) as [w' [[|b bs]|e|]]; try reflexivity.
  destruct (S n <? length (b :: bs))%nat; [reflexivity|].
  rewrite run_next, IH. destruct (read_loop sys fuel (stream c h) (S n - length (b :: bs)) w') as [[w'' rest] r]. reflexivity.
Qed.
Lemma run_read_bytes h n : is (read_bytes_t h n) (read_bytes sys (stream c h) n).
Proof.
  intros w. unfold read_bytes_t, read_bytes, read_exact. rewrite run_next, run_read_loop.
  destruct (read_loop sys n (stream c h) n w) as [[w' bs] r]. reflexivity.
Qed.
Lemma run_u32 h : is (read_u32_t h) (read_u32 sys (stream c h)).
Proof. apply run_try; [apply run_read_bytes|intros; apply run_fine]. Qed.
Lemma run_write_whole h bytes : is (write_whole_t h bytes) (write_whole sys (stream c h) bytes).
Proof.
  apply run_try; [|intros n; apply run_if; [apply run_fine|apply run_fails]].
  intros w. cbn [raw_write_t run_talk]. destruct (write sys w (stream c h) bytes); reflexivity.
Qed.
Lemma run_check h : is (check_end_t h) (check_response_end sys (stream c h)).
Proof. apply run_try; [apply run_u32|]. intros z. apply run_if; [apply run_fine|apply run_fails]. Qed.
Lemma run_shut h : is (Shuts h Said) (fun w => shutdown sys w (stream c h)).
Proof. intros w. cbn [run_talk]. destruct (shutdown sys w (stream c h)); reflexivity. Qed.
Lemma run_shown {A B} (f : A -> B) m m' : is m m' ->
  forall w, run (shown f m) w = (fst (m' w), omap f (snd (m' w))).
Proof. intros M w. unfold shown. rewrite run_next, M. destruct (m' w) as [w' r]. reflexivity. Qed.
Lemma run_transact w cmd rsp :
  run (transact_t (locality c) cmd rsp) w = let '(w', rsp', r) := tcp_transact sys c w cmd rsp in (w', (rsp', r)).
Proof.
  unfold transact_t, tcp_transact. destruct (2 ^ 32 <=? Z.of_nat (length cmd)); [reflexivity|].
  rewrite run_next.
  rewrite (run_try _ _ _ (fun _ => read_u32 sys (tpm_tcp c)) (run_write_whole true _) (fun _ => run_u32 true)).
  change (stream c true) with (tpm_tcp c). cbv zeta.
  destruct ((write_whole sys (tpm_tcp c) _ >>= _) w) as [w2 [len|e|]]; try reflexivity.
  destruct (Z.of_nat (length rsp) <? len); [reflexivity|]. unfold read_exact.
  rewrite run_next, run_read_loop. change (stream c true) with (tpm_tcp c).
  destruct (read_loop sys (Z.to_nat len) (tpm_tcp c) (Z.to_nat len) w2) as [[w3 bs] [[]|e|]]; try reflexivity.
  rewrite run_next, (run_check true). change (stream c true) with (tpm_tcp c).
  destruct (check_response_end sys (tpm_tcp c) w3) as [w4 r]. reflexivity.
Qed.
End Same.
Ltac same_port h :=
  first [exact (run_write_all _ _ h _)|exact (run_write_whole _ _ h _)|exact (run_check _ _ h)|exact (run_u32 _ _ h)
        |exact (run_read_bytes _ _ h _)|exact (run_shut _ _ h)].
Ltac same_call :=
  repeat (intros; first [same_port true|same_port false|apply run_fine|apply run_fails|apply run_try|apply run_if]).

(** ** Reading an answer, in whatever pieces *)
Inductive yields {A} (h : bool) : talk A -> list byte -> A -> list byte -> Prop :=
| Y_said a q : yields h (Said a) q a q
| Y_reads n k q a q' : (0 < n)%nat -> q <> [] ->
    (forall m, (1 <= m)%nat -> (m <= Nat.min n (length q))%nat -> yields h (k (Ok (firstn m q))) (skipn m q) a q') ->
    yields h (Reads h n k) q a q'.
Lemma yields_next {A B} h (p : talk A) (f : A -> talk B) q a q' b q'' :
  yields h p q a q' -> yields h (f a) q' b q'' -> yields h (next p f) q b q''.
Proof.
  induction 1 as [a q|n k q a q' Hn Hq _ IH]; intros Y; cbn [next]; [exact Y|].
  apply Y_reads; [assumption..|]. intros m M1 M2. apply IH; assumption.
Qed.
Lemma yields_read h rest : forall fuel bs, (length bs <= fuel)%nat ->
  yields h (read_loop_t fuel h (length bs)) (bs ++ rest) (bs, Ok tt) rest.
Proof.
  induction fuel as [|fuel IH]; intros [|b bs] L; cbn [read_loop_t length]; try apply Y_said; [cbn in L; lia|].
  apply Y_reads; [lia|discriminate|]. intros m M1 M2. rewrite app_length in M2. cbn [length] in M2, L.
  rewrite firstn_app_le, skipn_app_le by (cbn [length]; lia).
  assert (Lf : length (firstn m (b :: bs)) = m) by (rewrite firstn_length; cbn [length]; lia).
  destruct (firstn m (b :: bs)) as [|b' fs] eqn:Ef; [cbn in Lf; lia|]. rewrite Lf.
  replace (S (length bs) <? m)%nat with false by (symmetry; apply Nat.ltb_ge; lia).
  eapply yields_next.
  - replace (S (length bs) - m)%nat with (length (skipn m (b :: bs))) by (rewrite skipn_length; reflexivity).
    apply IH. rewrite skipn_length. cbn [length]. lia.
  - cbv beta iota. rewrite <- Ef, firstn_skipn. apply Y_said.
Qed.
Lemma yields_bytes h n bs rest : length bs = n -> yields h (read_bytes_t h n) (bs ++ rest) (Ok bs) rest.
Proof. intros <-. eapply yields_next; [apply yields_read; apply Nat.le_refl|]. apply Y_said. Qed.
Lemma yields_try {A B} h (m : failing A) (f : A -> failing B) q a q' b q'' :
  yields h m q (Ok a) q' -> yields h (f a) q' b q'' -> yields h (try m f) q b q''.
Proof. intros M F. eapply yields_next; [exact M|exact F]. Qed.
Lemma yields_u32 h bs rest : length bs = 4%nat -> yields h (read_u32_t h) (bs ++ rest) (Ok (be_val bs)) rest.
Proof. intros L. eapply yields_try; [apply yields_bytes; exact L|apply Y_said]. Qed.
Lemma yields_check h : yields h (check_end_t h) [x00; x00; x00; x00] (Ok tt) [].
Proof.
  eapply yields_try; [rewrite <- (app_nil_r [x00; x00; x00; x00]); apply yields_u32; reflexivity|]. apply Y_said.
Qed.
(** Until all is read. *)
Inductive leads {A} (h : bool) (P : talk A -> Prop) : talk A -> list byte -> Prop :=
| L_there p : P p -> leads h P p []
| L_reads n k q : (0 < n)%nat -> q <> [] ->
    (forall m, (1 <= m)%nat -> (m <= Nat.min n (length q))%nat -> leads h P (k (Ok (firstn m q))) (skipn m q)) ->
    leads h P (Reads h n k) q.
Lemma leads_next {A B} h (P : talk A -> Prop) (Q : talk B -> Prop) p q (f : A -> talk B) :
  leads h P p q -> (forall p', P p' -> Q (next p' f)) -> leads h Q (next p f) q.
Proof.
  intros L F. induction L as [p H|n k q Hn Hq _ IH]; [apply L_there; auto|]. cbn [next]. apply L_reads; auto.
Qed.
Lemma yields_leads {A} h (p : talk A) q a : yields h p q a [] -> leads h (fun p' => p' = Said a) p q.
Proof.
  intros Y. remember (@nil byte) as q0 eqn:Q0 in Y. induction Y as [a q|n k q a q' Hn Hq _ IH].
  - subst q. apply L_there. reflexivity.
  - apply L_reads; auto.
Qed.

(** ** Calls and their plans *)
Definition port_of (q : request) : bool :=
  match q with
  | AskCommand _ _ | AskHashStart | AskHashData _ | AskHashEnd | AskHandshake _ | AskAlternative _ => true
  | AskEnd h | AskStop h => h
  | _ => false
  end.
Definition no_end (q : request) : Prop := match q with AskEnd _ | AskStop _ => False | _ => True end.
Fixpoint implements {A} (pl : plan A) (p : talk A) : Prop :=
  match pl with
  | Return a => p = Said a
  | Request q k =>
      speakable (port_of q) q /\ no_end q
      /\ exists kp, p = Writes (port_of q) (spelled q) kp
         /\ forall r, answer_ok q r ->
            leads (port_of q) (implements (k r)) (kp (Ok (length (spelled q)))) (framed q (Some r))
  end.
Lemma implements_next {A B} (pl : plan A) : forall p (g : A -> plan B) f,
  implements pl p -> (forall a, implements (g a) (f a)) -> implements (after pl g) (next p f).
Proof.
  induction pl as [a|q k IH]; intros p g f I F; cbn [implements after] in *.
  - subst p. apply F.
  - destruct I as (Sp & Ne & kp & -> & L). split; [exact Sp|]. split; [exact Ne|].
    eexists. split; [reflexivity|]. intros r Hr. cbv beta.
    eapply leads_next; [apply L; exact Hr|]. intros p' I'. apply IH; assumption.
Qed.
Definition ptry {A B} (m : plan (outcome io_error A)) (f : A -> plan (outcome io_error B)) : plan (outcome io_error B) :=
  after m (fun o => match o with Ok a => f a | Err e => Return (Err e) | Panic => Return Panic end).
Lemma implements_try {A B} (pl : plan (outcome io_error A)) m (g : A -> plan (outcome io_error B)) f :
  implements pl m -> (forall a, implements (g a) (f a)) -> implements (ptry pl g) (try m f).
Proof. intros I F. apply implements_next; [exact I|]. intros [a|e|]; [apply F|reflexivity..]. Qed.
Lemma implements_shown {A B} (f : A -> B) pl m :
  implements pl m -> implements (after pl (fun o => Return (omap f o))) (shown f m).
Proof. intros I. apply implements_next; [exact I|]. intros o. reflexivity. Qed.
(** A request is written in one call or another, the answer read. *)
Definition written (h : bool) (bytes : list byte) (m : failing unit) : Prop :=
  exists kp, m = Writes h bytes kp /\ kp (Ok (length bytes)) = Said (Ok tt).
Lemma written_all h bytes : bytes <> [] -> written h bytes (write_all_t h bytes).
Proof.
  intros N. destruct bytes as [|b bytes]; [contradiction|]. unfold written, write_all_t. cbn [length write_loop_t].
  eexists. split; [reflexivity|]. cbv beta iota. rewrite Nat.ltb_irrefl.
  replace (skipn (S (length bytes)) (b :: bytes)) with (@nil byte) by (symmetry; apply skipn_all2; cbn [length]; lia).
  destruct (length bytes); reflexivity.
Qed.
Lemma written_whole h bytes : written h bytes (write_whole_t h bytes).
Proof.
  unfold written, write_whole_t, raw_write_t, try. cbn [next]. eexists. split; [reflexivity|]. cbv beta iota.
  now rewrite Nat.eqb_refl.
Qed.
Lemma implements_request {A} q bytes m (rest : failing A) k :
  speakable (port_of q) q -> no_end q -> bytes = spelled q -> written (port_of q) bytes m ->
  (forall r, answer_ok q r -> leads (port_of q) (implements (k r)) rest (framed q (Some r))) ->
  implements (Request q k) (try m (fun _ => rest)).
Proof.
  intros Sp Ne -> (kp & -> & K) L. cbn [implements]. split; [exact Sp|]. split; [exact Ne|].
  unfold try. cbn [next]. eexists. split; [reflexivity|]. cbv beta. rewrite K. cbn [next]. exact L.
Qed.
Lemma implements_answer {A} q bytes m (rest : failing A) (a : list byte -> A) :
  speakable (port_of q) q -> no_end q -> bytes = spelled q -> written (port_of q) bytes m ->
  (forall r, answer_ok q r -> yields (port_of q) rest (framed q (Some r)) (Ok (a r)) []) ->
  implements (asking q (fun r => Ok (a r))) (try m (fun _ => rest)).
Proof.
  intros Sp Ne B M Y. apply (implements_request q bytes); try assumption. intros r Hr. cbn [implements].
  apply yields_leads. apply Y. exact Hr.
Qed.
Lemma acked q r : plain q = true -> answer_ok q r -> framed q (Some r) = [x00; x00; x00; x00].
Proof. destruct q; try discriminate; cbn [answer_ok framed]; intros _ ->; reflexivity. Qed.
Lemma implements_ack q bytes m :
  speakable (port_of q) q -> plain q = true -> bytes = spelled q -> written (port_of q) bytes m ->
  implements (asking q (fun _ => Ok tt)) (try m (fun _ => check_end_t (port_of q))).
Proof.
  intros Sp Pl B M. apply (implements_answer q bytes m _ (fun _ => tt)); try assumption.
  - destruct q; try discriminate; exact I.
  - intros r Hr. rewrite (acked q r Pl Hr). apply yields_check.
Qed.
Lemma implements_acks {A} q bytes m (rest : failing A) pl :
  speakable (port_of q) q -> plain q = true -> bytes = spelled q -> written (port_of q) bytes m -> implements pl rest ->
  implements (Request q (fun _ => pl)) (try m (fun _ => try (check_end_t (port_of q)) (fun _ => rest))).
Proof.
  intros Sp Pl B M R. apply (implements_request q bytes); try assumption.
  - destruct q; try discriminate; exact I.
  - intros r Hr. rewrite (acked q r Pl Hr). unfold try at 1. eapply leads_next; [apply yields_leads, yields_check|].
    intros p' ->. exact R.
Qed.
Lemma u32_nonempty z : u32_bytes z <> [].
Proof. intros E. apply (f_equal (@length byte)) in E. unfold u32_bytes in E. rewrite be_bytes_length in E. discriminate. Qed.
Lemma implements_signal g : implements (asking (AskSignal g) (fun _ => Ok tt)) (signal_t g).
Proof.
  apply (implements_ack (AskSignal g) (u32_bytes (signal_code g))); [reflexivity|reflexivity|destruct g; reflexivity|].
  apply written_all, u32_nonempty.
Qed.
Lemma yields_reply r response : (length r <= length response)%nat -> Z.of_nat (length r) < 2 ^ 32 ->
  leads true (fun p => p = Said (overwrite r response, Ok (length r)))
   (next (read_u32_t true) (fun o =>
    match o with
    | Ok len =>
        if Z.of_nat (length response) <? len then Said (response, Err InvalidInput)
        else
          let n := Z.to_nat len in
          next (read_loop_t n true n) (fun '(bs, r) =>
            let response := overwrite bs response in
            match r with
            | Ok _ => next (check_end_t true) (fun r => Said (response, omap (fun _ => n) r))
            | Err e => Said (response, Err e)
            | Panic => Said (response, Panic)
            end)
    | Err e => Said (response, Err e)
    | Panic => Said (response, Panic)
    end)) (be_bytes 4 (Z.of_nat (length r)) ++ r ++ [x00; x00; x00; x00]).
Proof.
  intros L H32. apply yields_leads. eapply yields_next; [apply yields_u32; apply be_bytes_length|]. cbv beta iota zeta.
  change (be_bytes 4 (Z.of_nat (length r))) with (u32be (Z.of_nat (length r))). rewrite u32be_val by (unfold u32_ok; lia).
  replace (Z.of_nat (length response) <? Z.of_nat (length r)) with false by (symmetry; apply Z.ltb_ge; lia).
  rewrite Nat2Z.id. eapply yields_next; [apply yields_read; lia|]. cbv beta iota.
  eapply yields_next; [apply yields_check|]. apply Y_said.
Qed.
Lemma implements_transact {A} loc command response (pl : list byte -> plan A) (g : list byte * outcome io_error nat -> talk A) :
  0 <= loc < 256 -> Z.of_nat (length command) < 2 ^ 32 -> 4096 <= Z.of_nat (length response) ->
  (forall r, Z.of_nat (length r) <= 4096 -> implements (pl r) (g (overwrite r response, Ok (length r)))) ->
  implements (Request (AskCommand loc command) pl) (next (transact_t loc command response) g).
Proof.
  intros Hl Hc Hr G. unfold transact_t.
  replace (2 ^ 32 <=? Z.of_nat (length command)) with false by (symmetry; apply Z.leb_gt; exact Hc).
  set (frame := u32_bytes SendCommand ++ be_bytes 1 loc ++ u32_bytes (Z.of_nat (length command)) ++ command).
  cbn [implements port_of]. split; [cbn [speakable]; auto|]. split; [exact I|].
  destruct (written_whole true frame) as (kp & E & K). rewrite E. unfold try. cbn [next].
  eexists. split; [reflexivity|]. intros r Ha. cbn [answer_ok] in Ha. cbv beta.
  change (spelled (AskCommand loc command)) with frame. rewrite K. cbn [next].
  eapply leads_next; [apply yields_reply; lia|]. intros p' ->. cbn [next]. apply G. exact Ha.
Qed.
Lemma operation_implemented loc o : 0 <= loc < 256 -> call_ok (Call o) -> stays (Call o) ->
  implements (operation_plan loc o) (operation_t loc o).
Proof.
  intros Hl [Ho Hb] [S1 S2].
  assert (Ack : forall q bytes m, speakable (port_of q) q -> plain q = true -> bytes = spelled q -> written (port_of q) bytes m ->
    implements (told [q]) (shown (fun _ : unit => Done) (try m (fun _ => check_end_t (port_of q))))).
  { intros q bytes m Sp Pl B M. exact (implements_shown _ _ _ (implements_ack q bytes m Sp Pl B M)). }
  destruct o as [command response|data|v|z|g| | | |z|z|z|l'| |]; cbn [operation_t operation_plan]; cbn [operation_ok] in Ho.
  - apply implements_transact; try assumption. intros r Hr.
    destruct (Nat.ltb_spec (length response) (length r)) as [L|L]; [lia|]. cbn [implements omap].
    now rewrite firstn_overwrite.
  - refine (implements_shown (fun _ : unit => Done) (Request AskHashStart (fun _ => Request (AskHashData data) (fun _ => asking AskHashEnd (fun _ => Ok tt)))) _ _).
    unfold hcrtm_t. apply (implements_acks AskHashStart (u32_bytes SignalHashStart)); try reflexivity; [apply written_all, u32_nonempty|].
    eapply (implements_acks (AskHashData data)); [split; [reflexivity|exact Ho]|reflexivity| |apply written_whole|].
    { cbn [spelled]. rewrite Z.mod_small by lia. reflexivity. }
    apply (implements_ack AskHashEnd (u32_bytes SignalHashEnd)); try reflexivity. apply written_all, u32_nonempty.
  - refine (implements_shown (fun x => Versions (fst x) (snd x)) (asking (AskHandshake v) (fun r => Ok (be_val (firstn 4 r), be_val (skipn 4 r)))) _ _).
    unfold handshake_t. eapply (implements_answer (AskHandshake v)); [split; [reflexivity|exact Ho]|exact I|reflexivity|apply written_whole|].
    intros r Hr. cbn [answer_ok framed port_of] in *. eapply yields_try; [apply yields_bytes; exact Hr|].
    eapply yields_try; [apply yields_check|apply Y_said].
  - eapply (Ack (AskAlternative z)); [split; [reflexivity|exact Ho]|reflexivity|reflexivity|apply written_whole].
  - exact (implements_shown _ _ _ (implements_signal g)).
  - refine (implements_shown (fun _ : unit => Done)
      (ptry (asking (AskSignal NvOff) (fun _ => Ok tt)) (fun _ => ptry (asking (AskSignal PowerOff) (fun _ => Ok tt)) (fun _ =>
       ptry (asking (AskSignal PowerOn) (fun _ => Ok tt)) (fun _ => asking (AskSignal NvOn) (fun _ => Ok tt))))) _ _).
    unfold reinit_t. repeat (apply implements_try; [apply implements_signal|intros []]). apply implements_signal.
  - apply (Ack AskFailureMode (u32_bytes TestFailureMode)); try reflexivity. apply written_all, u32_nonempty.
  - refine (implements_shown (fun '(x1, x2, x3, x4) => Sizes x1 x2 x3 x4) (asking AskSizes (fun r =>
      Ok (le_val (firstn 4 r), be_val (firstn 4 (skipn 4 r)), le_val (firstn 4 (skipn 8 r)), be_val (skipn 12 r)))) _ _).
    unfold sizes_t. eapply (implements_answer AskSizes); [reflexivity|exact I|reflexivity|apply written_all, u32_nonempty|].
    intros r Hr. cbn [answer_ok framed port_of] in *. rewrite Hr.
    eapply yields_try; [apply yields_u32; reflexivity|]. cbv beta.
    replace (negb (be_val (be_bytes 4 (Z.of_nat 16)) =? 16)) with false by reflexivity.
    eapply yields_try; [apply yields_bytes; exact Hr|]. eapply yields_try; [apply yields_check|apply Y_said].
  - refine (implements_shown Number (asking (AskAct z) (fun r => Ok (be_val r))) _ _).
    unfold act_t. eapply (implements_answer (AskAct z)); [split; [reflexivity|exact Ho]|exact I|reflexivity|apply written_whole|].
    intros r Hr. cbn [answer_ok framed port_of] in *. eapply yields_try; [apply yields_u32; exact Hr|].
    eapply yields_try; [apply yields_check|apply Y_said].
  - eapply (Ack (AskFirmwareHash z)); [split; [reflexivity|exact Ho]|reflexivity|reflexivity|apply written_whole].
  - eapply (Ack (AskFirmwareSvn z)); [split; [reflexivity|exact Ho]|reflexivity|reflexivity|apply written_whole].
  - reflexivity.
  - now destruct S1.
  - now destruct S2.
Qed.
Lemma call_implemented loc x : 0 <= loc < 256 -> call_ok x -> stays x -> implements (call_plan loc x) (call_t loc x).
Proof.
  intros Hl Hx Hs. destruct x as [o|c cmd handles a]; cbn [call_plan call_t].
  - apply implements_next; [apply operation_implemented; assumption|]. intros r. reflexivity.
  - apply implements_next; [|intros r; reflexivity]. unfold command_plan, command_t.
    pose proof (built_short c cmd handles a) as B. destruct (build_command c cmd handles a) as [bytes|e|]; [|reflexivity..].
    specialize (B bytes Hx eq_refl). apply implements_transact; try assumption.
    { rewrite repeat_length. unfold RESP_BUFFER_SIZE. lia. }
    intros r Hr. destruct (Nat.ltb_spec RESP_BUFFER_SIZE (length r)) as [L|L]; [unfold RESP_BUFFER_SIZE in L; lia|]. reflexivity.
Qed.

(** ** Users and sitters *)
Definition polite {S} (f : S -> request -> S * list byte) : Prop := forall s q, answer_ok q (snd (f s q)).
(** At most so many steps to the end of a plan. *)
Definition leg : nat := RESP_BUFFER_SIZE + 10.
Fixpoint within {A} (n : nat) (pl : plan A) : Prop :=
  match pl with
  | Return _ => (1 <= n)%nat
  | Request q k => (leg <= n)%nat /\ forall r, answer_ok q r -> within (n - leg) (k r)
  end.
Definition whole_call : nat := 4 * leg + 2.
Lemma within_more {A} (pl : plan A) : forall n m, (n <= m)%nat -> within n pl -> within m pl.
Proof.
  induction pl as [a|q k IH]; cbn [within]; intros n m L H; [lia|]. destruct H as [H1 H2]. split; [lia|].
  intros r Hr. eapply IH; [|apply H2; exact Hr]. lia.
Qed.
Lemma within_after {A B} (pl : plan A) (f : A -> B) : forall n, within n pl -> within n (after pl (fun a => Return (f a))).
Proof.
  induction pl as [a|q k IH]; cbn [within after]; intros n H; [exact H|]. destruct H as [H1 H2]. split; [exact H1|]. auto.
Qed.
Lemma call_within loc x : stays x -> within (4 * leg + 1) (call_plan loc x).
Proof.
  intros [S1 S2]. destruct x as [o|c cmd handles a]; cbn [call_plan]; apply within_after.
  - destruct o; cbn [operation_plan told asking fold_right within];
      repeat (split; [lia|]; intros ? _); try lia; exfalso; (now apply S1) || (now apply S2).
  - unfold command_plan. destruct (build_command c cmd handles a); cbn [asking within]; try lia.
    split; [lia|]. intros r _. lia.
Qed.
Definition only (h : bool) (q : list byte) : list byte * list byte := set_port h q ([], []).
Lemma only_nothing h : only h [] = ([], []).
Proof. apply set_same. Qed.
Lemma only_port h q : port h (only h q) = q.
Proof. apply port_set. Qed.
Lemma only_other h q : port (negb h) (only h q) = [].
Proof. destruct h; reflexivity. Qed.
Lemma set_only h q q' : set_port h q' (only h q) = only h q'.
Proof. apply set_set. Qed.
Inductive follows (n : nat) (x : user) (z : sitter) : Prop :=
| F_rest : in_call x = None -> plans z = None -> out x = ([], []) -> inc x = ([], []) ->
    (whole_call * length (calls x) <= n)%nat -> follows n x z
| F_ready p pl m : in_call x = Some p -> plans z = Some pl -> implements pl p -> within m pl ->
    out x = ([], []) -> inc x = ([], []) -> (m + whole_call * length (calls x) <= n)%nat -> follows n x z
| F_asked p q k m : in_call x = Some p -> plans z = Some (Request q k) -> speakable (port_of q) q -> no_end q ->
    (forall r, answer_ok q r -> leads (port_of q) (implements (k r)) p (framed q (Some r))) -> within m (Request q k) ->
    out x = only (port_of q) (spelled q) -> inc x = ([], []) -> (m + whole_call * length (calls x) <= n + 1)%nat -> follows n x z
| F_answer p pl h q m : in_call x = Some p -> plans z = Some pl -> leads h (implements pl) p q -> within m pl -> q <> [] ->
    out x = ([], []) -> inc x = only h q -> (length q + m + whole_call * length (calls x) <= n)%nat -> follows n x z.
Definition sound (n : nat) (x : user) (z : sitter) : Prop :=
  0 <= set_level x < 256 /\ Forall (fun c => call_ok c /\ stays c) (calls x)
  /\ set_level x = sits_at z /\ calls x = wants z /\ have x = knows z /\ follows n x z.
Lemma answered_nonempty q r : no_end q -> framed q (Some r) <> [].
Proof. intros N E. apply (f_equal (@length byte)) in E. destruct q; cbn [framed] in E; try contradiction; rewrite ?app_length in E; cbn [length] in E; lia. Qed.
Lemma answered_short q r : answer_ok q r -> (length (framed q (Some r)) + 2 <= leg)%nat.
Proof.
  unfold leg, RESP_BUFFER_SIZE. destruct q; cbn [answer_ok framed]; intros H; subst; rewrite ?app_length, ?be_bytes_length; cbn [length]; lia.
Qed.
Lemma some_answer q : exists r, answer_ok q r.
Proof.
  destruct q; cbn [answer_ok];
    first [exists []; exact eq_refl|exists (repeat x00 8); exact eq_refl|exists (repeat x00 16); exact eq_refl
          |exists (repeat x00 4); exact eq_refl|exists []; cbn [length]; lia].
Qed.
Lemma asked_something q : spelled q <> [].
Proof.
  intros E. apply (f_equal (@length byte)) in E. destruct q; cbn [spelled] in E; rewrite ?app_length, !be_bytes_length in E; cbn [length] in E; lia.
Qed.
Lemma only_something h q : q <> [] -> only h q <> ([], []).
Proof. destruct h; cbn; congruence. Qed.

Section Steps.
Context {S : Type} (f : S -> request -> S * list byte) (polite_f : polite f).
(** A user's move: its sitter has a turn at which the machine is not asked, or
    none. *)
Lemma user_step piece n x z : sound n x z ->
  exists n' z',
    (z' = z \/ forall s zs i, nth_error zs i = Some z -> turn f (s, zs) i = (s, Clients.put i z' zs))
    /\ sound n' (user_moves piece x) z'
    /\ ((n' < n)%nat
        \/ (n' = n /\ z' = z /\ user_moves piece x = x /\ ((in_call x = None /\ calls x = []) \/ out x <> ([], [])))).
Proof.
  intros (Hl & Hc & El & Ec & Eh & Fo). unfold user_moves.
  destruct Fo as [D P O I N|p pl m D P Im Wi O I N|p q k m D P Sp Ne Le Wi O I N|p pl h q m D P Le Wi Q O I N]; rewrite D.
  - destruct (calls x) as [|c rest] eqn:Cx.
    + exists n, z. split; [auto|]. split; [|right; auto 6]. split; [exact Hl|]. rewrite Cx. repeat (split; [assumption|]).
      apply F_rest; try assumption. now rewrite Cx.
    + inversion Hc as [|? ? [Hok Hst] Hc']; subst.
      assert (Hl' : 0 <= level_after (set_level x) c < 256).
      { destruct c as [o|]; [|exact Hl]. destruct Hok as [Hok _]. clear - Hl Hok. destruct o; cbn [level_after locality_after operation_ok] in *; lia. }
      exists (n - 1)%nat, {| sits_at := level_after (sits_at z) c; wants := rest; plans := Some (call_plan (sits_at z) c); knows := knows z |}.
      split; [right; intros s zs i Nz; unfold turn; cbn [fst snd]; rewrite Nz, P, <- Ec; reflexivity|].
      cbn [length] in N. unfold whole_call in N. rewrite <- mult_n_Sm in N.
      split; [|left; lia]. unfold sound. cbn [set_level calls have sits_at wants knows].
      split; [exact Hl'|]. split; [exact Hc'|]. rewrite El. repeat (split; [reflexivity || assumption|]).
      rewrite <- El. eapply F_ready; cbn [in_call plans out inc calls]; [reflexivity|reflexivity|apply call_implemented; assumption|
        apply call_within; exact Hst|exact O|exact I|unfold whole_call; lia].
  - destruct pl as [r|q k].
    + cbn [implements] in Im. subst p. cbn [within] in Wi.
      exists (n - 1)%nat, {| sits_at := sits_at z; wants := wants z; plans := None; knows := knows z ++ [r] |}.
      split; [right; intros s zs i Nz; unfold turn; cbn [fst snd]; rewrite Nz, P; reflexivity|].
      split; [|left; lia]. unfold sound. cbn [set_level calls have sits_at wants knows].
      repeat (split; [assumption|]). split; [now rewrite Eh|]. apply F_rest; cbn [in_call plans out inc calls]; auto. lia.
    + cbn [implements] in Im. destruct Im as (Sp & Ne & kp & -> & Le). assert (Wi' := Wi). cbn [within] in Wi'. destruct Wi' as [Wl _].
      exists (n - 1)%nat, z. split; [auto|]. assert (leg = RESP_BUFFER_SIZE + 10)%nat by reflexivity. split; [|left; lia].
      unfold sound, proceeds. cbn [set_level calls have]. repeat (split; [assumption|]).
      eapply F_asked; cbn [in_call plans out inc calls]; [reflexivity|exact P|exact Sp|exact Ne|exact Le|exact Wi| |exact I|lia].
      rewrite O, port_same. reflexivity.
  - exists n, z. split; [auto|].
    destruct (some_answer q) as [r Hr]. specialize (Le r Hr) as Lr. pose proof (answered_nonempty q r Ne) as Na.
    inversion Lr as [p' X E1 E2|hn kk q' Hn Hq X E1 E2]; subst; [congruence|].
    rewrite I, port_same. split; [|right; repeat split; auto; right; rewrite O; apply only_something, asked_something].
    repeat (split; [assumption|]). eapply F_asked; eauto.
  - inversion Le as [p' X E1 E2|hn kk q' Hn Hq X E1 E2]; subst; [congruence|].
    rewrite I, only_port. destruct q as [|b q]; [congruence|].
    set (mm := Nat.min (Nat.min hn (length (b :: q))) (Nat.max 1 piece)).
    assert (M : (1 <= mm <= Nat.min hn (length (b :: q)))%nat) by (unfold mm; cbn [length]; lia).
    specialize (X mm (proj1 M) (proj2 M)).
    exists (n - 1)%nat, z. split; [auto|]. cbn [length] in N. split; [|left; lia].
    unfold sound, proceeds. cbn [set_level calls have]. repeat (split; [assumption|]).
    destruct (skipn mm (b :: q)) as [|b' q'] eqn:Sk.
    + inversion X as [p' X' E1 E2|hn' kk' q'' Hn' Hq' X' E1 E2]; subst; [|congruence].
      eapply F_ready; cbn [in_call plans out inc calls]; [reflexivity|exact P|exact X'|exact Wi|exact O| |lia].
      rewrite set_only. apply only_nothing.
    + apply (f_equal (@length byte)) in Sk as Ls. rewrite skipn_length in Ls. cbn [length] in Ls, M.
      eapply (F_answer _ _ _ _ _ h (b' :: q')); cbn [in_call plans out inc calls]; [reflexivity|exact P|exact X|exact Wi|discriminate|exact O|
        rewrite set_only; reflexivity|cbn [length]; lia].
Qed.
(** The machine takes a request of a user: the sitter asks it. *)
Definition attended (h : bool) (s : S) (x : user) : S * user :=
  let b := work (answering f) 1 h {| unit_ := s; got := out x; due := inc x |} in
  (unit_ b, {| set_level := set_level x; calls := calls x; in_call := in_call x; have := have x; out := got b; inc := due b |}).
Lemma attended_nothing h s x : port h (out x) = [] -> attended h s x = (s, x).
Proof. intros E. unfold attended. cbn [work got]. rewrite E. destruct h; cbn; destruct x; reflexivity. Qed.
Lemma machine_step h s n x z : sound n x z ->
  exists n' z',
    ((z' = z /\ fst (attended h s x) = s)
     \/ forall zs i, nth_error zs i = Some z -> turn f (s, zs) i = (fst (attended h s x), Clients.put i z' zs))
    /\ sound n' (snd (attended h s x)) z'
    /\ ((n' < n)%nat \/ (n' = n /\ z' = z /\ snd (attended h s x) = x /\ port h (out x) = [])).
Proof.
  intros So. destruct (list_eq_dec Byte.byte_eq_dec (port h (out x)) []) as [E|E].
  { rewrite attended_nothing by exact E. exists n, z. cbn [fst snd]. auto 8. }
  destruct So as (Hl & Hc & El & Ec & Eh & Fo).
  destruct Fo as [D P O I N|p pl m D P Im Wi O I N|p q k m D P Sp Ne Le Wi O I N|p pl h' q m D P Le Wi Q O I N];
    rewrite O, ?port_same in E; try contradiction.
  destruct (Bool.bool_dec h (port_of q)) as [->|Hh].
  2:{ replace h with (negb (port_of q)) in E by (destruct h, (port_of q); try reflexivity; congruence). now rewrite only_other in E. }
  assert (Fr : front (port_of q) (spelled q) = Some (q, [])).
  { apply c81_understood. rewrite app_nil_r. auto. }
  specialize (polite_f s q) as Pf. destruct (f s q) as [s' r] eqn:Ef. cbn [snd] in Pf.
  assert (At : attended (port_of q) s x
    = (s', {| set_level := set_level x; calls := calls x; in_call := in_call x; have := have x; out := ([], []);
              inc := only (port_of q) (framed q (Some r)) |})).
  { unfold attended. cbn [work got unit_ due]. rewrite O, only_port, Fr. unfold answering. rewrite Ef. cbn [work unit_ got due].
    rewrite set_only, only_nothing, I, port_same. reflexivity. }
  rewrite At. cbn [fst snd]. cbn [within] in Wi. destruct Wi as [Wl Wi]. specialize (Wi r Pf).
  exists (n - 1)%nat, {| sits_at := sits_at z; wants := wants z; plans := Some (k r); knows := knows z |}.
  pose proof (answered_short q r Pf) as Sh.
  split; [right; intros zs i Nz; unfold turn; cbn [fst snd]; rewrite Nz, P, Ef; reflexivity|]. split; [|left; lia].
  unfold sound. cbn [set_level calls have sits_at wants knows]. repeat (split; [assumption|]).
  eapply F_answer; cbn [in_call plans out inc calls]; [exact D|reflexivity|apply Le; exact Pf|exact Wi|apply answered_nonempty; exact Ne|reflexivity|reflexivity|].
  lia.
Qed.
End Steps.
