(** A connection after it was ended (C97). *)
From Coq Require Import String ZArith NArith List Lia Bool Arith.
From Coq Require Import Init.Byte.
From Verif Require Import Prelude Client Tcp TcpSpec TcpProofs SimulatorProofs TcpFacts.
Import ListNotations.
Open Scope Z_scope.

(** ** Specification *)

(** [shut w h] holds from the moment at which [h] was shut down, whatever is
    done to any stream after that, and then [h] takes no byte. *)
Record respects_shutdown {W H C} (sys : world W H C) (shut : W -> H -> Prop) : Prop := {
  shuts : forall w h w', shutdown sys w h = (w', Ok tt) -> shut w' h;
  shut_write : forall w h g buf, shut w h -> shut (fst (write sys w g buf)) h;
  shut_shutdown : forall w h g, shut w h -> shut (fst (shutdown sys w g)) h;
  shut_takes_nothing : forall w h buf, shut w h -> buf <> [] -> exists e, snd (write sys w h buf) = Err e }.
Definition over {W H} (shut : W -> H -> Prop) (c : tcp H) (w : W) : Prop :=
  shut w (tpm_tcp c) /\ shut w (plat_tcp c).
(** Calls one after the other, whatever becomes of each. *)
Fixpoint one_by_one {W H C} (sys : world W H C) (c : tcp H) (os : list operation) (w : W)
    : tcp H * W * list (outcome io_error answer) :=
  match os with
  | [] => (c, w, [])
  | o :: os' => let '(c', w', r) := perform sys c o w in
                let '(c'', w'', rs) := one_by_one sys c' os' w' in (c'', w'', r :: rs)
  end.
Definition only_locality (o : operation) (r : outcome io_error answer) : Prop :=
  match o with Locality _ => r = Ok Done | _ => exists e, r = Err e end.

(** ** Proofs *)
Section Over.
Context {W H C : Type} (sys : world W H C) (shut : W -> H -> Prop) (R : respects_shutdown sys shut).
Lemma over_write c w g buf : over shut c w -> over shut c (fst (write sys w g buf)).
Proof. intros [A B]. split; apply (shut_write _ _ R); assumption. Qed.
Lemma write_whole_over c w (l : list (event H C)) h buf : over shut c w -> shut w h -> buf <> [] ->
  exists w' e, write_whole (watched sys) h buf (w, l) = ((w', l), Err e) /\ over shut c w'.
Proof.
  intros O Sh N. unfold write_whole, io_bind. cbn [write watched fst snd].
  pose proof (over_write c w h buf O) as O'. destruct (shut_takes_nothing _ _ R w h buf Sh N) as [e E].
  destruct (write sys w h buf) as [w' r]. cbn [fst snd] in *. subst r. exists w', e. rewrite app_nil_r. auto.
Qed.
Lemma write_all_over c w (l : list (event H C)) h buf : over shut c w -> shut w h -> buf <> [] ->
  exists w' e, write_all (watched sys) h buf (w, l) = ((w', l), Err e) /\ over shut c w'.
Proof.
  intros O Sh N. unfold write_all. destruct buf as [|b buf]; [congruence|]. cbn [length write_loop write watched fst snd].
  pose proof (over_write c w h (b :: buf) O) as O'. destruct (shut_takes_nothing _ _ R w h (b :: buf) Sh N) as [e E].
  destruct (write sys w h (b :: buf)) as [w' r]. cbn [fst snd] in *. subst r. exists w', e. rewrite app_nil_r. auto.
Qed.
Lemma u32_some z : u32_bytes z <> [].
Proof. unfold u32_bytes. intros E. apply (f_equal (@length byte)) in E. rewrite be_bytes_length in E. discriminate. Qed.
Lemma u32_more z rest : u32_bytes z ++ rest <> [].
Proof. intros E. apply app_eq_nil in E. exact (u32_some z (proj1 E)). Qed.
Lemma perform_over c o w (l : list (event H C)) : over shut c w -> (forall lo, o <> Locality lo) ->
  exists w' e, perform (watched sys) c o (w, l) = (c, (w', l), Err e) /\ over shut c w'.
Proof.
  intros O N. destruct (O) as [O1 O2].
  assert (A : forall z, exists w' e, write_all (watched sys) (tpm_tcp c) (u32_bytes z) (w, l) = ((w', l), Err e) /\ over shut c w')
    by (intros z; apply write_all_over; auto using u32_some).
  assert (B : forall z, exists w' e, write_all (watched sys) (plat_tcp c) (u32_bytes z) (w, l) = ((w', l), Err e) /\ over shut c w')
    by (intros z; apply write_all_over; auto using u32_some).
  assert (D : forall z rest, exists w' e, write_whole (watched sys) (tpm_tcp c) (u32_bytes z ++ rest) (w, l) = ((w', l), Err e) /\ over shut c w')
    by (intros z rest; apply write_whole_over; auto using u32_more).
  assert (F : forall z rest, exists w' e, write_whole (watched sys) (plat_tcp c) (u32_bytes z ++ rest) (w, l) = ((w', l), Err e) /\ over shut c w')
    by (intros z rest; apply write_whole_over; auto using u32_more).
  destruct o as [command response|data|v|z|s| | | |z|z|z|lo| |]; cbn [perform].
  - unfold tcp_transact. destruct (2 ^ 32 <=? _); [exists w, InvalidInput; auto|].
    unfold io_bind. edestruct D as (w' & e & -> & O'). exists w', e. auto.
  - unfold hcrtm_sequence, unit_answer, io_bind. edestruct A as (w' & e & -> & O'). exists w', e. auto.
  - unfold remote_handshake, io_bind. edestruct D as (w' & e & -> & O'). exists w', e. auto.
  - unfold set_alternative_result, unit_answer, io_bind. edestruct D as (w' & e & -> & O'). exists w', e. auto.
  - unfold platform_signal, unit_answer, io_bind. edestruct B as (w' & e & -> & O'). exists w', e. auto.
  - unfold reinit, platform_signal, unit_answer, io_bind. edestruct B as (w' & e & -> & O'). exists w', e. auto.
  - unfold test_failure_mode, unit_answer, io_bind. edestruct B as (w' & e & -> & O'). exists w', e. auto.
  - unfold get_command_response_sizes, io_bind. edestruct B as (w' & e & -> & O'). exists w', e. auto.
  - unfold act_get_signaled, io_bind. edestruct F as (w' & e & -> & O'). exists w', e. auto.
  - unfold set_firmware_hash, unit_answer, io_bind. edestruct F as (w' & e & -> & O'). exists w', e. auto.
  - unfold set_firmware_svn, unit_answer, io_bind. edestruct F as (w' & e & -> & O'). exists w', e. auto.
  - destruct (N lo eq_refl).
  - unfold session_end, end_both, unit_answer, io_bind. edestruct A as (w' & e & -> & O'). exists w', e. auto.
  - unfold stop_simulator, end_both, unit_answer, io_bind. edestruct A as (w' & e & -> & O'). exists w', e. auto.
Qed.
Lemma write_loop_keeps g h buf : forall fuel w, shut w g -> shut (fst (write_loop sys fuel h buf w)) g.
Proof.
  intros fuel. revert buf. induction fuel as [|fuel IH]; intros buf w Sh; (destruct buf as [|b buf]; [exact Sh|]); cbn [write_loop]; [exact Sh|].
  pose proof (shut_write _ _ R w g h (b :: buf) Sh) as K. destruct (write sys w h (b :: buf)) as [w' [n|e|]]; cbn [fst] in K; try exact K.
  destruct n as [|n]; [exact K|]. destruct (_ <? _)%nat; [exact K|]. apply IH. exact K.
Qed.
Lemma end_both_over c code w w' u : end_both sys c code w = (w', Ok u) -> over shut c w'.
Proof.
  unfold end_both, io_bind. destruct (write_all sys (tpm_tcp c) (u32_bytes code) w) as [w1 [[]|e|]]; try discriminate.
  destruct (shutdown sys w1 (tpm_tcp c)) as [w2 [[]|e|]] eqn:E2; try discriminate.
  pose proof (shuts _ _ R _ _ _ E2) as S2.
  pose proof (write_loop_keeps (tpm_tcp c) (plat_tcp c) (u32_bytes code) (length (u32_bytes code)) w2 S2) as S3.
  unfold write_all. destruct (write_loop sys (length (u32_bytes code)) (plat_tcp c) (u32_bytes code) w2) as [w3 [[]|e|]]; try discriminate.
  cbn [fst] in S3. pose proof (shut_shutdown _ _ R w3 (tpm_tcp c) (plat_tcp c) S3) as S4.
  destruct (shutdown sys w3 (plat_tcp c)) as [w4 r] eqn:E4. intros E. injection E as -> ->. destruct u. split; [exact S4|].
  exact (shuts _ _ R _ _ _ E4).
Qed.
End Over.

(** ** C97 *)

(** Ending the session or stopping the simulator ends the connection. *)
Theorem c97_ended : forall (W H C : Type) (sys : world W H C) shut c o (w w' : W) c' a,
  respects_shutdown sys shut -> o = EndSession \/ o = StopSimulator ->
  perform sys c o w = (c', w', Ok a) -> over shut c' w'.
Proof.
  intros W H C sys shut c o w w' c' a R Ho E.
  assert (Q : exists code u, c' = c /\ end_both sys c code w = (w', Ok u)).
  { destruct Ho as [-> | ->]; cbn [perform] in E; unfold unit_answer, session_end, stop_simulator in E.
    - destruct (end_both sys c SessionEnd w) as [w1 [u|e|]] eqn:E1; try discriminate. injection E as <- <- _. eauto.
    - destruct (end_both sys c Stop w) as [w1 [u|e|]] eqn:E1; try discriminate. injection E as <- <- _. eauto. }
  destruct Q as (code & u & -> & Q). exact (end_both_over sys shut R c code w w' u Q).
Qed.

(** From then on, in any sequence of calls, each fails and nothing is sent,
    received or shut down. *)
Theorem c97_no_more : forall (W H C : Type) (sys : world W H C) shut c (w : W) (l : list (event H C)) os,
  respects_shutdown sys shut -> over shut c w ->
  exists c' w' rs, one_by_one (watched sys) c os (w, l) = (c', (w', l), rs)
    /\ Forall2 only_locality os rs /\ over shut c' w'.
Proof.
  intros W H C sys shut c w l os R. revert c w. induction os as [|o os IH]; intros c w O.
  { exists c, w, []. cbn. auto. }
  assert (D : (exists lo, o = Locality lo) \/ forall lo, o <> Locality lo)
    by (destruct o; try (right; discriminate); left; eauto).
  destruct D as [[lo ->]|D].
  - destruct (IH (set_locality c lo) w O) as (c' & w' & rs & E & F & O'). exists c', w', (Ok Done :: rs).
    cbn [one_by_one perform]. rewrite E. split; [reflexivity|]. split; [constructor; [reflexivity|exact F]|exact O'].
  - destruct (perform_over sys shut R c o w l O D) as (w1 & e & E1 & O1).
    destruct (IH c w1 O1) as (c' & w' & rs & E & F & O'). exists c', w', (Err e :: rs).
    cbn [one_by_one]. rewrite E1, E. split; [reflexivity|]. split; [constructor; [|exact F]|exact O'].
    destruct o; try (eexists; reflexivity). destruct (D _ eq_refl).
Qed.

(** So a simulator that was stopped nicely, or whose session was ended, is
    killed when it is dropped: the stop messages of the drop cannot be sent. *)
Theorem c97_dropped : forall (W H C : Type) (sys : world W H C) shut (s : @simulator H C) (w : W) (l : list (event H C)),
  respects_shutdown sys shut -> over shut (conn s) w ->
  snd (simulator_drop (watched sys) s (w, l)) = l ++ [Killed (child s)].
Proof.
  intros W H C sys shut s w l R O.
  destruct (perform_over sys shut R (conn s) StopSimulator w l O ltac:(discriminate)) as (w1 & e & E & _).
  cbn [perform] in E. unfold simulator_drop, stop_nicely. unfold unit_answer in E.
  destruct (stop_simulator (watched sys) (conn s) (w, l)) as [[w2 l2] [u|e2|]]; try discriminate.
  injection E as <- <- <-. unfold simulator_stop. cbn [kill watched fst snd]. destruct (kill sys w2 (child s)). reflexivity.
Qed.
Theorem c97_nicely_then_dropped : forall (W H C : Type) (sys : world W H C) shut (s : @simulator H C) (w : W) (l : list (event H C)) w1 l1,
  respects_shutdown sys shut -> quiet_world sys ->
  stop_nicely (watched sys) s (w, l) = ((w1, l1), Ok tt) ->
  snd (simulator_drop (watched sys) s (w1, l1)) = l ++ conversation (conn s) StopSimulator Done ++ [Killed (child s)].
Proof.
  intros W H C sys shut s w l w1 l1 R Hq E.
  pose proof (c61_stop_nicely W H C sys s w l w1 l1 Hq E) as ->.
  assert (R' : respects_shutdown (watched sys) (fun w h => shut (fst w) h)).
  { destruct R as [R1 R2 R3 R4]. constructor.
    - intros x h x' Ex. cbn [shutdown watched] in Ex. destruct (shutdown sys (fst x) h) as [y r] eqn:Ey. injection Ex as <- ->. exact (R1 _ _ _ Ey).
    - intros x h g buf Sx. cbn [write watched]. specialize (R2 (fst x) h g buf Sx). destruct (write sys (fst x) g buf). exact R2.
    - intros x h g Sx. cbn [shutdown watched]. specialize (R3 (fst x) h g Sx). destruct (shutdown sys (fst x) g). exact R3.
    - intros x h buf Sx N. cbn [write watched]. specialize (R4 (fst x) h buf Sx N). destruct (write sys (fst x) h buf). exact R4. }
  pose proof (end_both_over (watched sys) _ R' (conn s) Stop (w, l) _ tt E) as O. cbn [fst] in O.
  rewrite (c97_dropped W H C sys shut s w1 _ R O). rewrite app_assoc. reflexivity.
Qed.

(** A simulator whose streams break with the shutdown. *)
Definition breaking : world (list bool) bool unit := {|
  tcp_connect := fun w _ port => (w, Ok (port =? 2321));
  write := fun w h buf => (w, if existsb (Bool.eqb h) w then Err (System 32) else Ok (length buf));
  read := fun w h n => (w, Ok (repeat x00 n));
  shutdown := fun w h => (h :: w, Ok tt);
  sleep_one_second := fun w => w; read_to_string := fun w _ => (w, Ok []);
  spawn := fun w _ _ _ => (w, Ok tt); kill := fun w _ => (w, Ok tt) |}.
Example c97_breaking : respects_shutdown breaking (fun w h => List.In h w) /\ quiet_world breaking.
Proof.
  split.
  - constructor.
    + intros w h w' E. injection E as <-. left. reflexivity.
    + intros w h g buf I. exact I.
    + intros w h g I. right. exact I.
    + intros w h buf I _. exists (System 32). cbn [write breaking snd].
      rewrite (proj2 (existsb_exists (Bool.eqb h) w)); [reflexivity|]. exists h. split; [exact I|]. destruct h; reflexivity.
  - split; [split|repeat split; try reflexivity].
    + intros w h buf w' n E. cbn in E. destruct (existsb _ w); [discriminate|]. injection E as _ <-. lia.
    + intros w h n w' bs E. cbn in E. injection E as _ <-. rewrite repeat_length. lia.
    + intros w h buf. cbn. destruct (existsb _ w); reflexivity.
Qed.
Example c97_case :
  let s := {| child := tt; conn := {| tpm_tcp := true; plat_tcp := false; locality := 0 |} |} in
  let told := map (Out true) [x00; x00; x00; x15] ++ [Shut true] ++ map (Out false) [x00; x00; x00; x15] ++ [Shut false] in
  stop_nicely (watched breaking) s ([], []) = (([false; true], told), Ok tt)
  /\ snd (simulator_drop (watched breaking) s ([false; true], told)) = told ++ [Killed tt]
  /\ snd (simulator_drop (watched breaking) s ([], [])) = told
  /\ one_by_one (watched breaking) (conn s) [Signal PowerOn; Locality 3; Transact [x80] [x00]] ([false; true], told)
     = ({| tpm_tcp := true; plat_tcp := false; locality := 3 |}, ([false; true], told), [Err (System 32); Ok Done; Err (System 32)]).
Proof. vm_compute. auto. Qed.
