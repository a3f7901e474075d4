(** A client that dies, or a connection that breaks, at any point (C87). *)
From Coq Require Import String ZArith NArith List Lia Bool.
From Coq Require Import Init.Byte.
From Verif Require Import Prelude Types Marshal WireSpec Catalogue Errors Tpm2b Client ClientSpec ClientProofs ClientFacts
  Server ServerSpec ServerProofs ServerFacts Tcp TcpSpec TcpProofs Remote RemoteFacts SpliceFacts OnceFacts.
Import ListNotations.
Open Scope Z_scope.

(** A connection to a simulator that takes [left] more bytes from the client
    and then none.  What the client reads is up to an adversary with a state of
    its own, who sees the simulator: it may be late, cut, wrong or an error.
    A write that is cut reports the bytes taken, or the error [failure]. *)
Record link (R S : Type) := { line : R; left : nat; sim : simulator S }.
Arguments line {R S} _.
Arguments left {R S} _.
Arguments sim {R S} _.
Definition severed {R S} (deliver : R -> simulator S -> bool -> nat -> R * outcome io_error (list byte))
    (failure : option io_error) (f : tpm_device S) : world (link R S) bool unit :=
  let take (x : simulator S) (buf : list byte) :=
    deal f (length (taken x ++ buf)) {| device := device x; taken := taken x ++ buf; waiting := waiting x |} in {|
  tcp_connect := fun w _ port => (w, Ok (port =? 2321));
  write := fun w h buf =>
    if h then
      if (length buf <=? left w)%nat
      then ({| line := line w; left := left w - length buf; sim := take (sim w) buf |}, Ok (length buf))
      else ({| line := line w; left := 0; sim := take (sim w) (firstn (left w) buf) |},
            match failure with Some e => Err e | None => Ok (left w) end)
    else (w, Ok (length buf));
  read := fun w h n =>
    let '(line', r) := deliver (line w) (sim w) h n in ({| line := line'; left := left w; sim := sim w |}, r);
  shutdown := fun w _ => (w, Ok tt);
  sleep_one_second := fun w => w;
  read_to_string := fun w _ => (w, Ok []);
  spawn := fun w _ _ _ => (w, Ok tt);
  kill := fun w _ => (w, Ok tt)
|}.
(** A session of a client that goes on after errors, over any world. *)
Fixpoint session_over {W C} (sys : world W bool C) (t : tcp bool) (w : W) (steps : list step)
    : W * list (outcome io_error (val * val)) :=
  match steps with
  | [] => (w, [])
  | SetLocality l :: steps' => session_over sys (set_locality t l) w steps'
  | Run c cmd handles a :: steps' =>
      let '(w', r) := run_command_with_handles FromTss (tcp_connection sys t) w c cmd handles a in
      let '(w'', rs) := session_over sys t w' steps' in (w'', r :: rs)
  end.

(** A TPM that executes commands one after the other. *)
Definition executes {S} (f : tpm_device S) (s : S) (cmds : list (Z * list byte)) : S :=
  fold_left (fun s p => fst (f s (fst p) (snd p))) cmds s.
(** How many commands of a list [n] bytes hold completely: each takes nine
    bytes and its own length. *)
Fixpoint complete (n : nat) (cmds : list (Z * list byte)) : nat :=
  match cmds with
  | [] => 0
  | (_, cmd) :: cmds' =>
      if (9 + length cmd <=? n)%nat then S (complete (n - (9 + length cmd)) cmds') else 0
  end.

Section Severed.
Context {R S : Type} (deliver : R -> simulator S -> bool -> nat -> R * outcome io_error (list byte))
  (failure : option io_error) (f : tpm_device S).
Local Notation sev := (severed deliver failure f).

Lemma sev_read_loop h fuel : forall n w, exists line' bs r,
  read_loop sev fuel h n w = ({| line := line'; left := left w; sim := sim w |}, bs, r).
Proof.
  induction fuel as [|fuel IH]; intros n w.
  { destruct n; exists (line w); do 2 eexists; destruct w; reflexivity. }
  destruct n as [|n]; [exists (line w); do 2 eexists; destruct w; reflexivity|].
  cbn [read_loop read severed]. destruct (deliver (line w) (sim w) h (Datatypes.S n)) as [line' r].
  destruct r as [[|b bs]|e|]; try (do 3 eexists; reflexivity).
  destruct (Datatypes.S n <? length (b :: bs))%nat; [do 3 eexists; reflexivity|].
  edestruct IH as (l2 & b2 & r2 & E). cbn [left sim] in E. rewrite E. do 3 eexists; reflexivity.
Qed.
Lemma sev_read_u32 w : exists line' r,
  read_u32 sev true w = ({| line := line'; left := left w; sim := sim w |}, r).
Proof.
  unfold read_u32, io_bind, read_bytes, read_exact.
  destruct (sev_read_loop true 4 4 w) as (line' & bs & r & E). rewrite E.
  destruct r; do 2 eexists; reflexivity.
Qed.
Lemma sev_end w : exists line' r,
  check_response_end sev true w = ({| line := line'; left := left w; sim := sim w |}, r).
Proof.
  unfold check_response_end, io_bind. destruct (sev_read_u32 w) as (line' & r & E). rewrite E.
  destruct r as [z|e|]; try (do 2 eexists; reflexivity). destruct (z =? 0); do 2 eexists; reflexivity.
Qed.
(** A call changes the connection as its write does. *)
Lemma sev_transact t w cmd rsp : tpm_tcp t = true -> Z.of_nat (length cmd) < 2 ^ 32 ->
  exists line' rsp' r,
  tcp_transact sev t w cmd rsp
  = ({| line := line'; left := left (fst (write sev w true (sent (locality t) cmd)));
        sim := sim (fst (write sev w true (sent (locality t) cmd))) |}, rsp', r).
Proof.
  intros Ht Hc. unfold tcp_transact. rewrite Ht.
  replace (2 ^ 32 <=? Z.of_nat (length cmd)) with false by (symmetry; apply Z.leb_gt; exact Hc).
  change (u32_bytes SendCommand ++ be_bytes 1 (locality t) ++ u32_bytes (Z.of_nat (length cmd)) ++ cmd)
    with (sent (locality t) cmd).
  unfold io_bind at 1, write_whole, io_bind at 1.
  destruct (write sev w true (sent (locality t) cmd)) as [w1 r1]. cbn [fst].
  assert (K : {| line := line w1; left := left w1; sim := sim w1 |} = w1) by (destruct w1; reflexivity).
  destruct r1 as [k|e|]; try (exists (line w1); do 2 eexists; rewrite K; reflexivity).
  destruct (k =? length (sent (locality t) cmd))%nat; cbn [io_ret io_err];
    [|exists (line w1); do 2 eexists; rewrite K; reflexivity].
  destruct (sev_read_u32 w1) as (l2 & r2 & E2). rewrite E2.
  destruct r2 as [z|e|]; try (do 3 eexists; reflexivity).
  destruct (Z.of_nat (length rsp) <? z); [do 3 eexists; reflexivity|]. unfold read_exact.
  match goal with |- context [read_loop sev ?a ?b ?c ?d] =>
    destruct (sev_read_loop b a c d) as (l3 & b3 & r3 & E3); rewrite E3 end.
  destruct r3 as [u|e|]; try (do 3 eexists; reflexivity).
  match goal with |- context [check_response_end sev true ?d] =>
    destruct (sev_end d) as (l4 & r4 & E4); rewrite E4 end.
  do 3 eexists; reflexivity.
Qed.
Lemma sev_run t w c cmd handles a : tpm_tcp t = true -> valid_call c cmd handles a ->
  exists line' r,
  run_command_with_handles FromTss (tcp_connection sev t) w c cmd handles a
  = ({| line := line';
        left := if Z.of_nat (length (command_frame c cmd handles a)) <=? 4096
                then left (fst (write sev w true (sent (locality t) (command_frame c cmd handles a)))) else left w;
        sim := if Z.of_nat (length (command_frame c cmd handles a)) <=? 4096
               then sim (fst (write sev w true (sent (locality t) (command_frame c cmd handles a)))) else sim w |}, r).
Proof.
  intros Ht V. unfold run_command_with_handles.
  destruct (Z.leb_spec (Z.of_nat (length (command_frame c cmd handles a))) 4096) as [L|L].
  - rewrite (build_frame c cmd handles a V L). cbn [transact tcp_connection].
    destruct (sev_transact t w (command_frame c cmd handles a) (repeat x00 RESP_BUFFER_SIZE) Ht)
      as (l1 & rsp & r & E); [lia|]. rewrite E. destruct r; do 2 eexists; reflexivity.
  - destruct (build_too_long c cmd handles a V) as [E|E]; [unfold fits; lia| |]; rewrite E;
      exists (line w); eexists; destruct w; reflexivity.
Qed.

(** After the break nothing changes any more. *)
Lemma sev_broken steps : Forall step_ok steps -> forall t x l0 cmd0 k w,
  tpm_tcp t = true -> 0 <= locality t < 256 -> 
  0 <= l0 < 256 -> Z.of_nat (length cmd0) < 2 ^ 32 -> (k < 9 + length cmd0)%nat ->
  left w = 0%nat -> sim w = x -> taken x = firstn k (sent l0 cmd0) ->
  sim (fst (session_over sev t w steps)) = x.
Proof.
  induction 1 as [|[l'|c cmd handles a] steps Hs _ IH]; intros t x l0 cmd0 k w Ht Hl Hl0 Hc0 Hk Hz Hx Htk;
    cbn [session_over]; [exact Hx| |].
  - eapply (IH (set_locality t l')); eauto.
  - destruct (sev_run t w c cmd handles a Ht Hs) as (l1 & r & E). rewrite E.
    match goal with |- context [session_over sev t ?w1 steps] =>
      assert (Q : left w1 = 0%nat /\ sim w1 = x) end.
    { cbn [left sim]. destruct (_ <=? 4096); [|auto].
      set (fr := command_frame c cmd handles a).
      cbn [write severed]. rewrite Hz, sent_length. cbn [Nat.leb plus fst left sim]. split; [reflexivity|].
      cbn [firstn]. rewrite !app_nil_r, Hx. destruct x as [s tk q]. cbn [taken device waiting] in *. subst tk.
      apply deal_incomplete; assumption. }
    destruct Q as [Q1 Q2].
    match goal with |- context [session_over sev t ?w1 steps] =>
      pose proof (IH t x l0 cmd0 k w1 Ht Hl Hl0 Hc0 Hk Q1 Q2 Htk) as Z;
      destruct (session_over sev t w1 steps) as [w2 rs] end.
    exact Z.
Qed.
Lemma sev_session steps : Forall step_ok steps -> forall t s q w,
  tpm_tcp t = true -> 0 <= locality t < 256 -> sim w = {| device := s; taken := []; waiting := q |} ->
  device (sim (fst (session_over sev t w steps)))
  = executes f s (firstn (complete (left w) (in_order (locality t) steps)) (in_order (locality t) steps)).
Proof.
  induction 1 as [|[l'|c cmd handles a] steps Hs Ho IH]; intros t s q w Ht Hl Hw; cbn [session_over].
  - cbn. rewrite Hw. reflexivity.
  - cbn [in_order]. apply (IH (set_locality t l') s q w); [exact Ht|exact Hs|exact Hw].
  - destruct (sev_run t w c cmd handles a Ht Hs) as (l1 & r & E). rewrite E. clear E. cbn [in_order].
    destruct (Z.leb_spec (Z.of_nat (length (command_frame c cmd handles a))) 4096) as [L|L].
    2:{ cbn [app]. match goal with |- context [session_over sev t ?w1 steps] =>
          pose proof (IH t s q w1 Ht Hl Hw) as Z; cbn [left] in Z;
          destruct (session_over sev t w1 steps) as [w2 rs] end. exact Z. }
    set (fr := command_frame c cmd handles a) in *. clearbody fr. cbn [app complete].
    cbn [write severed]. rewrite sent_length.
    destruct (Nat.leb_spec (9 + length fr) (left w)) as [F|F].
    + assert (D : exists q', deal f (length (taken (sim w) ++ sent (locality t) fr))
          {| device := device (sim w); taken := taken (sim w) ++ sent (locality t) fr; waiting := waiting (sim w) |}
          = {| device := fst (f s (locality t) fr); taken := []; waiting := q' |}).
      { rewrite Hw. cbn [taken device waiting app]. rewrite sent_length. cbn [plus].
        eexists. apply deal_frame; [assumption|lia]. }
      destruct D as [q' D]. rewrite D. cbn [fst left sim].
      match goal with |- context [session_over sev t ?w1 steps] =>
        pose proof (IH t _ q' w1 Ht Hl eq_refl) as Z; cbn [left] in Z;
        destruct (session_over sev t w1 steps) as [w2 rs] end.
      cbn [fst] in Z |- *. rewrite Z. reflexivity.
    + cbn [firstn executes fold_left fst left sim]. rewrite Hw. cbn [taken device waiting app].
      rewrite deal_incomplete by (assumption || lia).
      match goal with |- context [session_over sev t ?w1 steps] =>
        pose proof (sev_broken steps Ho t {| device := s; taken := firstn (left w) (sent (locality t) fr); waiting := q |}
          (locality t) fr (left w) w1 Ht Hl Hl ltac:(lia) F eq_refl eq_refl eq_refl) as Z;
        destruct (session_over sev t w1 steps) as [w2 rs] end.
      cbn [fst] in Z |- *. rewrite Z. reflexivity.
Qed.
End Severed.

(** ** C87 *)
(** Whatever the client reads, and whenever it dies or the connection breaks -
    after any number [n] of bytes -, the TPM has executed the first commands of
    the session, as many as are complete in [n] bytes, each once and in order,
    and nothing else: no part of a command, no mixture, none of the later ones. *)
Theorem c87_prefix R S deliver failure (f : tpm_device S) l s n (r : R) steps :
  0 <= l < 256 -> Forall step_ok steps ->
  let commands := in_order l steps in
  device (sim (fst (session_over (severed deliver failure f) (port_ends l)
                      {| line := r; left := n; sim := idle s |} steps)))
  = executes f s (firstn (complete n commands) commands).
Proof.
  intros Hl Ho commands.
  exact (sev_session deliver failure f steps Ho (port_ends l) s [] {| line := r; left := n; sim := idle s |}
           eq_refl Hl eq_refl).
Qed.

(** "As many as are complete": what is sent for these is within the [n] bytes,
    what is sent for one more is not. *)
Theorem c87_as_many n cmds :
  let stream cmds := concat (map (fun p => sent (fst p) (snd p)) cmds) in
  (complete n cmds <= length cmds)%nat
  /\ (length (stream (firstn (complete n cmds) cmds)) <= n)%nat
  /\ ((complete n cmds < length cmds)%nat -> (n < length (stream (firstn (1 + complete n cmds) cmds)))%nat).
Proof.
  intros stream. revert n. induction cmds as [|[l cmd] cmds IH]; intros n; [cbn; lia|].
  cbn [complete]. destruct (Nat.leb_spec (9 + length cmd) n) as [H|H].
  - specialize (IH (n - (9 + length cmd))%nat). destruct IH as (I1 & I2 & I3).
    set (k := complete (n - (9 + length cmd)) cmds) in *. clearbody k.
    change (1 + S k)%nat with (S (1 + k))%nat. unfold stream in *. rewrite !firstn_cons.
    cbn [map concat fst snd length]. rewrite !app_length, sent_length. lia.
  - unfold stream. cbn [plus firstn map concat fst snd length]. rewrite !app_length, sent_length. cbn [length]. lia.
Qed.

(** *** The hypotheses can be met *)
(** Three commands and forty-five bytes; the client reads nonsense. *)
Example c87_example :
  let steps := [Run Startup (VStruct [VStruct [VInt 0]]) VUnit area0; SetLocality 3;
                Run GetRandom (VStruct [VInt 2]) VUnit area0; Run GetRandom (VStruct [VInt 3]) VUnit area0] in
  let f : tpm_device (list (Z * list byte)) := fun s l cmd => (s ++ [(l, cmd)], Some []) in
  let deliver (r : nat) (_ : simulator (list (Z * list byte))) (_ : bool) (n : nat) :=
    (Datatypes.S r, if Nat.even r then Ok (repeat xff n) else Err (System 104)) in
  Forall step_ok steps
  /\ complete 45 (in_order 0 steps) = 2%nat
  /\ fst (session_over (severed deliver None f) (port_ends 0) {| line := 0%nat; left := 45; sim := idle [] |} steps)
     = {| line := 2%nat; left := 0;
          sim := {| device := [(0, [x80; x01; x00; x00; x00; x0c; x00; x00; x01; x44; x00; x00]);
                               (3, [x80; x01; x00; x00; x00; x0c; x00; x00; x01; x7b; x00; x02])];
                    taken := [x00; x00; x00];
                    waiting := repeat x00 16 |} |}.
Proof. cbn zeta. split; [repeat constructor; cbn; lia|]. vm_compute. auto. Qed.
