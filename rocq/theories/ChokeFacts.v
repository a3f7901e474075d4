(** Commands the network takes in parts, over whole sessions (C84). *)
From Coq Require Import String ZArith NArith List Lia Bool.
From Coq Require Import Init.Byte.
From Verif Require Import Prelude Types Marshal WireSpec Catalogue Errors Tpm2b Client ClientSpec ClientProofs ClientFacts
  Server ServerSpec ServerProofs ServerFacts Tcp TcpSpec TcpProofs Remote RemoteFacts SpliceFacts OnceFacts SeverFacts.
Import ListNotations.
Open Scope Z_scope.

(** A connection to a simulator that takes of each write as many bytes as an
    adversary likes and reports what the adversary likes; what the client reads
    is up to the adversary as well.  [carried]: all that was taken so far. *)
Record choke (R S : Type) := { mood : R; carried : list byte; far : simulator S }.
Arguments mood {R S} _.
Arguments carried {R S} _.
Arguments far {R S} _.
Definition choked {R S} (takes : R -> simulator S -> list byte -> R * nat * outcome io_error nat)
    (deliver : R -> simulator S -> bool -> nat -> R * outcome io_error (list byte))
    (f : tpm_device S) : world (choke R S) bool unit := {|
  tcp_connect := fun w _ port => (w, Ok (port =? 2321));
  write := fun w h buf =>
    if h then
      let '(r, k, reported) := takes (mood w) (far w) buf in
      let t := taken (far w) ++ firstn k buf in
      ({| mood := r; carried := carried w ++ firstn k buf;
          far := deal f (length t) {| device := device (far w); taken := t; waiting := waiting (far w) |} |}, reported)
    else (w, Ok (length buf));
  read := fun w h n =>
    let '(r, got) := deliver (mood w) (far w) h n in ({| mood := r; carried := carried w; far := far w |}, got);
  shutdown := fun w _ => (w, Ok tt);
  sleep_one_second := fun w => w;
  read_to_string := fun w _ => (w, Ok []);
  spawn := fun w _ _ _ => (w, Ok tt);
  kill := fun w _ => (w, Ok tt)
|}.

(** What is sent for commands, one after the other. *)
Definition frames (cmds : list (Z * list byte)) : list byte := concat (map (fun p => sent (fst p) (snd p)) cmds).
Definition command_ok (p : Z * list byte) : Prop := 0 <= fst p < 256 /\ Z.of_nat (length (snd p)) < 2 ^ 32.
(** Bytes that do not begin with a whole command. *)
Definition no_command (b : list byte) : Prop :=
  forall l cmd rest, 0 <= l < 256 -> Z.of_nat (length cmd) < 2 ^ 32 -> b <> sent l cmd ++ rest.

Lemma deal_reads {S} (f : tpm_device S) fuel : forall s t q, (length t <= fuel)%nat ->
  exists cmds rest q', t = frames cmds ++ rest /\ Forall command_ok cmds /\ no_command rest
    /\ deal f fuel {| device := s; taken := t; waiting := q |}
       = {| device := executes f s cmds; taken := rest; waiting := q' |}.
Proof.
  induction fuel as [|fuel IH]; intros s t q H.
  - exists [], t, q. split; [reflexivity|]. split; [constructor|]. split; [|reflexivity].
    intros l cmd rest _ _ E. destruct t; [|cbn in H; lia].
    apply (f_equal (@length byte)) in E. rewrite app_length, sent_length in E. cbn in E. lia.
  - destruct (c70_understood S f fuel {| device := s; taken := t; waiting := q |})
      as [(l & cmd & rest & Hl & Hc & Et & Ed)|(N & Ed)]; rewrite Ed; clear Ed; cbn [device taken waiting] in *.
    + assert (Et' : t = sent l cmd ++ rest) by (rewrite Et; unfold sent; now rewrite <- !app_assoc).
      assert (Lr : (length rest <= fuel)%nat).
      { rewrite Et', app_length, sent_length in H. lia. }
      destruct (IH (fst (f s l cmd)) rest
        (q ++ match snd (f s l cmd) with
              | Some r => u32be (Z.of_nat (length r)) ++ r ++ [x00; x00; x00; x00]
              | None => [] end) Lr) as (cmds & rest' & q' & E1 & E2 & E3 & E4).
      exists ((l, cmd) :: cmds), rest', q'. split; [|split; [|split]].
      * rewrite Et', E1. unfold frames. cbn [map concat fst snd]. now rewrite <- app_assoc.
      * constructor; [split; assumption|exact E2].
      * exact E3.
      * exact E4.
    + exists [], t, q. split; [reflexivity|]. split; [constructor|]. split; [|reflexivity].
      intros l cmd rest Hl Hc E. apply (N l cmd rest Hl Hc). rewrite E. unfold sent. now rewrite <- !app_assoc.
Qed.

Section Choke.
Context {R S : Type} (takes : R -> simulator S -> list byte -> R * nat * outcome io_error nat)
  (deliver : R -> simulator S -> bool -> nat -> R * outcome io_error (list byte)) (f : tpm_device S).
Local Notation cho := (choked takes deliver f).

Lemma cho_read_loop h fuel : forall n w, exists r' bs r,
  read_loop cho fuel h n w = ({| mood := r'; carried := carried w; far := far w |}, bs, r).
Proof.
  induction fuel as [|fuel IH]; intros n w.
  { destruct n; exists (mood w); do 2 eexists; destruct w; reflexivity. }
  destruct n as [|n]; [exists (mood w); do 2 eexists; destruct w; reflexivity|].
  cbn [read_loop read choked]. destruct (deliver (mood w) (far w) h (Datatypes.S n)) as [line' r].
  destruct r as [[|b bs]|e|]; try (do 3 eexists; reflexivity).
  destruct (Datatypes.S n <? length (b :: bs))%nat; [do 3 eexists; reflexivity|].
  match goal with |- context [read_loop cho fuel h ?m ?x] => destruct (IH m x) as (l2 & b2 & r2 & E) end.
  rewrite E. do 3 eexists; reflexivity.
Qed.
Lemma cho_read_u32 w : exists r' r, read_u32 cho true w = ({| mood := r'; carried := carried w; far := far w |}, r).
Proof.
  unfold read_u32, io_bind, read_bytes, read_exact.
  destruct (cho_read_loop true 4 4 w) as (line' & bs & r & E). rewrite E.
  destruct r; do 2 eexists; reflexivity.
Qed.
Lemma cho_end w : exists r' r, check_response_end cho true w = ({| mood := r'; carried := carried w; far := far w |}, r).
Proof.
  unfold check_response_end, io_bind. destruct (cho_read_u32 w) as (line' & r & E). rewrite E.
  destruct r as [z|e|]; try (do 2 eexists; reflexivity). destruct (z =? 0); do 2 eexists; reflexivity.
Qed.
Lemma cho_transact t w cmd rsp : tpm_tcp t = true -> Z.of_nat (length cmd) < 2 ^ 32 ->
  exists r' rsp' r,
  tcp_transact cho t w cmd rsp
  = ({| mood := r'; carried := carried (fst (write cho w true (sent (locality t) cmd)));
        far := far (fst (write cho w true (sent (locality t) cmd))) |}, rsp', r).
Proof.
  intros Ht Hc. unfold tcp_transact. rewrite Ht.
  replace (2 ^ 32 <=? Z.of_nat (length cmd)) with false by (symmetry; apply Z.leb_gt; exact Hc).
  change (u32_bytes SendCommand ++ be_bytes 1 (locality t) ++ u32_bytes (Z.of_nat (length cmd)) ++ cmd)
    with (sent (locality t) cmd).
  unfold io_bind at 1, write_whole, io_bind at 1.
  destruct (write cho w true (sent (locality t) cmd)) as [w1 r1]. cbn [fst].
  assert (K : {| mood := mood w1; carried := carried w1; far := far w1 |} = w1) by (destruct w1; reflexivity).
  destruct r1 as [k|e|]; try (exists (mood w1); do 2 eexists; rewrite K; reflexivity).
  destruct (k =? length (sent (locality t) cmd))%nat; cbn [io_ret io_err];
    [|exists (mood w1); do 2 eexists; rewrite K; reflexivity].
  destruct (cho_read_u32 w1) as (l2 & r2 & E2). rewrite E2.
  destruct r2 as [z|e|]; try (do 3 eexists; reflexivity).
  destruct (Z.of_nat (length rsp) <? z); [do 3 eexists; reflexivity|]. unfold read_exact.
  match goal with |- context [read_loop cho ?a ?b ?c ?d] =>
    destruct (cho_read_loop b a c d) as (l3 & b3 & r3 & E3); rewrite E3 end.
  destruct r3 as [u|e|]; try (do 3 eexists; reflexivity).
  match goal with |- context [check_response_end cho true ?d] =>
    destruct (cho_end d) as (l4 & r4 & E4); rewrite E4 end.
  do 3 eexists; reflexivity.
Qed.
Lemma cho_run t w c cmd handles a : tpm_tcp t = true -> valid_call c cmd handles a ->
  exists r' r,
  run_command_with_handles FromTss (tcp_connection cho t) w c cmd handles a
  = ({| mood := r';
        carried := if Z.of_nat (length (command_frame c cmd handles a)) <=? 4096
                then carried (fst (write cho w true (sent (locality t) (command_frame c cmd handles a)))) else carried w;
        far := if Z.of_nat (length (command_frame c cmd handles a)) <=? 4096
               then far (fst (write cho w true (sent (locality t) (command_frame c cmd handles a)))) else far w |}, r).
Proof.
  intros Ht V. unfold run_command_with_handles.
  destruct (Z.leb_spec (Z.of_nat (length (command_frame c cmd handles a))) 4096) as [L|L].
  - rewrite (build_frame c cmd handles a V L). cbn [transact tcp_connection].
    destruct (cho_transact t w (command_frame c cmd handles a) (repeat x00 RESP_BUFFER_SIZE) Ht)
      as (l1 & rsp & r & E); [lia|]. rewrite E. destruct r; do 2 eexists; reflexivity.
  - destruct (build_too_long c cmd handles a V) as [E|E]; [unfold fits; lia| |]; rewrite E;
      exists (mood w); eexists; destruct w; reflexivity.
Qed.
(** The commands that stand in what was taken have been executed, and the rest
    is with the simulator. *)
Definition kept (s : S) (w : choke R S) : Prop :=
  exists cmds, carried w = frames cmds ++ taken (far w) /\ Forall command_ok cmds
    /\ no_command (taken (far w)) /\ device (far w) = executes f s cmds.
Lemma cho_write s w buf : kept s w ->
  exists k, carried (fst (write cho w true buf)) = carried w ++ firstn k buf
    /\ k = snd (fst (takes (mood w) (far w) buf))
    /\ kept s (fst (write cho w true buf)).
Proof.
  intros (cmds & Ec & Ok1 & _ & Ed). cbn [write choked]. destruct (takes (mood w) (far w) buf) as [[r k] rep].
  cbn [fst snd carried]. exists k. split; [reflexivity|]. split; [reflexivity|].
  destruct (deal_reads f (length (taken (far w) ++ firstn k buf)) (device (far w)) (taken (far w) ++ firstn k buf)
    (waiting (far w)) (le_n _)) as (more & rest & q' & E1 & E2 & E3 & E4).
  exists (cmds ++ more). unfold kept. cbn [carried far]. rewrite E4. cbn [taken device].
  split; [|split; [|split]].
  - rewrite Ec, <- app_assoc, E1. unfold frames. rewrite map_app, concat_app, <- app_assoc. reflexivity.
  - apply Forall_app. split; assumption.
  - exact E3.
  - rewrite Ed. unfold executes. rewrite fold_left_app. reflexivity.
Qed.
Lemma cho_session s steps : Forall step_ok steps -> forall t w, tpm_tcp t = true -> kept s w ->
  exists parts,
    carried (fst (session_over cho t w steps)) = carried w ++ concat parts
    /\ Forall2 (fun p part => exists k, part = firstn k (sent (fst p) (snd p))) (in_order (locality t) steps) parts
    /\ kept s (fst (session_over cho t w steps)).
Proof.
  induction 1 as [|[l'|c cmd handles a] steps Hs Ho IH]; intros t w Ht K; cbn [session_over in_order].
  - exists []. cbn. rewrite app_nil_r. split; [reflexivity|]. split; [constructor|exact K].
  - exact (IH (set_locality t l') w Ht K).
  - destruct (cho_run t w c cmd handles a Ht Hs) as (r' & r & E). rewrite E.
    destruct (Z.leb_spec (Z.of_nat (length (command_frame c cmd handles a))) 4096) as [L|L].
    + destruct (cho_write s w (sent (locality t) (command_frame c cmd handles a)) K) as (k & Ek & _ & K').
      set (w1 := fst (write cho w true (sent (locality t) (command_frame c cmd handles a)))) in *.
      assert (K1 : kept s {| mood := r'; carried := carried w1; far := far w1 |}) by exact K'.
      destruct (IH t _ Ht K1) as (parts & P1 & P2 & P3). cbn [carried] in P1.
      destruct (session_over cho t {| mood := r'; carried := carried w1; far := far w1 |} steps) as [w2 rs].
      cbn [fst] in *. exists (firstn k (sent (locality t) (command_frame c cmd handles a)) :: parts).
      split; [|split; [|exact P3]].
      * rewrite P1, Ek. cbn [concat]. now rewrite <- app_assoc.
      * cbn [app]. constructor; [exists k; reflexivity|exact P2].
    + assert (K1 : kept s {| mood := r'; carried := carried w; far := far w |}) by exact K.
      destruct (IH t _ Ht K1) as (parts & P1 & P2 & P3). cbn [carried] in P1.
      destruct (session_over cho t {| mood := r'; carried := carried w; far := far w |} steps) as [w2 rs].
      exists parts. split; [exact P1|]. split; [exact P2|exact P3].
Qed.
End Choke.
Lemma no_command_nil : no_command [].
Proof. intros l cmd rest _ _ E. apply (f_equal (@length byte)) in E. rewrite app_length, sent_length in E. cbn in E. lia. Qed.
Lemma kept_idle {R S} (f : tpm_device S) s (r : R) : kept f s {| mood := r; carried := []; far := idle s |}.
Proof. exists []. split; [reflexivity|]. split; [constructor|]. split; [exact no_command_nil|reflexivity]. Qed.

(** ** C84 *)
(** Whole sessions, whatever part of each command the network takes and
    whatever it reports and delivers: what was taken is a beginning of what is
    sent for each command, one after the other, and the TPM has executed the
    commands that stand in it - not those of the session - as far as they are
    whole. *)
Theorem c84_stream_partial R S takes deliver (f : tpm_device S) l s (r : R) steps :
  0 <= l < 256 -> Forall step_ok steps ->
  let w := fst (session_over (choked takes deliver f) (port_ends l) {| mood := r; carried := []; far := idle s |} steps) in
  exists parts cmds rest,
    Forall2 (fun p part => exists k, part = firstn k (sent (fst p) (snd p))) (in_order l steps) parts
    /\ carried w = concat parts
    /\ carried w = frames cmds ++ rest /\ Forall command_ok cmds /\ no_command rest
    /\ device (far w) = executes f s cmds.
Proof.
  intros Hl Hs w.
  destruct (cho_session takes deliver f s steps Hs (port_ends l) {| mood := r; carried := []; far := idle s |} eq_refl
    (kept_idle f s r)) as (parts & P1 & P2 & cmds & K1 & K2 & K3 & K4).
  exists parts, cmds, (taken (far w)). split; [exact P2|]. split; [exact P1|]. split; [exact K1|]. split; [exact K2|].
  split; [exact K3|exact K4].
Qed.

Lemma same_front {A} (a b x y : list A) : length a = length b -> a ++ x = b ++ y -> a = b /\ x = y.
Proof.
  revert b. induction a as [|h a IH]; intros [|g b] L E; try discriminate L; [split; [reflexivity|exact E]|].
  injection E as -> E. destruct (IH b) as [-> ->]; [now injection L|exact E|]. split; reflexivity.
Qed.
Lemma sent_inj l1 cmd1 x l2 cmd2 y :
  command_ok (l1, cmd1) -> command_ok (l2, cmd2) -> sent l1 cmd1 ++ x = sent l2 cmd2 ++ y ->
  l1 = l2 /\ cmd1 = cmd2 /\ x = y.
Proof.
  intros [H1 C1] [H2 C2] E. cbn [fst snd] in *. unfold sent in E. rewrite <- !app_assoc in E.
  apply app_inv_head in E. apply same_front in E as [El E]; [|now rewrite !be_bytes_length].
  apply same_front in E as [En E]; [|unfold u32be; now rewrite !be_bytes_length].
  apply (f_equal be_val) in El, En. rewrite !u32be_val in En by (unfold u32_ok; lia).
  rewrite !be_val_bytes, !Z.mod_small in El by (change (pow256 1) with 256; lia).
  apply same_front in E as [Ec Er]; [|lia]. auto.
Qed.
(** These commands are fixed by the bytes taken. *)
Theorem c84_unique cmds1 : forall cmds2 rest1 rest2,
  Forall command_ok cmds1 -> Forall command_ok cmds2 -> no_command rest1 -> no_command rest2 ->
  frames cmds1 ++ rest1 = frames cmds2 ++ rest2 -> cmds1 = cmds2 /\ rest1 = rest2.
Proof.
  induction cmds1 as [|[l1 c1] cmds1 IH]; intros [|[l2 c2] cmds2] rest1 rest2 O1 O2 N1 N2 E.
  - split; [reflexivity|exact E].
  - exfalso. inversion O2 as [|? ? [Hl Hc] _]; subst. cbn [frames map concat fst snd app] in E, Hl, Hc.
    apply (N1 l2 c2 (frames cmds2 ++ rest2) Hl Hc). unfold frames in E |- *. cbn [map concat fst snd app] in E.
    rewrite E. now rewrite <- app_assoc.
  - exfalso. inversion O1 as [|? ? [Hl Hc] _]; subst. cbn [fst snd] in Hl, Hc.
    apply (N2 l1 c1 (frames cmds1 ++ rest1) Hl Hc). unfold frames in E |- *. cbn [map concat fst snd app] in E.
    rewrite <- E. now rewrite <- app_assoc.
  - inversion O1 as [|? ? Oa Ob]; subst. inversion O2 as [|? ? Oc Od]; subst.
    unfold frames in E. cbn [map concat fst snd] in E. rewrite <- !app_assoc in E.
    apply sent_inj in E as (-> & -> & E); [|assumption|assumption].
    destruct (IH cmds2 rest1 rest2 Ob Od N1 N2 E) as [-> ->]. auto.
Qed.

Lemma zeros_in_front parts : forall m, (m <= 3)%nat ->
  Forall (fun part => exists l cmd k, part = firstn k (sent l cmd)) parts ->
  Forall (eq x00) (firstn m (concat parts)).
Proof.
  induction parts as [|p parts IH]; intros m Hm F; [destruct m; constructor|].
  inversion F as [|? ? (l & cmd & k & ->) F']; subst. cbn [concat]. rewrite firstn_app. apply Forall_app. split.
  - rewrite firstn_firstn. change (sent l cmd) with ([x00; x00; x00; x08] ++ be_bytes 1 l ++ u32be (Z.of_nat (length cmd)) ++ cmd).
    destruct (Nat.min m k) as [|[|[|[|n]]]] eqn:En; [..|exfalso; lia]; cbn; repeat constructor.
  - apply IH; [lia|exact F'].
Qed.
(** If the network takes one, two or three bytes of a command, no command is
    executed any more: the part and whatever is sent later never make a
    command. *)
Theorem c84_deaf_partial R S takes deliver (f : tpm_device S) l s (r : R) c cmd handles a steps :
  0 <= l < 256 -> Forall step_ok (Run c cmd handles a :: steps) -> fits (command_frame c cmd handles a) ->
  (1 <= snd (fst (takes r (idle s) (sent l (command_frame c cmd handles a)))) <= 3)%nat ->
  device (far (fst (session_over (choked takes deliver f) (port_ends l) {| mood := r; carried := []; far := idle s |}
                      (Run c cmd handles a :: steps)))) = s.
Proof.
  intros Hl Hs Hf Hk. inversion Hs as [|? ? Hv Hs']; subst. cbn [step_ok] in Hv.
  cbn [session_over].
  destruct (cho_run takes deliver f (port_ends l) {| mood := r; carried := []; far := idle s |} c cmd handles a eq_refl Hv)
    as (r' & res & E). rewrite E. clear E.
  replace (Z.of_nat (length (command_frame c cmd handles a)) <=? 4096) with true
    by (symmetry; apply Z.leb_le; exact Hf).
  cbn [locality port_ends].
  destruct (cho_write takes deliver f s {| mood := r; carried := []; far := idle s |}
    (sent l (command_frame c cmd handles a)) (kept_idle f s r)) as (k & Ek & Ek' & K).
  cbn [mood far carried app] in Ek, Ek'.
  set (w1 := fst (write (choked takes deliver f) {| mood := r; carried := []; far := idle s |} true
                   (sent l (command_frame c cmd handles a)))) in *.
  assert (K1 : kept f s {| mood := r'; carried := carried w1; far := far w1 |}) by exact K.
  destruct (cho_session takes deliver f s steps Hs' (port_ends l) _ eq_refl K1)
    as (parts & P1 & P2 & cmds & Q1 & Q2 & Q3 & Q4).
  cbn [carried] in P1. unfold port_ends in *.
  destruct (session_over (choked takes deliver f) {| tpm_tcp := true; plat_tcp := false; locality := l |}
    {| mood := r'; carried := carried w1; far := far w1 |} steps) as [w2 rs].
  cbn [fst] in *. rewrite Q4. destruct cmds as [|[l' cmd'] cmds]; [reflexivity|exfalso].
  rewrite <- Ek' in Hk.
  assert (Z4 : Forall (eq x00) (firstn 4 (carried w2))).
  { rewrite P1, Ek. replace (firstn k (sent l (command_frame c cmd handles a))) with (firstn k [x00; x00; x00]).
    2:{ change (sent l (command_frame c cmd handles a))
          with ([x00; x00; x00] ++ x08 :: be_bytes 1 l ++ u32be (Z.of_nat (length (command_frame c cmd handles a))) ++ command_frame c cmd handles a).
        rewrite firstn_app. replace (k - length [x00; x00; x00])%nat with 0%nat by (cbn; lia). cbn [firstn]. now rewrite app_nil_r. }
    rewrite firstn_app. apply Forall_app. split.
    - rewrite firstn_firstn. destruct k as [|[|[|[|k]]]]; [..|exfalso; lia]; cbn; repeat constructor.
    - apply zeros_in_front; [rewrite firstn_length; change (length [x00; x00; x00]) with 3%nat; lia|].
      clear - P2. induction P2 as [|p part ps parts (n & ->) P2 IH]; [constructor|].
      constructor; [exists (fst p), (snd p), n; reflexivity|exact IH]. }
  rewrite Q1 in Z4. unfold frames in Z4. cbn [map concat fst snd] in Z4.
  change (sent l' cmd') with ([x00; x00; x00; x08] ++ be_bytes 1 l' ++ u32be (Z.of_nat (length cmd')) ++ cmd') in Z4.
  cbn in Z4. inversion Z4 as [|? ? _ Z3]; subst. inversion Z3 as [|? ? _ Z2]; subst. inversion Z2 as [|? ? _ Z1]; subst.
  inversion Z1 as [|? ? B _]; subst. discriminate B.
Qed.

(** A network that takes each command whole or not at all does no harm: the
    TPM executes those taken, in order, and nothing else. *)
Theorem c84_all_or_nothing_partial R S takes deliver (f : tpm_device S) l s (r : R) steps :
  0 <= l < 256 -> Forall step_ok steps ->
  (forall r x buf, snd (fst (takes r x buf)) = 0%nat \/ (length buf <= snd (fst (takes r x buf)))%nat) ->
  let w := fst (session_over (choked takes deliver f) (port_ends l) {| mood := r; carried := []; far := idle s |} steps) in
  exists went, length went = length (in_order l steps)
    /\ let those := map fst (filter snd (combine (in_order l steps) went)) in
       carried w = frames those /\ taken (far w) = [] /\ device (far w) = executes f s those.
Proof.
  intros Hl Hs Ht.
  assert (G : forall steps, Forall step_ok steps -> forall t w, tpm_tcp t = true -> 0 <= locality t < 256 ->
    taken (far w) = [] ->
    exists went, length went = length (in_order (locality t) steps)
    /\ let those := map fst (filter snd (combine (in_order (locality t) steps) went)) in
       let w' := fst (session_over (choked takes deliver f) t w steps) in
       carried w' = carried w ++ frames those /\ taken (far w') = []
       /\ device (far w') = executes f (device (far w)) those).
  { clear steps Hs l Hl r s. induction 1 as [|[l'|c cmd handles a] steps Hs Ho IH]; intros t w Tt Hl Tk; cbn [session_over in_order].
    - exists []. cbn. rewrite app_nil_r. auto.
    - exact (IH (set_locality t l') w Tt Hs Tk).
    - destruct (cho_run takes deliver f t w c cmd handles a Tt Hs) as (r' & r & E). rewrite E. clear E.
      destruct (Z.leb_spec (Z.of_nat (length (command_frame c cmd handles a))) 4096) as [L|L].
      + set (fr := command_frame c cmd handles a) in *. cbn [write choked].
        specialize (Ht (mood w) (far w) (sent (locality t) fr)).
        destruct (takes (mood w) (far w) (sent (locality t) fr)) as [[r1 k] rep]. cbn [fst snd carried far] in Ht |- *.
        rewrite Tk. cbn [app]. destruct Ht as [-> |Hk].
        * cbn [firstn length deal]. rewrite app_nil_r.
          destruct (IH t {| mood := r'; carried := carried w;
             far := {| device := device (far w); taken := []; waiting := waiting (far w) |} |} Tt Hl eq_refl)
            as (went & W1 & W2 & W3 & W4).
          cbn [carried far device] in W2, W4.
          destruct (session_over (choked takes deliver f) t _ steps) as [w2 rs]. cbn [fst] in *.
          exists (false :: went). cbn [length combine filter map snd]. split; [rewrite W1; reflexivity|].
          split; [exact W2|]. split; [exact W3|exact W4].
        * rewrite firstn_all2 by exact Hk. rewrite sent_length. cbn [Nat.add].
          assert (Ed : deal f (Datatypes.S (8 + length fr))
              {| device := device (far w); taken := sent (locality t) fr; waiting := waiting (far w) |}
            = {| device := fst (f (device (far w)) (locality t) fr); taken := [];
                 waiting := waiting (far w) ++ match snd (f (device (far w)) (locality t) fr) with
                   | Some r => u32be (Z.of_nat (length r)) ++ r ++ [x00; x00; x00; x00] | None => [] end |})
            by (apply deal_frame; [exact Hl|lia]).
          cbn [Nat.add] in Ed. rewrite Ed. clear Ed.
          match goal with |- context [session_over _ t ?w1 steps] =>
            destruct (IH t w1 Tt Hl eq_refl) as (went & W1 & W2 & W3 & W4) end.
          cbn [carried far device] in W2, W4.
          destruct (session_over (choked takes deliver f) t _ steps) as [w2 rs]. cbn [fst] in *.
          exists (true :: went). cbn [app length combine filter map snd]. split; [cbn; now rewrite W1|].
          split; [rewrite W2, <- app_assoc; reflexivity|]. split; [exact W3|exact W4].
      + destruct (IH t {| mood := r'; carried := carried w; far := far w |} Tt Hl Tk) as (went & W1 & W2 & W3 & W4).
        destruct (session_over (choked takes deliver f) t _ steps) as [w2 rs]. cbn [fst carried far app] in *.
        exists went. auto. }
  intros w. destruct (G steps Hs (port_ends l) {| mood := r; carried := []; far := idle s |} eq_refl Hl eq_refl)
    as (went & W1 & W2 & W3 & W4).
  exists went. auto.
Qed.

(** Two commands of the library, of which the network takes 20 and 21 bytes:
    the TPM has executed one command, which nobody gave.  Of three, the first
    of which it takes three bytes of, none is executed. *)
Example c84_stream_example :
  let takes (ks : list nat) (_ : simulator (list (list byte))) (_ : list byte) := (tl ks, hd 0%nat ks, Ok (hd 0%nat ks)) in
  let deliver (ks : list nat) (_ : simulator (list (list byte))) (_ : bool) (_ : nat) := (ks, Err UnexpectedEof) in
  let startup := Run Startup (VStruct [VStruct [VInt 1]]) VUnit area0 in
  let after ks steps := fst (session_over (choked takes deliver remembering) (port_ends 0)
                               {| mood := ks; carried := []; far := idle [] |} steps) in
  Forall step_ok [startup] /\ in_order 0 [startup] = [(0, startup_command)]
  /\ device (far (after [20; 21]%nat [startup; startup]))
     = [[x80; x01; x00; x00; x00; x0c; x00; x00; x01; x44; x00; x00]]
  /\ carried (after [20; 21]%nat [startup; startup])
     = frames [(0, [x80; x01; x00; x00; x00; x0c; x00; x00; x01; x44; x00; x00])] ++ skipn 1 (sent 0 startup_command)
  /\ device (far (after [3; 21; 21]%nat [startup; startup; startup])) = []
  /\ device (far (after [0; 21; 21]%nat [startup; startup; startup])) = [startup_command; startup_command].
Proof.
  cbn zeta. split; [repeat constructor; cbn; lia|]. vm_compute. repeat split; reflexivity.
Qed.
