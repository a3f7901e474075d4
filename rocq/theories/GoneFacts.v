(** What a user of a simulator leaves behind (C108). *)
From Coq Require Import String ZArith NArith List Lia Bool.
From Coq Require Import Init.Byte.
From Verif Require Import Prelude Types Marshal WireSpec Catalogue Errors Tpm2b Client ClientSpec ClientProofs ClientFacts
  Tcp TcpSpec TcpProofs RemoteFacts Controls ControlsFacts Crowd CrowdProofs CrowdFacts GoneSpec.
From Verif Require Clients ClientsFacts.
Import ListNotations.
Open Scope Z_scope.

(** ** C108 *)
Lemma walked_snoc {A} (p : plan A) tr q k r : walked p tr (Request q k) -> walked p (tr ++ [(q, r)]) (k r).
Proof.
  intros W. remember (Request q k) as p' eqn:E. revert E. induction W as [p|q' k' r' tr p W IH]; intros E; subst.
  - apply walked_one, walked_none.
  - cbn [app]. apply walked_one. auto.
Qed.
Lemma session_snoc l cs tr rs c tr' r :
  session l cs tr rs -> walked (call_plan (level_of l cs) c) tr' (Return r) -> session l (cs ++ [c]) (tr ++ tr') (rs ++ [r]).
Proof.
  intros Se. revert tr' r. induction Se as [l|l c0 cs tr r0 trs rs W Se IH]; intros tr' r Wc.
  - cbn [app]. rewrite <- (app_nil_r tr'). eapply session_one; [exact Wc|apply session_none].
  - cbn [app]. rewrite <- app_assoc. eapply session_one; [exact W|apply IH; exact Wc].
Qed.
Lemma session_length l cs tr rs : session l cs tr rs -> length cs = length rs.
Proof. induction 1; cbn [length]; lia. Qed.

(** The part of user [i]. *)
Definition takes {S} (f : S -> request -> S * list byte) (i : nat) (y : crowd S) (m : act) : trace :=
  match m with
  | Acts _ _ => []
  | Attends j h =>
      if (j =? i)%nat
      then match nth_error (users y) i with
           | None => []
           | Some x => match front h (port h (out x)) with
                       | None => []
                       | Some (q, _) => [(q, snd (f (shared y) q))]
                       end
           end
      else []
  end.
Fixpoint taken {S} (f : S -> request -> S * list byte) (i : nat) (ms : list act) (y : crowd S) : trace :=
  match ms with
  | [] => []
  | m :: ms' => takes f i y m ++ taken f i ms' (acts (answering f) y m)
  end.

Lemma takes_heard {S} (f : S -> request -> S * list byte) i y m : takes f i y m = of_user i (hears f y m).
Proof.
  destruct m as [j p|j h]; [reflexivity|]. cbn [takes hears]. destruct (Nat.eqb_spec j i) as [->|J].
  - destruct (nth_error (users y) i) as [x|]; [|reflexivity]. destruct (front h (port h (out x))) as [[q rest]|]; [|reflexivity].
    unfold of_user. cbn [filter fst]. rewrite Nat.eqb_refl. reflexivity.
  - destruct (nth_error (users y) j) as [x|]; [|reflexivity]. destruct (front h (port h (out x))) as [[q rest]|]; [|reflexivity].
    unfold of_user. cbn [filter fst]. apply Nat.eqb_neq in J. rewrite J. reflexivity.
Qed.
Lemma taken_heard {S} (f : S -> request -> S * list byte) i : forall ms y, taken f i ms y = of_user i (heard f ms y).
Proof.
  induction ms as [|m ms IH]; intros y; [reflexivity|]. cbn [taken heard]. rewrite takes_heard, IH.
  unfold of_user. now rewrite filter_app, map_app.
Qed.
Section Gone.
Context {S : Type} (f : S -> request -> S * list byte) (Hf : polite f).
(** A turn in which the machine is not asked. *)
Definition quiet (z z' : sitter) : Prop :=
  (exists c rest, plans z = None /\ wants z = c :: rest
    /\ z' = {| sits_at := level_after (sits_at z) c; wants := rest; plans := Some (call_plan (sits_at z) c); knows := knows z |})
  \/ (exists r, plans z = Some (Return r)
    /\ z' = {| sits_at := sits_at z; wants := wants z; plans := None; knows := knows z ++ [r] |}).
Lemma user_step' piece n x z : sound n x z ->
  exists n' z', (z' = z \/ quiet z z') /\ sound n' (user_moves piece x) z'.
Proof.
  intros (Hl & Hc & El & Ec & Eh & Fo). unfold user_moves.
  destruct Fo as [D P O I N|p pl m D P Im Wi O I N|p q k m D P Sp Ne Le Wi O I N|p pl h q m D P Le Wi Q O I N]; rewrite D.
  - destruct (calls x) as [|c rest] eqn:Cx.
    + exists n, z. split; [auto|]. split; [exact Hl|]. rewrite Cx. repeat (split; [assumption|]).
      apply F_rest; try assumption. now rewrite Cx.
    + inversion Hc as [|? ? [Hok Hst] Hc']; subst.
      assert (Hl' : 0 <= level_after (set_level x) c < 256).
      { destruct c as [o|]; [|exact Hl]. destruct Hok as [Hok _]. clear - Hl Hok. destruct o; cbn [level_after locality_after operation_ok] in *; lia. }
      exists (n - 1)%nat, {| sits_at := level_after (sits_at z) c; wants := rest; plans := Some (call_plan (sits_at z) c); knows := knows z |}.
      split; [right; left; exists c, rest; auto|].
      cbn [length] in N. unfold whole_call in N. rewrite <- mult_n_Sm in N.
      unfold sound. cbn [set_level calls have sits_at wants knows].
      split; [exact Hl'|]. split; [exact Hc'|]. rewrite El. repeat (split; [reflexivity || assumption|]).
      rewrite <- El. eapply F_ready; cbn [in_call plans out inc calls]; [reflexivity|reflexivity|apply call_implemented; assumption|
        apply call_within; exact Hst|exact O|exact I|unfold whole_call; lia].
  - destruct pl as [r|q k].
    + cbn [implements] in Im. subst p. cbn [within] in Wi.
      exists (n - 1)%nat, {| sits_at := sits_at z; wants := wants z; plans := None; knows := knows z ++ [r] |}.
      split; [right; right; exists r; auto|].
      unfold sound. cbn [set_level calls have sits_at wants knows].
      repeat (split; [assumption|]). split; [now rewrite Eh|]. apply F_rest; cbn [in_call plans out inc calls]; auto. lia.
    + cbn [implements] in Im. destruct Im as (Sp & Ne & kp & -> & Le). assert (Wi' := Wi). cbn [within] in Wi'. destruct Wi' as [Wl _].
      exists (n - 1)%nat, z. split; [auto|]. assert (leg = RESP_BUFFER_SIZE + 10)%nat by reflexivity.
      unfold sound, proceeds. cbn [set_level calls have]. repeat (split; [assumption|]).
      eapply F_asked; cbn [in_call plans out inc calls]; [reflexivity|exact P|exact Sp|exact Ne|exact Le|exact Wi| |exact I|lia].
      rewrite O, port_same. reflexivity.
  - exists n, z. split; [auto|].
    destruct (some_answer q) as [r Hr]. specialize (Le r Hr) as Lr. pose proof (answered_nonempty q r Ne) as Na.
    inversion Lr as [p' X E1 E2|hn kk q' Hn Hq X E1 E2]; subst; [congruence|].
    rewrite I, port_same.
    repeat (split; [assumption|]). eapply F_asked; eauto.
  - inversion Le as [p' X E1 E2|hn kk q' Hn Hq X E1 E2]; subst; [congruence|].
    rewrite I, only_port. destruct q as [|b q]; [congruence|].
    set (mm := Nat.min (Nat.min hn (length (b :: q))) (Nat.max 1 piece)).
    assert (M : (1 <= mm <= Nat.min hn (length (b :: q)))%nat) by (unfold mm; cbn [length]; lia).
    specialize (X mm (proj1 M) (proj2 M)).
    exists (n - 1)%nat, z. split; [auto|]. cbn [length] in N.
    unfold sound, proceeds. cbn [set_level calls have]. repeat (split; [assumption|]).
    destruct (skipn mm (b :: q)) as [|b' q'] eqn:Sk.
    + inversion X as [p' X' E1 E2|hn' kk' q'' Hn' Hq' X' E1 E2]; subst; [|congruence].
      eapply F_ready; cbn [in_call plans out inc calls]; [reflexivity|exact P|exact X'|exact Wi|exact O| |lia].
      rewrite set_only. apply only_nothing.
    + apply (f_equal (@length byte)) in Sk as Ls. rewrite skipn_length in Ls. cbn [length] in Ls, M.
      eapply (F_answer _ _ _ _ _ h (b' :: q')); cbn [in_call plans out inc calls]; [reflexivity|exact P|exact X|exact Wi|discriminate|exact O|
        rewrite set_only; reflexivity|cbn [length]; lia].
Qed.
Lemma machine_step' h s n x z : sound n x z ->
  (port h (out x) = [] /\ attended f h s x = (s, x))
  \/ exists n' q k, plans z = Some (Request q k) /\ front h (port h (out x)) = Some (q, [])
      /\ out (snd (attended f h s x)) = ([], [])
      /\ sound n' (snd (attended f h s x))
           {| sits_at := sits_at z; wants := wants z; plans := Some (k (snd (f s q))); knows := knows z |}.
Proof.
  intros So. destruct (list_eq_dec Byte.byte_eq_dec (port h (out x)) []) as [E|E].
  { left. split; [exact E|]. apply attended_nothing, E. }
  right. destruct So as (Hl & Hc & El & Ec & Eh & Fo).
  destruct Fo as [D P O I N|p pl m D P Im Wi O I N|p q k m D P Sp Ne Le Wi O I N|p pl h' q m D P Le Wi Q O I N];
    rewrite O, ?port_same in E; try contradiction.
  destruct (Bool.bool_dec h (port_of q)) as [->|Hh].
  2:{ replace h with (negb (port_of q)) in E by (destruct h, (port_of q); try reflexivity; congruence). now rewrite only_other in E. }
  assert (Fr : front (port_of q) (spelled q) = Some (q, [])).
  { apply c81_understood. rewrite app_nil_r. auto. }
  specialize (Hf s q) as Pf. destruct (f s q) as [s' r] eqn:Ef. cbn [snd] in Pf.
  assert (At : attended f (port_of q) s x
    = (s', {| set_level := set_level x; calls := calls x; in_call := in_call x; have := have x; out := ([], []);
              inc := only (port_of q) (framed q (Some r)) |})).
  { unfold attended. cbn [work got unit_ due]. rewrite O, only_port, Fr. unfold answering. rewrite Ef. cbn [work unit_ got due].
    rewrite set_only, only_nothing, I, port_same. reflexivity. }
  rewrite At. cbn [fst snd]. cbn [within] in Wi. destruct Wi as [Wl Wi]. specialize (Wi r Pf).
  exists (n - 1)%nat, q, k. split; [exact P|]. rewrite O, only_port. split; [exact Fr|]. split; [reflexivity|]. rewrite Ef. cbn [snd].
  pose proof (answered_short q r Pf) as Sh.
  unfold sound. cbn [set_level calls have sits_at wants knows]. repeat (split; [assumption|]).
  eapply F_answer; cbn [in_call plans out inc calls]; [exact D|reflexivity|apply Le; exact Pf|exact Wi|apply answered_nonempty; exact Ne|reflexivity|reflexivity|].
  lia.
Qed.

(** A sitter, and what was asked of the machine in its name. *)
Definition tied (l : Z) (cs : list call) (z : sitter) (log : trace) : Prop :=
  exists done part, log = done ++ part /\
    match plans z with
    | None => exists cs1, cs = cs1 ++ wants z /\ sits_at z = level_of l cs1 /\ session l cs1 done (knows z) /\ part = []
    | Some pl => exists cs1 c, cs = cs1 ++ c :: wants z /\ sits_at z = level_of l (cs1 ++ [c])
        /\ session l cs1 done (knows z) /\ walked (call_plan (level_of l cs1) c) part pl
    end.
Lemma quiet_tied l cs z z' log : tied l cs z log -> quiet z z' -> tied l cs z' log.
Proof.
  intros (done & part & -> & T) [(c & rest & P & Wz & ->)|(r & P & ->)]; rewrite P in T.
  - destruct T as (cs1 & E & L & Se & ->). exists done, []. split; [reflexivity|]. cbn [plans wants sits_at knows].
    exists cs1, c. rewrite Wz in E. split; [exact E|]. split; [|split; [exact Se|]].
    + unfold level_of. rewrite fold_left_app. cbn [fold_left]. fold (level_of l cs1). now rewrite L.
    + rewrite L. apply walked_none.
  - destruct T as (cs1 & c & E & L & Se & W). exists (done ++ part), []. split; [now rewrite app_nil_r|]. cbn [plans wants sits_at knows].
    exists (cs1 ++ [c]). split; [rewrite <- app_assoc; exact E|]. split; [exact L|]. split; [|reflexivity].
    apply session_snoc; assumption.
Qed.
Lemma asked_tied l cs z q k r log : tied l cs z log -> plans z = Some (Request q k) ->
  tied l cs {| sits_at := sits_at z; wants := wants z; plans := Some (k r); knows := knows z |} (log ++ [(q, r)]).
Proof.
  intros (done & part & -> & T) P. rewrite P in T. destruct T as (cs1 & c & E & L & Se & W).
  exists done, (part ++ [(q, r)]). split; [now rewrite app_assoc|]. cbn [plans wants sits_at knows].
  exists cs1, c. repeat (split; [assumption|]). now apply walked_snoc.
Qed.

Lemma others y m i x : nth_error (users y) i = Some x -> actor m <> i -> nth_error (users (acts (answering f) y m)) i = Some x.
Proof.
  intros N J. destruct m as [j piece|j h]; cbn [actor acts] in *; (destruct (nth_error (users y) j) as [xj|] eqn:Nj; cbn [users]; [|exact N]);
    rewrite (ClientsFacts.nth_put_cases j i _ xj _ Nj); (destruct (Nat.eqb_spec i j); [congruence|exact N]).
Qed.
(** One move, as user [i] sees it. *)
Lemma move_tied l cs i y m x z n log : nth_error (users y) i = Some x -> sound n x z -> tied l cs z log ->
  exists x' z' n', nth_error (users (acts (answering f) y m)) i = Some x' /\ sound n' x' z'
    /\ tied l cs z' (log ++ takes f i y m)
    /\ ((forall piece, m <> Acts i piece) ->
        have x' = have x /\ calls x' = calls x /\ in_call x' = in_call x
        /\ ((x' = x /\ takes f i y m = []) \/ (out x <> ([], []) /\ out x' = ([], []) /\ length (takes f i y m) = 1%nat))).
Proof.
  intros N So T. destruct (Nat.eq_dec (actor m) i) as [A|J].
  - destruct m as [j piece|j h]; cbn [actor] in A; subst j.
    + cbn [acts takes]. rewrite N. cbn [users]. rewrite (ClientsFacts.nth_put_cases i i _ x _ N), Nat.eqb_refl, app_nil_r.
      destruct (user_step' piece n x z So) as (n' & z' & Q & So'). exists (user_moves piece x), z', n'.
      split; [reflexivity|]. split; [exact So'|]. split; [|intros X; now elim (X piece)].
      destruct Q as [->|Q]; [exact T|eapply quiet_tied; eassumption].
    + cbn [acts takes]. rewrite N, Nat.eqb_refl. cbn [users]. rewrite (ClientsFacts.nth_put_cases i i _ x _ N), Nat.eqb_refl.
      destruct (machine_step' h (shared y) n x z So) as [[O E]|(n' & q & k & P & Fr & O & So')].
      * exists x, z, n. assert (Fr : front h (port h (out x)) = None) by (rewrite O; destruct h; reflexivity).
        rewrite Fr, app_nil_r. split; [|split; [exact So|split; [exact T|intros _; auto 6]]].
        f_equal. exact (f_equal snd E).
      * rewrite Fr. eexists. eexists. exists n'. split; [reflexivity|]. split; [exact So'|].
        split; [apply asked_tied; assumption|]. intros _. cbn [have calls in_call]. repeat (split; [reflexivity|]). right.
        split; [|split; [exact O|reflexivity]]. intros Z. rewrite Z in Fr. destruct h; discriminate Fr.
  - exists x, z, n. rewrite (others y m i x N J).
    assert (E : takes f i y m = []).
    { destruct m as [j piece|j h]; cbn [takes actor] in *; [reflexivity|]. destruct (Nat.eqb_spec j i); [contradiction|reflexivity]. }
    rewrite E, app_nil_r. split; [reflexivity|]. split; [exact So|]. split; [exact T|]. intros _. auto 6.
Qed.
Lemma moves_tied l cs i : forall ms y x z n log, nth_error (users y) i = Some x -> sound n x z -> tied l cs z log ->
  exists x' z' n', nth_error (users (acted (answering f) ms y)) i = Some x' /\ sound n' x' z'
    /\ tied l cs z' (log ++ taken f i ms y)
    /\ (without i ms ->
        have x' = have x /\ calls x' = calls x /\ in_call x' = in_call x
        /\ ((x' = x /\ taken f i ms y = []) \/ (out x <> ([], []) /\ out x' = ([], []) /\ length (taken f i ms y) = 1%nat))).
Proof.
  induction ms as [|m ms IH]; intros y x z n log N So T.
  - exists x, z, n. cbn [acted fold_left taken]. rewrite app_nil_r. split; [exact N|]. split; [exact So|]. split; [exact T|]. intros _. auto 6.
  - destruct (move_tied l cs i y m x z n log N So T) as (x1 & z1 & n1 & N1 & So1 & T1 & G1).
    destruct (IH _ x1 z1 n1 _ N1 So1 T1) as (x2 & z2 & n2 & N2 & So2 & T2 & G2).
    exists x2, z2, n2. cbn [acted fold_left taken]. split; [exact N2|]. split; [exact So2|].
    rewrite app_assoc. split; [exact T2|]. intros Wo. inversion Wo as [|? ? M Wo']; subst.
    destruct (G1 M) as (H1 & C1 & D1 & K1). destruct (G2 Wo') as (H2 & C2 & D2 & K2).
    split; [congruence|]. split; [congruence|]. split; [congruence|].
    destruct K1 as [[-> ->]|(O1 & O1' & L1)]; [exact K2|].
    destruct K2 as [[-> ->]|(O2 & _ & _)]; [|contradiction]. right. rewrite app_nil_r. auto.
Qed.
End Gone.

Lemma started {S} (s : S) starts i l cs : Forall start_ok starts -> nth_error starts i = Some (l, cs) ->
  nth_error (users (arrived s starts)) i = Some (newcomer l cs) /\ sound (whole_call * length cs) (newcomer l cs) (seated l cs)
  /\ tied l cs (seated l cs) [].
Proof.
  intros Hs Ni. split.
  { unfold arrived. cbn [users]. rewrite (map_nth_error _ i starts Ni). reflexivity. }
  split.
  - apply nth_error_In in Ni. rewrite Forall_forall in Hs. destruct (Hs _ Ni) as [Hl Hc]. cbn [fst snd] in Hl, Hc.
    unfold sound. cbn [newcomer seated set_level calls have sits_at wants knows]. repeat (split; [assumption || reflexivity|]).
    apply F_rest; reflexivity.
  - exists [], []. split; [reflexivity|]. cbn [seated plans wants sits_at knows]. exists []. repeat (split; [reflexivity|]).
    split; [apply session_none|reflexivity].
Qed.
(** The machine has done what it heard, and nothing else: it is where these
    requests alone, in this order, leave it, and gave their answers. *)
Theorem c108_machine S (f : S -> request -> S * list byte) s starts ms :
  let es := heard f ms (arrived s starts) in
  served f s (map (fun e => fst (snd e)) es) = (shared (acted (answering f) ms (arrived s starts)), map snd es).
Proof.
  cbv zeta. change s with (shared (arrived s starts)) at 1. generalize (arrived s starts) as y. clear.
  induction ms as [|m ms IH]; intros y; [reflexivity|]. cbn [heard acted fold_left]. specialize (IH (acts (answering f) y m)).
  destruct m as [i p|i h]; cbn [hears app map served] in *.
  - assert (E : shared (acts (answering f) y (Acts i p)) = shared y) by (cbn [acts]; destruct (nth_error (users y) i); reflexivity).
    rewrite E in IH. exact IH.
  - cbn [acts] in *. destruct (nth_error (users y) i) as [x|]; [|exact IH].
    cbn [work got unit_ due] in *. destruct (front h (port h (out x))) as [[q rest]|]; [|exact IH].
    unfold answering in *. cbn [app map served fst snd]. destruct (f (shared y) q) as [s' r]. cbn [unit_ got due shared snd] in *.
    rewrite IH. reflexivity.
Qed.
(** At every moment, what the machine took from a user is the beginning of the
    user's session: the calls the user has the results of, in order, each in
    full, once and at its locality, with these results; then, if it is in a
    call, the beginning of that call.  Nothing is skipped, made twice or out of
    order, whatever the others do. *)
Theorem c108_beginning S (f : S -> request -> S * list byte) s starts i l cs ms :
  polite f -> Forall start_ok starts -> nth_error starts i = Some (l, cs) ->
  exists x done part, nth_error (users (acted (answering f) ms (arrived s starts))) i = Some x
    /\ of_user i (heard f ms (arrived s starts)) = done ++ part
    /\ session l (firstn (length (have x)) cs) done (have x)
    /\ match in_call x with
       | None => part = []
       | Some _ => exists c rest, nth_error cs (length (have x)) = Some c
           /\ walked (call_plan (level_of l (firstn (length (have x)) cs)) c) part rest
       end.
Proof.
  intros Hf Hs Ni. destruct (started s starts i l cs Hs Ni) as (N & So & T).
  destruct (moves_tied f Hf l cs i ms _ _ _ _ _ N So T) as (x & z & n & Nx & Sx & (done & part & E & Tz) & _).
  exists x, done, part. split; [exact Nx|]. split; [rewrite <- taken_heard; exact E|].
  destruct Sx as (_ & _ & _ & _ & Eh & Fo). rewrite Eh.
  assert (Pz : match in_call x, plans z with None, None | Some _, Some _ => True | _, _ => False end)
    by (destruct Fo as [D P|? ? ? D P|? ? ? ? D P|? ? ? ? ? D P]; rewrite D, P; exact I).
  destruct (plans z) as [pl|] eqn:P; destruct (in_call x); try contradiction.
  - destruct Tz as (cs1 & c & -> & _ & Se & W). pose proof (session_length _ _ _ _ Se) as Ls. rewrite <- Ls.
    rewrite firstn_app_exact' by reflexivity. split; [exact Se|]. exists c, pl. split; [|exact W].
    rewrite nth_error_app2, Nat.sub_diag by lia. reflexivity.
  - destruct Tz as (cs1 & -> & _ & Se & ->). pose proof (session_length _ _ _ _ Se) as Ls. rewrite <- Ls.
    rewrite firstn_app_exact' by reflexivity. auto.
Qed.
(** A user that is gone: from some moment on it makes no move.  Whatever the
    machine and the others do then, at most one more request of this user's is
    taken, and the user's session ends there. *)
Theorem c108_gone S (f : S -> request -> S * list byte) s starts i l cs ms late :
  polite f -> Forall start_ok starts -> nth_error starts i = Some (l, cs) -> without i late ->
  exists last, of_user i (heard f (ms ++ late) (arrived s starts)) = of_user i (heard f ms (arrived s starts)) ++ last
    /\ (length last <= 1)%nat
    /\ exists x x', nth_error (users (acted (answering f) ms (arrived s starts))) i = Some x
         /\ nth_error (users (acted (answering f) (ms ++ late) (arrived s starts))) i = Some x'
         /\ have x' = have x /\ calls x' = calls x /\ in_call x' = in_call x
         /\ (out x = ([], []) -> last = []).
Proof.
  intros Hf Hs Ni Wo. destruct (started s starts i l cs Hs Ni) as (N & So & T).
  destruct (moves_tied f Hf l cs i ms _ _ _ _ _ N So T) as (x & z & n & Nx & Sx & Tx & _).
  destruct (moves_tied f Hf l cs i late _ _ _ _ _ Nx Sx Tx) as (x' & z' & n' & Nx' & _ & _ & G).
  destruct (G Wo) as (H1 & H2 & H3 & H4).
  exists (taken f i late (acted (answering f) ms (arrived s starts))). split.
  { rewrite <- !taken_heard. generalize (arrived s starts). clear. induction ms as [|m ms IH]; intros y; cbn [app taken acted fold_left]; [reflexivity|].
    rewrite <- app_assoc. f_equal. apply IH. }
  split; [destruct H4 as [[_ ->]|(_ & _ & ->)]; cbn [length]; lia|].
  exists x, x'. split; [exact Nx|]. split; [unfold acted in *; rewrite fold_left_app; exact Nx'|].
  repeat (split; [assumption|]). intros O. destruct H4 as [[_ ->]|(O' & _)]; [reflexivity|contradiction].
Qed.
(** So a user that is gone in the middle of [reinit] leaves the machine without
    power: no move of anybody else makes the machine hear the rest. *)
Theorem c108_stranded :
  let starts := [(0, [Call Reinit]); (3, [Call (Transact [x80] (repeat x00 RESP_BUFFER_SIZE))])] in
  polite recorder /\ Forall start_ok starts /\
  exists ms, forall late, without 0 late ->
    map fst (of_user 0 (heard recorder (ms ++ late) (arrived [] starts))) = [AskSignal NvOff; AskSignal PowerOff].
Proof.
  cbv zeta. split; [exact (proj1 c102_torn)|].
  set (starts := [(0, [Call Reinit]); (3, [Call (Transact [x80] (repeat x00 RESP_BUFFER_SIZE))])]).
  assert (Hs : Forall start_ok starts) by (repeat constructor; cbn [fst snd]; try lia; try discriminate).
  split; [exact Hs|]. exists (concat (repeat [Acts 0 9; Attends 0 false] 5))%nat. intros late Wo.
  set (ms := concat (repeat [Acts 0 9; Attends 0 false] 5)).
  destruct (c108_gone _ recorder [] starts 0 _ _ ms late (proj1 c102_torn) Hs eq_refl Wo) as (last & E & _ & x & x' & Nx & _ & _ & _ & _ & L).
  assert (O : option_map out (nth_error (users (acted (answering recorder) ms (arrived [] starts))) 0) = Some ([], [])) by (vm_compute; reflexivity).
  rewrite Nx in O. injection O as O. rewrite E, (L O), app_nil_r. vm_compute. reflexivity.
Qed.

(** *** The hypotheses can be met *)
(** Two users; the first is gone when the machine has not yet taken what it sent
    last; the second sends a command afterwards. *)
Example c108_example :
  let starts := [(0, [Call (Locality 4); Call (Hcrtm [xaa; xbb])]); (3, [Call (Transact [x80] (repeat x00 RESP_BUFFER_SIZE))])] in
  let ms := concat (repeat [Acts 0 9; Attends 0 true] 5) ++ [Acts 0 9] in
  let late := Attends 0 true :: concat (repeat [Acts 1 9; Attends 1 true; Attends 0 true] 8) in
  polite recorder /\ Forall start_ok starts /\ without 0 late
  /\ map fst (of_user 0 (heard recorder ms (arrived [] starts))) = [AskHashStart]
  /\ shared (acted (answering recorder) (ms ++ late) (arrived [] starts)) = [AskHashStart; AskHashData [xaa; xbb]; AskCommand 3 [x80]].
Proof.
  cbv zeta. split; [exact (proj1 c102_torn)|]. split; [repeat constructor; cbn [fst snd]; try lia; try discriminate|].
  split; [repeat constructor; intros piece X; discriminate X|]. split; vm_compute; reflexivity.
Qed.
