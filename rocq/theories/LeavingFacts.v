(** Users of a simulator some of whom leave (C112). *)
From Coq Require Import String ZArith NArith List Lia Bool.
From Coq Require Import Init.Byte.
From Verif Require Import Prelude Types Marshal WireSpec Catalogue Errors Client ClientSpec
  Tcp TcpSpec TcpProofs RemoteFacts Controls ControlsFacts Crowd CrowdProofs CrowdFacts Strangers StrangersFacts LeavingSpec.
From Verif Require Clients ClientsFacts.
Import ListNotations.
Open Scope Z_scope.

Definition adding (b : bool) (x : user) : user :=
  {| set_level := set_level x; calls := calls x ++ farewell b; in_call := in_call x; have := have x; out := out x; inc := inc x |}.
(** The call that ends the session, move by move. *)
Definition advance (p : talk result) : talk result :=
  match p with
  | Writes h bytes k => k (Ok (length bytes))
  | Shuts h k => k (Ok tt)
  | _ => p
  end.
Definition stage (j : nat) : talk result := Nat.iter j advance (call_t 0 (Call EndSession)).
Definition sent_by (j : nat) (h : bool) : bool := if h then (1 <=? j)%nat else (3 <=? j)%nat.
Definition ending (sent : bool) (x : user) (ends : bool -> list request) (h : bool) : Prop :=
  if sent then (ends h = [] /\ port h (out x) = be_bytes 4 20) \/ (ends h = [AskEnd h] /\ port h (out x) = [])
  else ends h = [] /\ port h (out x) = [].
Definition pending (x : user) : nat := length (port true (out x)) + length (port false (out x)).

Inductive parted (b : bool) (n : nat) (x : user) (z : sitter) (ends : bool -> list request) : Prop :=
| P_here x0 m : x = adding b x0 -> sound m x0 z -> (forall h, ends h = []) -> (m + (if b then 48 else 0) <= n)%nat -> parted b n x z ends
| P_leaving j : b = true -> (j <= 4)%nat -> in_call x = Some (stage j) -> calls x = [] -> have x = knows z ->
    wants z = [] -> plans z = None -> inc x = ([], []) -> (forall h, ending (sent_by j h) x ends h) ->
    (8 * (5 - j) + pending x <= n)%nat -> parted b n x z ends
| P_gone : b = true -> in_call x = None -> calls x = [] -> have x = knows z ++ [Called (Ok Done)] ->
    wants z = [] -> plans z = None -> inc x = ([], []) -> (forall h, ending true x ends h) ->
    (pending x <= n)%nat -> parted b n x z ends.

Section Leaving.
Context {S : Type} (f : S -> request -> S * list byte) (Hf : polite f).

Lemma adding_moves b piece x : (in_call x = None -> calls x = [] -> b = false) ->
  user_moves piece (adding b x) = adding b (user_moves piece x).
Proof.
  intros B. unfold user_moves, adding, proceeds. destruct x as [l cs ic hv o i]. cbn [in_call calls set_level have out inc] in *.
  destruct ic as [[r|h bs k|h n k|h k]|]; cbn; try reflexivity.
  - destruct (port h i); reflexivity.
  - destruct cs as [|c cs]; [|reflexivity]. rewrite (B eq_refl eq_refl). reflexivity.
Qed.
Lemma adding_attended b h s x :
  attended f h s (adding b x) = (fst (attended f h s x), adding b (snd (attended f h s x))).
Proof. reflexivity. Qed.
Lemma ends_code h : front h (be_bytes 4 20) = Some (AskEnd h, []).
Proof. destruct h; reflexivity. Qed.
Lemma end_taken h s x : port h (out x) = be_bytes 4 20 ->
  attended f h s x = (fst (f s (AskEnd h)),
    {| set_level := set_level x; calls := calls x; in_call := in_call x; have := have x;
       out := set_port h [] (out x); inc := inc x |}).
Proof.
  intros E. unfold attended, work. cbn [got unit_ due]. rewrite E, ends_code. unfold answering.
  destruct (f s (AskEnd h)) as [s' r]. cbn [unit_ got due framed fst]. rewrite app_nil_r. f_equal. f_equal.
  destruct h; cbn [set_port port]; destruct (inc x); reflexivity.
Qed.

Lemma leaver_moves piece b n x z ends : parted b n x z ends ->
  exists n' z',
    (z' = z \/ forall s zs i, nth_error zs i = Some z -> turn f (s, zs) i = (s, Clients.put i z' zs))
    /\ parted b n' (user_moves piece x) z' ends
    /\ ((n' < n)%nat
        \/ (n' = n /\ z' = z /\ user_moves piece x = x /\ ((in_call x = None /\ calls x = []) \/ out x <> ([], [])))).
Proof.
  intros [x0 m -> So En L|j -> J D Cs Hv Wz Pz I En L| -> D Cs Hv Wz Pz I En L].
  - assert (B : (in_call x0 = None -> calls x0 = [] -> b = false) \/ (in_call x0 = None /\ calls x0 = [] /\ b = true)).
    { destruct (in_call x0) as [p|]; [left; discriminate|]. destruct (calls x0); [|left; discriminate]. destruct b; auto. }
    destruct B as [B|(D & Cs & ->)].
    + destruct (user_step f piece m x0 z So) as (m' & z' & T & So' & C).
      rewrite (adding_moves b piece x0 B).
      destruct C as [C|(-> & -> & E & C)].
      * exists (n - 1)%nat, z'. split; [exact T|]. split; [apply (P_here _ _ _ _ _ (user_moves piece x0) m'); auto; destruct b; lia|]. left. lia.
      * exists n, z. split; [left; reflexivity|]. split; [apply (P_here _ _ _ _ _ (user_moves piece x0) m); auto|].
        right. rewrite E. repeat (split; [reflexivity|]). cbn [adding in_call calls out]. destruct C as [[D Cs]|C]; [|right; exact C].
        left. split; [exact D|]. rewrite Cs, (B D Cs). reflexivity.
    + destruct So as (Hl & Hc & El & Ec & Eh & Fo). assert (K : out x0 = ([], []) /\ inc x0 = ([], []) /\ plans z = None)
        by (destruct Fo; try congruence; auto). destruct K as (O & I & Pz).
      exists (n - 1)%nat, z. split; [left; reflexivity|]. split; [|left; lia].
      apply (P_leaving _ _ _ _ _ 0); unfold user_moves, adding; cbn [in_call calls have out inc set_level]; rewrite ?D, ?Cs; try reflexivity; try assumption; try lia.
      * congruence.
      * intros h. unfold ending. cbn [out]. rewrite O. replace (sent_by 0 h) with false by (destruct h; reflexivity). split; [apply En|destruct h; reflexivity].
      * unfold pending. cbn [out app farewell]. rewrite O. cbn [port fst snd length]. lia.
  - assert (K : (user_moves piece x = proceeds x (stage (j + 1)) (out x) (inc x) /\ (j = 1 \/ j = 3)%nat)
        \/ (exists h, user_moves piece x = proceeds x (stage (j + 1)) (set_port h (port h (out x) ++ be_bytes 4 20) (out x)) (inc x)
              /\ (j = 0 /\ h = true \/ j = 2 /\ h = false)%nat)
        \/ (j = 4%nat /\ user_moves piece x = {| set_level := set_level x; calls := calls x; in_call := None;
              have := have x ++ [Called (Ok Done)]; out := out x; inc := inc x |})).
    { unfold user_moves. rewrite D. destruct j as [|[|[|[|[|j]]]]]; [..|lia].
      - right. left. exists true. split; [reflexivity|auto].
      - left. split; [reflexivity|auto].
      - right. left. exists false. split; [reflexivity|auto].
      - left. split; [reflexivity|auto].
      - right. right. split; reflexivity. }
    exists (n - 1)%nat, z. split; [left; reflexivity|].
    destruct K as [[-> K]|[(h & -> & K)|[-> ->]]]; (split; [|left; lia]).
    + apply (P_leaving _ _ _ _ _ (j + 1)); cbn [proceeds in_call calls have inc]; try assumption; try reflexivity; try lia.
      * intros h. specialize (En h). replace (sent_by (j + 1) h) with (sent_by j h) by (destruct K as [-> | ->], h; reflexivity). exact En.
      * unfold pending in *. cbn [proceeds out] in *. lia.
    + pose proof (En h) as Eh. replace (sent_by j h) with false in Eh by (destruct K as [[-> ->]|[-> ->]]; reflexivity).
      destruct Eh as [E1 E2]. rewrite E2. cbn [app].
      apply (P_leaving _ _ _ _ _ (j + 1)); cbn [proceeds in_call calls have inc]; try assumption; try reflexivity; try lia.
      * intros h'. specialize (En h'). unfold ending in *. cbn [proceeds out]. rewrite port_set.
        destruct (Bool.eqb_spec h' h) as [->|N].
        { replace (sent_by (j + 1) h) with true by (destruct K as [[-> ->]|[-> ->]]; reflexivity). left. auto. }
        replace (sent_by (j + 1) h') with (sent_by j h') by (destruct K as [[-> ->]|[-> ->]], h'; congruence || reflexivity). exact En.
      * unfold pending in *. cbn [proceeds out]. rewrite !port_set. destruct K as [[-> ->]|[-> ->]]; cbn [Bool.eqb]; rewrite be_bytes_length; lia.
    + apply P_gone; cbn [in_call calls have inc]; try assumption; try reflexivity.
      * now rewrite Hv.
      * intros h. specialize (En h). replace (sent_by 4 h) with true in En by (destruct h; reflexivity). exact En.
      * unfold pending in *. cbn [out]. lia.
  - exists n, z. unfold user_moves. rewrite D, Cs. split; [left; reflexivity|]. split; [apply P_gone; auto|]. right. auto 6.
Qed.

Definition one_more (h : bool) (ends : bool -> list request) (h' : bool) : list request :=
  ends h' ++ (if Bool.eqb h' h then [AskEnd h] else []).
Lemma leaver_attended h s b n x z ends : parted b n x z ends ->
  exists n' z' ends',
    ((z' = z /\ fst (attended f h s x) = s /\ ends' = ends)
     \/ ((forall zs i, nth_error zs i = Some z -> turn f (s, zs) i = (fst (attended f h s x), Clients.put i z' zs)) /\ ends' = ends)
     \/ (z' = z /\ fst (attended f h s x) = fst (f s (AskEnd h)) /\ ends' = one_more h ends))
    /\ parted b n' (snd (attended f h s x)) z' ends'
    /\ ((n' < n)%nat \/ (n' = n /\ z' = z /\ snd (attended f h s x) = x /\ port h (out x) = [])).
Proof.
  intros Pa. destruct (list_eq_dec Byte.byte_eq_dec (port h (out x)) []) as [E|E].
  { rewrite attended_nothing by exact E. exists n, z, ends. cbn [fst snd]. auto 9. }
  destruct Pa as [x0 m -> So En L|j -> J D Cs Hv Wz Pz I En L| -> D Cs Hv Wz Pz I En L].
  - rewrite adding_attended. cbn [fst snd]. destruct (machine_step f Hf h s m x0 z So) as (m' & z' & T & So' & C).
    exists (n - 1)%nat, z', ends. split; [destruct T as [[-> T]|T]; auto|].
    destruct C as [C|(-> & -> & E1 & E2)]; [|contradiction E].
    split; [|left; lia]. apply (P_here _ _ _ _ _ (snd (attended f h s x0)) m'); auto. destruct b; lia.
  - pose proof (En h) as Eh. destruct (sent_by j h) eqn:Sj; [|destruct Eh as [_ Eh]; contradiction].
    destruct Eh as [[E1 E2]|[_ E2]]; [|contradiction]. rewrite (end_taken h s x E2). cbn [fst snd].
    exists (n - 1)%nat, z, (one_more h ends). split; [auto 6|].
    assert (Pn : (pending {| set_level := set_level x; calls := calls x; in_call := in_call x; have := have x;
                            out := set_port h [] (out x); inc := inc x |} < pending x)%nat).
    { unfold pending. cbn [out]. rewrite !port_set. destruct h; cbn [Bool.eqb]; rewrite E2, be_bytes_length; cbn [length]; lia. }
    split; [|left; lia].
    apply (P_leaving _ _ _ _ _ j); cbn [in_call calls have inc]; try assumption; try reflexivity; try lia.
    intros h'. specialize (En h'). unfold ending, one_more in *. cbn [out]. rewrite port_set.
    destruct (Bool.eqb_spec h' h) as [->|N]; [rewrite Sj, E1; right; auto|rewrite app_nil_r; exact En].
  - pose proof (En h) as Eh. destruct Eh as [[E1 E2]|[_ E2]]; [|contradiction]. rewrite (end_taken h s x E2). cbn [fst snd].
    exists (n - 1)%nat, z, (one_more h ends). split; [auto 6|].
    assert (Pn : (pending {| set_level := set_level x; calls := calls x; in_call := in_call x; have := have x;
                            out := set_port h [] (out x); inc := inc x |} < pending x)%nat).
    { unfold pending. cbn [out]. rewrite !port_set. destruct h; cbn [Bool.eqb]; rewrite E2, be_bytes_length; cbn [length]; lia. }
    split; [|left; lia].
    apply P_gone; cbn [in_call calls have inc]; try assumption; try reflexivity; try lia.
    intros h'. specialize (En h'). unfold ending, one_more in *. cbn [out]. rewrite port_set.
    destruct (Bool.eqb_spec h' h) as [->|N]; [rewrite E1; right; auto|rewrite app_nil_r; exact En].
Qed.

(** Everybody. *)
Definition all_parted (bs : list bool) (o : list entry) (us : list user) (zs : list sitter) : Prop :=
  length us = length bs /\ length zs = length bs /\
  forall i x z b, nth_error us i = Some x -> nth_error zs i = Some z -> nth_error bs i = Some b ->
    exists n, parted b n x z (fun h => asked i h o).
Lemma asked_end i j h h' : asked i h [Asked j h' (AskEnd h')] = if (i =? j)%nat && Bool.eqb h h' then [AskEnd h'] else [].
Proof. unfold asked. cbn [flat_map]. now rewrite app_nil_r. Qed.
Lemma parted_ext b n x z ends ends' : (forall h, ends h = ends' h) -> parted b n x z ends -> parted b n x z ends'.
Proof.
  intros E [x0 m X So En L|j B J D Cs Hv Wz Pz I En L|B D Cs Hv Wz Pz I En L].
  - apply (P_here _ _ _ _ _ x0 m); auto. intros h. rewrite <- E. apply En.
  - apply (P_leaving _ _ _ _ _ j); auto. intros h. unfold ending in *. rewrite <- E. apply En.
  - apply P_gone; auto. intros h. unfold ending in *. rewrite <- E. apply En.
Qed.
Lemma others_same bs o us zs i x' z' o' x z :
  all_parted bs o us zs -> nth_error us i = Some x -> nth_error zs i = Some z ->
  (forall j h, j <> i -> asked j h o' = asked j h o) ->
  (forall b, nth_error bs i = Some b -> exists n, parted b n x' z' (fun h => asked i h o')) ->
  all_parted bs o' (Clients.put i x' us) (Clients.put i z' zs).
Proof.
  intros (L1 & L2 & A) Nx Nz O P.
  assert (Li : (i < length us)%nat) by (apply nth_error_Some; congruence).
  split; [rewrite ClientsFacts.put_length; assumption|]. split; [rewrite ClientsFacts.put_length; [assumption|lia]|].
  intros j xj zj b Xj Zj Bj. rewrite (ClientsFacts.nth_put_cases i j _ x _ Nx) in Xj. rewrite (ClientsFacts.nth_put_cases i j _ z _ Nz) in Zj.
  destruct (Nat.eqb_spec j i) as [->|J].
  - injection Xj as <-. injection Zj as <-. apply P. exact Bj.
  - destruct (A j xj zj b Xj Zj Bj) as (n & Pa). exists n. revert Pa. apply parted_ext. intros h. symmetry. now apply O.
Qed.
Lemma one_of {A} (l : list A) i : (i < length l)%nat -> exists a, nth_error l i = Some a.
Proof. intros L. destruct (nth_error l i) eqn:E; [eauto|]. apply nth_error_None in E. lia. Qed.

Lemma leavers_act bs o y zs m : all_parted bs o (users y) zs ->
  exists more, amounts m more
    /\ shared (acts (answering f) y m) = fst (entered f more (shared y, zs))
    /\ all_parted bs (o ++ more) (users (acts (answering f) y m)) (snd (entered f more (shared y, zs))).
Proof.
  intros A. pose proof A as (L1 & L2 & A').
  destruct (nth_error (users y) (actor m)) as [x|] eqn:N.
  2:{ assert (E : acts (answering f) y m = y) by (destruct m; cbn [actor acts] in *; now rewrite N).
      exists []. rewrite E, app_nil_r. split; [destruct m; cbn; auto|]. split; [reflexivity|exact A]. }
  assert (Li : (actor m < length (users y))%nat) by (apply nth_error_Some; congruence).
  destruct (one_of zs (actor m)) as [z Nz]; [lia|]. destruct (one_of bs (actor m)) as [b Nb]; [lia|].
  destruct (A' _ x z b N Nz Nb) as (n & Pa).
  assert (Put : forall x' z' more n', parted b n' x' z' (fun h => asked (actor m) h (o ++ more)) ->
            (forall j h, j <> actor m -> asked j h more = []) ->
            all_parted bs (o ++ more) (Clients.put (actor m) x' (users y)) (Clients.put (actor m) z' zs)).
  { intros x' z' more n' P O. apply (others_same bs o (users y) zs (actor m) x' z' (o ++ more) x z A N Nz).
    - intros j h J. rewrite asked_app, (O j h J). apply app_nil_r.
    - intros b' Nb'. rewrite Nb in Nb'. injection Nb' as <-. eauto. }
  assert (No : forall more, (forall h, asked (actor m) h more = []) -> forall n x z, parted b n x z (fun h => asked (actor m) h o) ->
            parted b n x z (fun h => asked (actor m) h (o ++ more))).
  { intros more E n' x' z'. apply parted_ext. intros h. rewrite asked_app, E. symmetry. apply app_nil_r. }
  destruct m as [i piece|i h]; cbn [actor acts amounts] in *; rewrite N; cbn [shared users].
  - destruct (leaver_moves piece b n x z _ Pa) as (n' & z' & T & Pa' & _).
    destruct T as [->|T].
    + exists []. split; [auto|]. split; [reflexivity|]. cbn [entered fold_left snd].
      rewrite <- (ClientsFacts.put_same i z zs Nz). apply (Put _ _ _ n'); [apply No; auto|reflexivity].
    + exists [Turn i]. split; [auto|]. cbn [entered fold_left enter]. rewrite (T _ _ _ Nz). split; [reflexivity|].
      apply (Put _ _ _ n'); [apply No; auto|reflexivity].
  - fold (attended f h (shared y) x). change (unit_ (work (answering f) 1 h {| unit_ := shared y; got := out x; due := inc x |})) with (fst (attended f h (shared y) x)).
    destruct (leaver_attended h (shared y) b n x z _ Pa) as (n' & z' & ends' & T & Pa' & _).
    destruct T as [(-> & T & ->)|[(T & ->)|(-> & T & ->)]].
    + exists []. split; [auto|]. split; [exact T|]. cbn [entered fold_left snd].
      rewrite <- (ClientsFacts.put_same i z zs Nz). apply (Put _ _ _ n'); [apply No; auto|reflexivity].
    + exists [Turn i]. split; [auto|]. cbn [entered fold_left enter]. rewrite (T _ _ Nz). split; [reflexivity|].
      apply (Put _ _ _ n'); [apply No; auto|reflexivity].
    + exists [Asked i h (AskEnd h)]. split; [auto|]. cbn [entered fold_left enter fst snd]. split; [exact T|].
      rewrite <- (ClientsFacts.put_same i z zs Nz). apply (Put _ _ _ n').
      * revert Pa'. apply parted_ext. intros h'. rewrite asked_app, asked_end, Nat.eqb_refl. reflexivity.
      * intros j h' J. rewrite asked_end. destruct (Nat.eqb_spec j i); [contradiction|reflexivity].
Qed.
Lemma leavers_acted bs ms : forall o y zs, all_parted bs o (users y) zs ->
  exists orders, Forall2 amounts ms orders /\
    forall k, shared (acted (answering f) (firstn k ms) y) = fst (entered f (concat (firstn k orders)) (shared y, zs))
      /\ all_parted bs (o ++ concat (firstn k orders)) (users (acted (answering f) (firstn k ms) y))
           (snd (entered f (concat (firstn k orders)) (shared y, zs))).
Proof.
  induction ms as [|m ms IH]; intros o y zs A.
  - exists []. split; [constructor|]. intros k. rewrite !firstn_nil. cbn [concat]. rewrite app_nil_r. auto.
  - destruct (leavers_act bs o y zs m A) as (o1 & O1 & T1 & A1).
    destruct (IH _ _ _ A1) as (os & Os & Hk). exists (o1 :: os). split; [constructor; assumption|].
    intros [|k]; [cbn [firstn concat]; rewrite app_nil_r; auto|]. cbn [firstn concat acted fold_left]. destruct (Hk k) as [T2 A2].
    rewrite T1 in T2, A2. rewrite <- surjective_pairing in T2, A2. unfold entered. rewrite fold_left_app, app_assoc. split; assumption.
Qed.

(** One user among others. *)
Lemma leaver_cost b y m i x z ends n : nth_error (users y) i = Some x -> parted b n x z ends ->
  exists n' x' z' ends', nth_error (users (acts (answering f) y m)) i = Some x' /\ parted b n' x' z' ends'
    /\ ((n' < n)%nat
        \/ (n' = n /\ x' = x /\ (forall h, m = Attends i h -> port h (out x) = [])
            /\ (forall p, m = Acts i p -> (in_call x = None /\ calls x = []) \/ out x <> ([], [])))).
Proof.
  intros N Pa. destruct (Nat.eq_dec (actor m) i) as [<-|J].
  - destruct m as [i piece|i h]; cbn [actor acts] in *; rewrite N; cbn [users];
      rewrite (ClientsFacts.nth_put_cases i i _ x _ N), Nat.eqb_refl.
    + destruct (leaver_moves piece b n x z ends Pa) as (n' & z' & _ & Pa' & C). exists n', (user_moves piece x), z', ends.
      split; [reflexivity|]. split; [exact Pa'|]. destruct C as [C|(-> & -> & E & C)]; [left; exact C|right].
      split; [reflexivity|]. split; [exact E|]. split; [discriminate|]. intros p _. exact C.
    + destruct (leaver_attended h (shared y) b n x z ends Pa) as (n' & z' & ends' & _ & Pa' & C).
      exists n', (snd (attended f h (shared y) x)), z', ends'.
      split; [reflexivity|]. split; [exact Pa'|]. destruct C as [C|(-> & -> & E & C)]; [left; exact C|right].
      split; [reflexivity|]. split; [exact E|]. split; [|discriminate]. intros h' X. now injection X as <-.
  - exists n, x, z, ends. assert (E : nth_error (users (acts (answering f) y m)) i = Some x).
    { destruct m as [j piece|j h]; cbn [actor acts] in *; (destruct (nth_error (users y) j) as [xj|] eqn:Nj; cbn [users]; [|exact N]);
        rewrite (ClientsFacts.nth_put_cases j i _ xj _ Nj); (destruct (Nat.eqb_spec i j); [congruence|exact N]). }
    split; [exact E|]. split; [exact Pa|]. right. repeat (split; [reflexivity|]). split; [intros h ->|intros p ->]; cbn [actor] in J; congruence.
Qed.
Lemma leaver_round b i : forall ms y x z ends n, nth_error (users y) i = Some x -> parted b n x z ends ->
  exists n' x' z' ends', nth_error (users (acted (answering f) ms y)) i = Some x' /\ parted b n' x' z' ends'
    /\ ((n' < n)%nat
        \/ (n' = n /\ x' = x /\ (forall h, List.In (Attends i h) ms -> port h (out x) = [])
            /\ (forall p, List.In (Acts i p) ms -> (in_call x = None /\ calls x = []) \/ out x <> ([], [])))).
Proof.
  induction ms as [|m ms IH]; intros y x z ends n N Pa.
  - exists n, x, z, ends. split; [exact N|]. split; [exact Pa|]. right. repeat (split; [reflexivity|]). split; [intros h []|intros p []].
  - destruct (leaver_cost b y m i x z ends n N Pa) as (n1 & x1 & z1 & e1 & N1 & Pa1 & C1).
    destruct (IH _ x1 z1 e1 n1 N1 Pa1) as (n2 & x2 & z2 & e2 & N2 & Pa2 & C2).
    exists n2, x2, z2, e2. split; [exact N2|]. split; [exact Pa2|].
    destruct C1 as [C1|(-> & -> & S1 & M1)]; destruct C2 as [C2|(-> & -> & S2 & M2)]; try (left; lia).
    right. repeat (split; [reflexivity|]). split.
    + intros h [->|I]; auto.
    + intros p [->|I]; eauto.
Qed.
Lemma leaver_stays b i : forall ms y x z ends n, nth_error (users y) i = Some x -> parted b n x z ends ->
  in_call x = None -> calls x = [] -> out x = ([], []) -> nth_error (users (acted (answering f) ms y)) i = Some x.
Proof.
  induction ms as [|m ms IH]; intros y x z ends n N Pa D Cs O; [exact N|]. cbn [acted fold_left].
  apply (IH _ x z ends n); try assumption. destruct (Nat.eq_dec (actor m) i) as [<-|J].
  - destruct m as [j piece|j h]; cbn [actor acts] in *; rewrite N; cbn [users];
      rewrite (ClientsFacts.nth_put_cases j j _ x _ N), Nat.eqb_refl; f_equal.
    + unfold user_moves. now rewrite D, Cs.
    + pose proof (attended_nothing f h (shared y) x) as A. rewrite O, port_same in A. specialize (A eq_refl).
      apply (f_equal snd) in A. exact A.
  - destruct m as [j piece|j h]; cbn [actor acts] in *; (destruct (nth_error (users y) j) as [xj|] eqn:Nj; cbn [users]; [|exact N]);
      rewrite (ClientsFacts.nth_put_cases j i _ xj _ Nj); (destruct (Nat.eqb_spec i j); [congruence|exact N]).
Qed.
Lemma leaver_rounds b i : forall rounds y x z ends n, nth_error (users y) i = Some x -> parted b n x z ends ->
  Forall (fun ms => List.In (Attends i true) ms /\ List.In (Attends i false) ms /\ exists p, List.In (Acts i p) ms) rounds ->
  (n < length rounds)%nat ->
  exists n' x' z' ends', nth_error (users (acted (answering f) (concat rounds) y)) i = Some x' /\ parted b n' x' z' ends'
    /\ in_call x' = None /\ calls x' = [] /\ out x' = ([], []).
Proof.
  induction rounds as [|ms rounds IH]; intros y x z ends n N Pa R L; [cbn in L; lia|].
  inversion R as [|? ? [Ht [Hp (p & Hm)]] R']; subst. cbn [concat acted]. unfold acted. rewrite fold_left_app.
  destruct (leaver_round b i ms y x z ends n N Pa) as (n1 & x1 & z1 & e1 & N1 & Pa1 & C1).
  cbn [length] in L. destruct C1 as [C1|(-> & -> & S1 & M1)]; [apply (IH _ x1 z1 e1 n1 N1 Pa1 R'); lia|].
  assert (O : out x = ([], [])).
  { pose proof (S1 true Ht). pose proof (S1 false Hp). destruct (out x). cbn [port fst snd] in *. congruence. }
  destruct (M1 p Hm) as [[D Cs]|Z]; [|contradiction].
  exists n, x, z1, e1. split; [|auto 6]. apply (leaver_stays b i (concat rounds) _ x z1 e1 n N1 Pa1 D Cs O).
Qed.
End Leaving.

(** ** C112 *)
(** Whatever users do, in whatever order and pieces, and whoever ends its session
    in the meantime: every move amounts at the machine to nothing, to one turn of
    the user that moved or was attended to, or to the end of that user's session
    on one port.  After each of the moves the machine is where these leave it, and
    each user is at the same point of its session, with the same results; the ends
    come after all the calls of the user, one at most on each port. *)
Theorem c112_leaving S (f : S -> request -> S * list byte) s (visits : list visit) ms :
  polite f -> Forall (fun v => start_ok (fst v)) visits ->
  exists orders, Forall2 amounts ms orders /\
    forall k, let y := acted (answering f) (firstn k ms) (arrived s (map with_farewell visits)) in
      let o := concat (firstn k orders) in
      let z := entered f o (s, seats (map fst visits)) in
      shared y = fst z
      /\ forall i start b, nth_error visits i = Some (start, b) ->
           exists x t, nth_error (users y) i = Some x /\ nth_error (snd z) i = Some t
             /\ whereabouts b x t (fun h => asked i h o).
Proof.
  intros Hf Hs.
  assert (A : all_parted (map snd visits) [] (users (arrived s (map with_farewell visits))) (seats (map fst visits))).
  { unfold arrived, seats. cbn [users]. split; [now rewrite !map_length|]. split; [now rewrite !map_length|].
    intros i x z b Nx Nz Nb. rewrite !map_map in *. rewrite !nth_error_map in *.
    destruct (nth_error visits i) as [[[l cs] b']|] eqn:Nv; [|discriminate]. cbn [option_map fst snd with_farewell] in *.
    unfold visit in Nv. rewrite Nv in Nz, Nb. cbn [option_map fst snd] in Nz, Nb. injection Nx as <-. injection Nz as <-. injection Nb as <-.
    rewrite Forall_forall in Hs. destruct (Hs _ (nth_error_In _ _ Nv)) as [Hl Hc]. cbn [fst snd] in *.
    exists (whole_call * length cs + 48)%nat. apply (P_here _ _ _ _ _ (newcomer l cs) (whole_call * length cs)); [reflexivity| |reflexivity|].
    - unfold sound, newcomer, seated. cbn [set_level calls have sits_at wants knows]. repeat (split; [assumption || reflexivity|]).
      apply F_rest; try reflexivity.
    - destruct b'; lia. }
  destruct (leavers_acted f Hf _ ms [] _ _ A) as (os & Os & Hk). exists os. split; [exact Os|].
  intros k. destruct (Hk k) as [T (L1 & L2 & A2)]. cbv zeta. split; [exact T|].
  intros i start b Nv. assert (Nb : nth_error (map snd visits) i = Some b) by (rewrite nth_error_map; unfold visit in Nv; rewrite Nv; reflexivity).
  assert (Li : (i < length (map snd visits))%nat) by (apply nth_error_Some; congruence).
  cbn [app arrived shared] in *.
  destruct (one_of _ i (eq_ind_r (fun n => (i < n)%nat) Li L1)) as [x Nx]. destruct (one_of _ i (eq_ind_r (fun n => (i < n)%nat) Li L2)) as [z Nz].
  exists x, z. split; [exact Nx|]. split; [exact Nz|]. destruct (A2 i x z b Nx Nz Nb) as (n & Pa).
  destruct Pa as [x0 m -> So En L|j -> J D Cs Hv Wz Pz I En L| -> D Cs Hv Wz Pz I En L].
  - left. destruct (sound_level x0 z (ex_intro _ m So)) as (E1 & E2 & E3 & E4). cbn [adding set_level calls have in_call].
    rewrite E2. auto 6.
  - right. left. repeat (split; [assumption || reflexivity|]). split; [congruence|]. split; [assumption|].
    intros h. specialize (En h). unfold ending in En. destruct (sent_by j h); tauto.
  - right. right. repeat (split; [assumption || reflexivity|]). exact En.
Qed.

(** And all get through, the end of their sessions included: it has then been
    taken on both ports. *)
Theorem c112_through S (f : S -> request -> S * list byte) s (visits : list visit) i l cs b rounds :
  polite f -> Forall (fun v => start_ok (fst v)) visits -> nth_error visits i = Some (l, cs, b) ->
  Forall (fun ms => List.In (Attends i true) ms /\ List.In (Attends i false) ms /\ exists p, List.In (Acts i p) ms) rounds ->
  16426 * Z.of_nat (length (cs ++ farewell b)) < Z.of_nat (length rounds) ->
  exists x, nth_error (users (acted (answering f) (concat rounds) (arrived s (map with_farewell visits)))) i = Some x
    /\ calls x = [] /\ in_call x = None /\ length (have x) = length (cs ++ farewell b)
    /\ (b = true -> exists rs, have x = rs ++ [Called (Ok Done)])
    /\ out x = ([], []) /\ inc x = ([], []).
Proof.
  intros Hf Hs Nv R L.
  assert (N : nth_error (users (arrived s (map with_farewell visits))) i = Some (newcomer l (cs ++ farewell b))).
  { unfold arrived. cbn [users]. rewrite map_map, (map_nth_error _ i visits Nv). reflexivity. }
  assert (Pa : parted b (whole_call * length cs + (if b then 48 else 0)) (newcomer l (cs ++ farewell b)) (seated l cs) (fun _ => [])).
  { rewrite Forall_forall in Hs. destruct (Hs _ (nth_error_In _ _ Nv)) as [Hl Hc]. cbn [fst snd] in *.
    apply (P_here _ _ _ _ _ (newcomer l cs) (whole_call * length cs)); [reflexivity| |reflexivity|lia].
    unfold sound, newcomer, seated. cbn [set_level calls have sits_at wants knows]. repeat (split; [assumption || reflexivity|]).
    apply F_rest; try reflexivity. }
  assert (Wc : Z.of_nat whole_call = 16426) by (vm_compute; reflexivity).
  destruct (leaver_rounds f Hf b i rounds _ _ _ _ _ N Pa R) as (n & x & z & ends & N' & Pa' & D & Cs & O).
  { rewrite app_length in L. destruct b; cbn [farewell length] in L; nia. }
  exists x. split; [exact N'|]. split; [exact Cs|]. split; [exact D|].
  destruct (acted_tally (answering f) i (concat rounds) _ _ N) as (x' & N'' & T). rewrite N' in N''. injection N'' as <-.
  unfold tally in T. rewrite D, Cs in T. cbn [newcomer have calls in_call length] in T.
  split; [lia|]. destruct Pa' as [x0 m -> So En L'|j B J D' _ _ _ _ _ _ _|B _ _ Hv _ _ I _ _].
  - cbn [adding calls in_call out inc] in *. destruct b; [destruct (calls x0); discriminate|]. split; [discriminate|]. split; [exact O|].
    destruct So as (_ & _ & _ & _ & _ & Fo). destruct Fo; congruence.
  - congruence.
  - split; [intros _; eauto|]. auto.
Qed.

(** One user gives a command and ends its session, which has returned before the
    machine hears of it; it hears of it on the platform port first, and on the
    TPM port only after another user's command, which is not affected. *)
Example c112_example :
  let visits := [(3, [Call (Transact [x80] (repeat x00 RESP_BUFFER_SIZE))], true);
                 (4, [Call (Transact [x81] (repeat x00 RESP_BUFFER_SIZE))], false)] in
  let both i := [Acts i 9; Attends i true] in
  let first := concat (repeat (both 0%nat) 7) in
  let leave := repeat (Acts 0 9) 9 in
  let rest := Attends 0 false :: concat (repeat (both 1%nat) 9) ++ [Attends 0 true] in
  let at_ ms := acted (answering recorder) ms (arrived [] (map with_farewell visits)) in
  polite recorder /\ Forall (fun v => start_ok (fst v)) visits
  /\ shared (at_ (first ++ leave)) = [AskCommand 3 [x80]]
  /\ map (fun x => length (have x)) (users (at_ (first ++ leave))) = [2%nat; 0%nat]
  /\ shared (at_ (first ++ leave ++ rest)) = [AskCommand 3 [x80]; AskEnd false; AskCommand 4 [x81]; AskEnd true]
  /\ map have (users (at_ (first ++ leave ++ rest)))
     = [[Called (Ok (Payload [x80; x01; x00; x00; x00; x0a; x00; x00; x01; x01])); Called (Ok Done)];
        [Called (Ok (Payload [x80; x01; x00; x00; x00; x0a; x00; x00; x01; x01]))]].
Proof.
  cbv zeta. split.
  { intros s q. destruct q; cbn; try reflexivity. lia. }
  split.
  { repeat constructor; cbn; try lia; try discriminate; unfold RESP_BUFFER_SIZE; rewrite repeat_length; lia. }
  split; [vm_compute; reflexivity|]. split; [vm_compute; reflexivity|]. split; vm_compute; reflexivity.
Qed.
