(** The server on buffers that are a program's own (C107). *)
From Coq Require Import ZArith NArith List Lia Bool.
From Coq Require Import Init.Byte.
From Verif Require Import Prelude Errors Server ServerSpec ServerProofs ServerFacts Buffers BuffersFacts Shared Foreign ForeignSpec.
Import ListNotations.
Open Scope Z_scope.

Section Course.
Context {D X E : Type} (dr : Drbg D) (es : EntropySource X) (fb : foreign E).

(** How a command can go. *)
Definition ends (c : context D X) (l : list access) (r : outcome unit nat) : Prop :=
  exists len, hd_error l = Some (Length len)
  /\ ((exists n, 0 <= n < 2 ^ 16 /\ all_granted len n l /\ r = Ok (10 + Z.to_nat n)%nat)
      \/ (exists l0 a code ans, l = l0 ++ [a; Write 6 (be_bytes 4 code) ans]
          /\ Forall (granted len) l0 /\ objection len a = Some code
          /\ r = match ans with Ok _ => Ok 10%nat | Err _ => Ok 0%nat | Panic => Panic end)
      \/ (exists l0 a, l = l0 ++ [a] /\ Forall (granted len) l0 /\ r = Panic
          /\ (panicked a
              \/ exists offset size s, a = Begin offset size (Some s)
                 /\ snd (fst (get_random_or_failure dr es c s)) = Panic))).
Definition generated (c : context D X) (l : list access) (c' : context D X) : Prop :=
  match handed l with
  | [] => c' = c /\ forall out ans, In (Finish out ans) l -> out = None
  | [s] => c' = fst (fst (get_random_or_failure dr es c s))
           /\ forall out ans, In (Finish out ans) l -> out = Some (snd (get_random_or_failure dr es c s))
  | _ => False
  end.
Definition ordered (l : list access) : Prop :=
  exists n k, Z.of_nat n < 2 ^ 16
  /\ (map asks l = firstn k (in_order n)
      \/ exists code, In code [0x142; 0x143; 0x904]
         /\ map asks l = firstn k (in_order n) ++ [AWrite 6 (be_bytes 4 code)]).

(** What has to be seen of the accesses made when the command ends. *)
Definition so_far (c : context D X) (len : nat) (l : list access) (c' : context D X) : Prop :=
  hd_error l = Some (Length len) /\ l <> [] /\ Forall (granted len) (removelast l)
  /\ generated c l c' /\ exists n k, Z.of_nat n < 2 ^ 16 /\ map asks l = firstn k (in_order n).
Lemma generated_snoc c l c' data ans : generated c l c' -> generated c (l ++ [Write 6 data ans]) c'.
Proof.
  unfold generated, handed. rewrite flat_map_app. cbn [flat_map app]. rewrite app_nil_r.
  destruct (flat_map _ l) as [|s [|]]; auto; intros [-> H]; (split; [reflexivity|]);
    intros out a I; apply in_app_or in I; destruct I as [I|[I|[]]]; try discriminate; eauto.
Qed.
Lemma objects len a code : objection len a = Some code -> In code [0x142; 0x143; 0x904].
Proof.
  assert (A1 : In 322 [322; 323; 2308]) by (cbn; auto). assert (A2 : In 323 [322; 323; 2308]) by (cbn; auto).
  assert (A3 : In 2308 [322; 323; 2308]) by (cbn; auto).
  unfold objection. repeat match goal with |- context [match ?x with _ => _ end] => destruct x end; congruence.
Qed.
Lemma refused c len l code c' e :
  so_far c len l c' -> objection len (last l (Length 0)) = Some code ->
  let '(c'', (_, l'), r) :=
    match f_write (noting fb) (e, l) 6 (be_bytes 4 code) with
    | (e, Ok _) => (c', e, Ok 10%nat)
    | (e, Err _) => (c', e, Ok 0%nat)
    | (e, Panic) => (c', e, Panic)
    end in
  ends c l' r /\ generated c l' c'' /\ ordered l'.
Proof.
  intros (H1 & H2 & H3 & H4 & n & k & H5 & H6) O. cbn [noting f_write].
  destruct (f_write fb e 6 (be_bytes 4 code)) as [e' ans].
  assert (G : ends c (l ++ [Write 6 (be_bytes 4 code) ans])
            match ans with Ok _ => Ok 10%nat | Err _ => Ok 0%nat | Panic => Panic end
          /\ generated c (l ++ [Write 6 (be_bytes 4 code) ans]) c'
          /\ ordered (l ++ [Write 6 (be_bytes 4 code) ans])).
  { split; [|split].
    - exists len. split; [destruct l; [congruence|exact H1]|]. right. left.
      exists (removelast l), (last l (Length 0)), code, ans.
      split; [|auto]. rewrite (app_removelast_last (Length 0) H2) at 1. rewrite <- app_assoc. reflexivity.
    - now apply generated_snoc.
    - exists n, k. split; [exact H5|]. right. exists code. split; [exact (objects _ _ _ O)|].
      rewrite map_app, H6. reflexivity. }
  destruct ans as [u|u|]; exact G.
Qed.
Lemma broken c len l c' :
  so_far c len l c' ->
  (panicked (last l (Length 0))
   \/ exists offset size s, last l (Length 0) = Begin offset size (Some s)
      /\ snd (fst (get_random_or_failure dr es c s)) = Panic) ->
  ends c l Panic /\ generated c l c' /\ ordered l.
Proof.
  intros (H1 & H2 & H3 & H4 & n & k & H5 & H6) P. split; [|split; [exact H4|exists n, k; auto]].
  exists len. split; [exact H1|]. right. right. exists (removelast l), (last l (Length 0)).
  split; [exact (app_removelast_last _ H2)|]. auto.
Qed.

Ltac seen n k :=
  split; [reflexivity|]; split; [discriminate|];
  split; [cbn [removelast]; repeat constructor; cbn;
          repeat match goal with H : (?a =? ?b) = true |- _ => rewrite H end; auto|];
  split; [|exists n, k; split; [first [lia|assumption]|reflexivity]].
Ltac nothing := split; [reflexivity|cbn; intros ? ? I;
  repeat (destruct I as [I|I]; [try discriminate I|]); try contradiction; injection I; congruence].

Lemma write_noted e l offset data :
  f_write (noting fb) (e, l) offset data
  = (fst (f_write fb e offset data), l ++ [Write offset data (snd (f_write fb e offset data))], snd (f_write fb e offset data)).
Proof. cbn [noting f_write]. destruct (f_write fb e offset data). reflexivity. Qed.
Lemma goes c e : numbers fb ->
  let '(c', (_, l), r) := answer_foreign dr es (noting fb) c (e, []) in
  ends c l r /\ generated c l c' /\ ordered l.
Proof.
  intros [N16 N32]. unfold answer_foreign, execute_foreign.
  cbn [noting f_len]. destruct (f_len fb e) as [e0 len]. unfold sh_take at 1.
  cbn [noting bufs f_u16 request_offset response_offset].
  destruct (f_u16 fb e0 0) as [e1 [tag|[]|]] eqn:R1; cbn [bufs app].
  2:{ eapply (refused c len); [seen 0%nat 2%nat; nothing|reflexivity]. }
  2:{ apply (broken c len); [seen 0%nat 2%nat; nothing|cbn; auto]. }
  unfold sh_take at 1. cbn [noting bufs f_u32 request_offset response_offset Nat.add].
  destruct (f_u32 fb e1 2) as [e2 [size|[]|]] eqn:R2; cbn [bufs app].
  2:{ eapply (refused c len); [seen 0%nat 3%nat; nothing|reflexivity]. }
  2:{ apply (broken c len); [seen 0%nat 3%nat; nothing|cbn; auto]. }
  destruct (Z.eqb_spec size (Z.of_nat len)) as [Sz|Sz]; cbn [negb].
  2:{ eapply (refused c len); [seen 0%nat 3%nat; nothing|]. cbn. apply Z.eqb_neq in Sz. rewrite Sz. reflexivity. }
  apply Z.eqb_eq in Sz.
  unfold sh_take at 1. cbn [noting bufs f_u32 request_offset response_offset Nat.add].
  destruct (f_u32 fb e2 6) as [e3 [code|[]|]] eqn:R3; cbn [bufs app].
  2:{ eapply (refused c len); [seen 0%nat 4%nat; nothing|reflexivity]. }
  2:{ apply (broken c len); [seen 0%nat 4%nat; nothing|cbn; auto]. }
  unfold cc_GetRandom. destruct (code =? 379) eqn:Cc; cbn [bufs].
  2:{ eapply (refused c len); [seen 0%nat 4%nat; nothing|]. cbn. rewrite Cc. reflexivity. }
  unfold get_random_foreign, sh_take. cbn [noting bufs f_u16 request_offset response_offset Nat.add].
  destruct (f_u16 fb e3 10) as [e4 [n|[]|]] eqn:R4; cbn [bufs app].
  2:{ eapply (refused c len); [seen 0%nat 5%nat; nothing|reflexivity]. }
  2:{ apply (broken c len); [seen 0%nat 5%nat; nothing|cbn; auto]. }
  apply N16 in R4. clear N16 N32 R1 R2 R3.
  cbn [noting bufs f_begin request_offset response_offset Nat.add].
  destruct (f_begin fb e4 10 (Z.to_nat n)) as [e5 slice]. cbn [app].
  set (ran := match slice with
    | Some buffer => let '(c', r, out) := get_random_or_failure dr es c buffer in (c', r, Some out)
    | None => (c, Ok tt, None) end).
  assert (Ran : exists c1 r1 out, ran = (c1, r1, out)
    /\ match slice with
       | None => c1 = c /\ r1 = Ok tt /\ out = None
       | Some s => c1 = fst (fst (get_random_or_failure dr es c s))
                   /\ snd (fst (get_random_or_failure dr es c s)) = r1 
                   /\ out = Some (snd (get_random_or_failure dr es c s))
                   /\ match r1 with Err _ => False | _ => True end
       end).
  { unfold ran. destruct slice as [s|]; [|eauto 8].
    unfold get_random_or_failure. destruct (try_get_random dr es c s) as [[c1 o] [u|u|]]; cbn; eauto 10. }
  destruct Ran as (c1 & r1 & out & -> & Rn).
  assert (Gen : forall l, handed l = [] -> (forall o a, In (Finish o a) l -> o = out) ->
    forall pre post, l = pre ++ post -> generated c (pre ++ Begin 10 (Z.to_nat n) slice :: post) c1).
  { intros l Hl Hf pre post ->. unfold generated.
    assert (H : handed (pre ++ Begin 10 (Z.to_nat n) slice :: post) = match slice with Some s => [s] | None => [] end).
    { unfold handed in *. rewrite flat_map_app in *. cbn [flat_map]. apply app_eq_nil in Hl. destruct Hl as [-> ->].
      destruct slice; reflexivity. }
    assert (Hf' : forall o a, In (Finish o a) (pre ++ Begin 10 (Z.to_nat n) slice :: post) -> o = out).
    { intros o a I. apply (Hf o a). apply in_app_or in I. apply in_or_app. destruct I as [I|[I|I]]; auto. discriminate. }
    rewrite H. destruct slice as [s|]; destruct Rn as (? & ? & ?); [|subst; eauto].
    destruct H2 as [-> _]. eauto. }
  set (pre := [Length len; Read 0 2 (Ok tag); Read 2 4 (Ok size); Read 6 4 (Ok code); Read 10 2 (Ok n)]) in *.
  assert (Gen' : forall post, handed post = [] -> (forall o a, In (Finish o a) post -> o = out) ->
    generated c (pre ++ Begin 10 (Z.to_nat n) slice :: post) c1).
  { intros post H1 H2. apply (Gen (pre ++ post)); [exact H1| |reflexivity].
    intros o a I. apply (H2 o a). apply in_app_or in I. destruct I as [I|I]; [|exact I].
    cbn in I. decompose [or] I; try discriminate; contradiction. }
  clear Gen. subst pre. cbn [app] in Gen'.
  Ltac made Gen' := apply Gen'; [reflexivity|cbn; intros o a I;
    repeat (destruct I as [I|I]; [try discriminate I; try (injection I; congruence)|]); contradiction].
  assert (N : Z.of_nat (Z.to_nat n) < 2 ^ 16) by lia.
  destruct r1 as [[]|e'|].
  2:{ exfalso. destruct slice as [s|]; [tauto|]. destruct Rn as (_ & ? & _). discriminate. }
  2:{ cbn [bufs]. apply (broken c len); [seen (Z.to_nat n) 6%nat; made Gen'|].
      destruct slice as [s|]; [|destruct Rn as (_ & ? & _); discriminate].
      right. exists 10%nat, (Z.to_nat n), s. split; [reflexivity|tauto]. }
  cbn [noting f_finish]. destruct (f_finish fb e5 out) as [e6 [[]|[]|]]; cbn [bufs app response_offset].
  2:{ eapply (refused c len); [seen (Z.to_nat n) 7%nat; made Gen'|reflexivity]. }
  2:{ apply (broken c len); [seen (Z.to_nat n) 7%nat; made Gen'|cbn; auto]. }
  rewrite (Z.mod_small (Z.of_nat (10 + Z.to_nat n))) by lia.
  replace (Z.of_nat (10 + Z.to_nat n)) with (10 + Z.of_nat (Z.to_nat n)) by lia.
  change (be_bytes 2 0x8001) with [x80; x01]. change (be_bytes 4 0) with [x00; x00; x00; x00].
  rewrite (write_noted e6).
  destruct (f_write fb e6 0 [x80; x01]) as [e7 [[]|[]|]]; cbn [fst snd app].
  2:{ eapply (refused c len); [seen (Z.to_nat n) 8%nat; made Gen'|reflexivity]. }
  2:{ apply (broken c len); [seen (Z.to_nat n) 8%nat; made Gen'|cbn; auto]. }
  rewrite (write_noted e7).
  destruct (f_write fb e7 2 (be_bytes 4 (10 + Z.of_nat (Z.to_nat n)))) as [e8 [[]|[]|]]; cbn [fst snd app].
  2:{ eapply (refused c len); [seen (Z.to_nat n) 9%nat; made Gen'|reflexivity]. }
  2:{ apply (broken c len); [seen (Z.to_nat n) 9%nat; made Gen'|cbn; auto]. }
  rewrite (write_noted e8).
  destruct (f_write fb e8 6 [x00; x00; x00; x00]) as [e9 [[]|[]|]]; cbn [fst snd app].
  2:{ eapply (refused c len); [seen (Z.to_nat n) 10%nat; made Gen'|reflexivity]. }
  2:{ apply (broken c len); [seen (Z.to_nat n) 10%nat; made Gen'|cbn; auto]. }
  split; [|split; [made Gen'|exists (Z.to_nat n), 10%nat; auto]].
  exists len. split; [reflexivity|]. left. exists n. split; [lia|]. split; [|reflexivity].
  apply Z.eqb_eq in Sz, Cc. subst size code. rewrite Z2Nat.id by lia.
  exists tag, slice, out. reflexivity.
Qed.
End Course.

(** What every method keeps, a command keeps. *)
Lemma kept {D X E} (dr : Drbg D) (es : EntropySource X) (fb : foreign E) (P : E -> Prop) c e :
  (forall e, P e -> P (fst (f_len fb e))) ->
  (forall e o, P e -> P (fst (f_u16 fb e o))) -> (forall e o, P e -> P (fst (f_u32 fb e o))) ->
  (forall e o d, P e -> P (fst (f_write fb e o d))) ->
  (forall e o n, P e -> P (fst (f_begin fb e o n))) -> (forall e o, P e -> P (fst (f_finish fb e o))) ->
  P e -> P (snd (fst (answer_foreign dr es fb c e))).
Proof.
  intros K1 K2 K3 K4 K5 K6 H. unfold answer_foreign.
  assert (G : P (snd (fst (execute_foreign dr es fb c e)))).
  { unfold execute_foreign, sh_take.
    pose proof (K1 _ H) as H0. destruct (f_len fb e) as [e0 len]. cbn [fst bufs request_offset response_offset] in *.
    pose proof (K2 _ 0%nat H0) as H1. destruct (f_u16 fb e0 0) as [e1 [tag|[]|]]; cbn [fst snd bufs request_offset response_offset] in *; auto.
    pose proof (K3 _ (0 + 2)%nat H1) as H2. destruct (f_u32 fb e1 _) as [e2 [size|[]|]]; cbn [fst snd bufs request_offset response_offset] in *; auto.
    destruct (negb _); [exact H2|].
    pose proof (K3 _ (0 + 2 + 4)%nat H2) as H3. destruct (f_u32 fb e2 _) as [e3 [code|[]|]]; cbn [fst snd bufs request_offset response_offset] in *; auto.
    destruct (code =? cc_GetRandom); [|exact H3].
    unfold get_random_foreign, sh_take. cbn [bufs request_offset response_offset].
    pose proof (K2 _ (0 + 2 + 4 + 4)%nat H3) as H4. destruct (f_u16 fb e3 _) as [e4 [n|[]|]]; cbn [fst snd bufs request_offset response_offset] in *; auto.
    pose proof (K5 _ 10%nat (Z.to_nat n) H4) as H5. destruct (f_begin fb e4 _ _) as [e5 slice]. cbn [fst] in H5.
    destruct (match slice with Some _ => _ | None => _ end) as [[c1 r1] out].
    destruct r1 as [u|z|]; cbn [fst snd bufs]; auto.
    pose proof (K6 _ out H5) as H6. destruct (f_finish fb e5 out) as [e6 [u6|[]|]]; cbn [fst snd bufs response_offset] in *; auto.
    pose proof (K4 _ 0%nat (be_bytes 2 0x8001) H6) as H7. destruct (f_write fb e6 _ _) as [e7 [u7|[]|]]; cbn [fst snd] in *; auto.
    match goal with |- context [f_write fb e7 ?a ?b] => pose proof (K4 _ a b H7) as H8; destruct (f_write fb e7 a b) as [e8 [u8|[]|]] end; cbn [fst snd] in *; auto.
    match goal with |- context [f_write fb e8 ?a ?b] => pose proof (K4 _ a b H8) as H9; destruct (f_write fb e8 a b) as [e9 [u9|[]|]] end; cbn [fst snd] in *; auto. }
  destruct (execute_foreign dr es fb c e) as [[c' e'] [size|code|]]; cbn [fst snd] in *; auto.
  pose proof (K4 _ 6%nat (be_bytes 4 code) G) as H1.
  destruct (f_write fb e' 6 (be_bytes 4 code)) as [e2 [u|[]|]]; exact H1.
Qed.

(** Buffers that give the same answers are served alike. *)
Lemma alike {D X E E'} (dr : Drbg D) (es : EntropySource X) (fb : foreign E) (fb' : foreign E') (same : E -> E' -> Prop) c e e' :
  (forall e e', same e e' -> same (fst (f_len fb e)) (fst (f_len fb' e')) /\ snd (f_len fb e) = snd (f_len fb' e')) ->
  (forall e e' o, same e e' -> same (fst (f_u16 fb e o)) (fst (f_u16 fb' e' o)) /\ snd (f_u16 fb e o) = snd (f_u16 fb' e' o)) ->
  (forall e e' o, same e e' -> same (fst (f_u32 fb e o)) (fst (f_u32 fb' e' o)) /\ snd (f_u32 fb e o) = snd (f_u32 fb' e' o)) ->
  (forall e e' o d, same e e' -> same (fst (f_write fb e o d)) (fst (f_write fb' e' o d)) /\ snd (f_write fb e o d) = snd (f_write fb' e' o d)) ->
  (forall e e' o n, same e e' -> same (fst (f_begin fb e o n)) (fst (f_begin fb' e' o n)) /\ snd (f_begin fb e o n) = snd (f_begin fb' e' o n)) ->
  (forall e e' o, same e e' -> same (fst (f_finish fb e o)) (fst (f_finish fb' e' o)) /\ snd (f_finish fb e o) = snd (f_finish fb' e' o)) ->
  same e e' ->
  let '(c1, e1, r1) := answer_foreign dr es fb c e in
  let '(c2, e2, r2) := answer_foreign dr es fb' c e' in
  c1 = c2 /\ same e1 e2 /\ r1 = r2.
Proof.
  intros K1 K2 K3 K4 K5 K6 H. unfold answer_foreign.
  assert (G : let '(c1, e1, r1) := execute_foreign dr es fb c e in
              let '(c2, e2, r2) := execute_foreign dr es fb' c e' in c1 = c2 /\ same e1 e2 /\ r1 = r2).
  { unfold execute_foreign, sh_take.
    pose proof (K1 _ _ H) as [H0 S0]. destruct (f_len fb e) as [e0 len], (f_len fb' e') as [e0' len'].
    cbn [fst snd bufs request_offset response_offset] in *. subst len'.
    pose proof (K2 _ _ 0%nat H0) as [H1 S1]. destruct (f_u16 fb e0 0) as [e1 a1], (f_u16 fb' e0' 0) as [e1' a1'].
    cbn [fst snd] in H1, S1. subst a1'. destruct a1 as [tag|[]|]; cbn [bufs request_offset response_offset]; auto.
    pose proof (K3 _ _ (0 + 2)%nat H1) as [H2 S2]. destruct (f_u32 fb e1 _) as [e2 a2], (f_u32 fb' e1' _) as [e2' a2'].
    cbn [fst snd] in H2, S2. subst a2'. destruct a2 as [size|[]|]; cbn [bufs request_offset response_offset]; auto.
    destruct (negb _); [auto|].
    pose proof (K3 _ _ (0 + 2 + 4)%nat H2) as [H3 S3]. destruct (f_u32 fb e2 _) as [e3 a3], (f_u32 fb' e2' _) as [e3' a3'].
    cbn [fst snd] in H3, S3. subst a3'. destruct a3 as [code|[]|]; cbn [bufs request_offset response_offset]; auto.
    destruct (code =? cc_GetRandom); [|auto].
    unfold get_random_foreign, sh_take. cbn [bufs request_offset response_offset].
    pose proof (K2 _ _ (0 + 2 + 4 + 4)%nat H3) as [H4 S4]. destruct (f_u16 fb e3 _) as [e4 a4], (f_u16 fb' e3' _) as [e4' a4'].
    cbn [fst snd] in H4, S4. subst a4'. destruct a4 as [n|[]|]; cbn [bufs request_offset response_offset]; auto.
    pose proof (K5 _ _ 10%nat (Z.to_nat n) H4) as [H5 S5]. destruct (f_begin fb e4 _ _) as [e5 slice], (f_begin fb' e4' _ _) as [e5' slice'].
    cbn [fst snd] in H5, S5. subst slice'.
    destruct (match slice with Some _ => _ | None => _ end) as [[c1 r1] out].
    destruct r1 as [u|z|]; cbn [fst snd bufs]; auto.
    pose proof (K6 _ _ out H5) as [H6 S6]. destruct (f_finish fb e5 out) as [e6 a6], (f_finish fb' e5' out) as [e6' a6'].
    cbn [fst snd] in H6, S6. subst a6'. destruct a6 as [u6|[]|]; cbn [bufs response_offset]; auto.
    pose proof (K4 _ _ 0%nat (be_bytes 2 0x8001) H6) as [H7 S7].
    destruct (f_write fb e6 _ _) as [e7 a7], (f_write fb' e6' _ _) as [e7' a7'].
    cbn [fst snd] in H7, S7. subst a7'. destruct a7 as [u7|[]|]; auto.
    match goal with |- context [f_write fb e7 ?a ?b] => pose proof (K4 _ _ a b H7) as [H8 S8]; destruct (f_write fb e7 a b) as [e8 a8], (f_write fb' e7' a b) as [e8' a8'] end.
    cbn [fst snd] in H8, S8. subst a8'. destruct a8 as [u8|[]|]; auto.
    match goal with |- context [f_write fb e8 ?a ?b] => pose proof (K4 _ _ a b H8) as [H9 S9]; destruct (f_write fb e8 a b) as [e9 a9], (f_write fb' e8' a b) as [e9' a9'] end.
    cbn [fst snd] in H9, S9. subst a9'. destruct a9 as [u9|[]|]; auto. }
  destruct (execute_foreign dr es fb c e) as [[c1 e1] r1], (execute_foreign dr es fb' c e') as [[c2 e2] r2].
  destruct G as (-> & Hs & ->). destruct r2 as [size|code|]; auto.
  pose proof (K4 _ _ 6%nat (be_bytes 4 code) Hs) as [H1 S1].
  destruct (f_write fb e1 _ _) as [e3 a3], (f_write fb' e2 _ _) as [e4 a4]. cbn [fst snd] in H1, S1. subst a4.
  destruct a3 as [u|[]|]; auto.
Qed.

Ltac small := cbn -[slice_read slice_write be_bytes be_val Z.eqb firstn skipn Nat.leb Nat.ltb Nat.min
  get_random_foreign Server.get_random get_random_or_failure].
Ltac written := match goal with |- context [slice_write ?b ?o ?d] => destruct (slice_write b o d) as [?w|] end; small.
Ltac told := unfold fill_error; small; written; auto.

(** ** C107 *)
(** Whatever the buffers answer, they are asked for their length, for the four
    fields of the request, to run the callback and to take the three parts of
    the header, in this order and each at most once; then at most once more, to
    take an error code. *)
Theorem c107_order D X E (dr : Drbg D) (es : EntropySource X) (fb : foreign E) c e :
  numbers fb ->
  let accesses := snd (snd (fst (answer_foreign dr es (noting fb) c (e, [])))) in
  exists n k, Z.of_nat n < 2 ^ 16
  /\ (map asks accesses = firstn k (in_order n)
      \/ exists code, In code [0x142; 0x143; 0x904]
         /\ map asks accesses = firstn k (in_order n) ++ [AWrite 6 (be_bytes 4 code)]).
Proof.
  intros N. pose proof (goes dr es fb c e N) as H.
  destruct (answer_foreign dr es (noting fb) c (e, [])) as [[c' [e' l]] r]. apply H.
Qed.
(** The result is: success, of ten bytes more than were requested, if every
    access was granted; else the code of the first objection is written, and the
    result is ten, or zero if this is refused too; or a panic, if a method of
    the buffers or the generator panicked. *)
Theorem c107_result D X E (dr : Drbg D) (es : EntropySource X) (fb : foreign E) c e :
  numbers fb ->
  let '(_, (_, l), r) := answer_foreign dr es (noting fb) c (e, []) in
  exists len, hd_error l = Some (Length len)
  /\ ((exists n, 0 <= n < 2 ^ 16 /\ all_granted len n l /\ r = Ok (10 + Z.to_nat n)%nat)
      \/ (exists l0 a code ans, l = l0 ++ [a; Write 6 (be_bytes 4 code) ans]
          /\ Forall (granted len) l0 /\ objection len a = Some code
          /\ r = match ans with Ok _ => Ok 10%nat | Err _ => Ok 0%nat | Panic => Panic end)
      \/ (exists l0 a, l = l0 ++ [a] /\ Forall (granted len) l0 /\ r = Panic
          /\ (panicked a
              \/ exists offset size s, a = Begin offset size (Some s)
                 /\ snd (fst (get_random_or_failure dr es c s)) = Panic))).
Proof.
  intros N. pose proof (goes dr es fb c e N) as H.
  destruct (answer_foreign dr es (noting fb) c (e, [])) as [[c' [e' l]] r]. apply H.
Qed.
(** The generator is used once if the buffer runs the callback, on the slice the
    buffer hands out, whatever its length; otherwise the server does not change. *)
Theorem c107_generator D X E (dr : Drbg D) (es : EntropySource X) (fb : foreign E) c e :
  numbers fb ->
  let '(c', (_, l), _) := answer_foreign dr es (noting fb) c (e, []) in
  match handed l with
  | [] => c' = c /\ forall out ans, In (Finish out ans) l -> out = None
  | [s] => c' = fst (fst (get_random_or_failure dr es c s))
           /\ forall out ans, In (Finish out ans) l -> out = Some (snd (get_random_or_failure dr es c s))
  | _ => False
  end.
Proof.
  intros N. pose proof (goes dr es fb c e N) as H.
  destruct (answer_foreign dr es (noting fb) c (e, [])) as [[c' [e' l]] r]. apply H.
Qed.
(** Noting the accesses changes nothing. *)
Theorem c107_noting D X E (dr : Drbg D) (es : EntropySource X) (fb : foreign E) c e :
  let '(c1, (e1, _), r1) := answer_foreign dr es (noting fb) c (e, []) in
  answer_foreign dr es fb c e = (c1, e1, r1).
Proof.
  pose proof (alike dr es (noting fb) fb (fun b e => fst b = e) c (e, []) e) as H.
  destruct (answer_foreign dr es (noting fb) c (e, [])) as [[c1 [e1 l]] r1],
    (answer_foreign dr es fb c e) as [[c2 e2] r2].
  destruct H as (-> & H & ->); [..|cbn [fst] in H; subst; reflexivity].
  - intros [e0 l0] e0' S. cbn [fst] in S. subst. cbn [noting f_len]. destruct (f_len fb e0'). auto.
  - intros [e0 l0] e0' o S. cbn [fst] in S. subst. cbn [noting f_u16]. destruct (f_u16 fb e0' o). auto.
  - intros [e0 l0] e0' o S. cbn [fst] in S. subst. cbn [noting f_u32]. destruct (f_u32 fb e0' o). auto.
  - intros [e0 l0] e0' o d S. cbn [fst] in S. subst. cbn [noting f_write]. destruct (f_write fb e0' o d). auto.
  - intros [e0 l0] e0' o n S. cbn [fst] in S. subst. cbn [noting f_begin]. destruct (f_begin fb e0' o n). auto.
  - intros [e0 l0] e0' o S. cbn [fst] in S. subst. cbn [noting f_finish]. destruct (f_finish fb e0' o). auto.
  - reflexivity.
Qed.
(** In place, no byte behind the request is ever read. *)
Theorem c107_in_place D X W (dr : Drbg D) (es : EntropySource X) (rw : shared_read W) (wi : foreign_write W)
    c in_out request_size :
  Forall (fun '(offset, k) => offset + k <= request_size)%nat
    (snd (snd (fst (served_in_place dr es (noting_reads rw) (also_noting wi) c (in_out, []) request_size)))).
Proof.
  unfold served_in_place. cbn [noting_reads sh_len]. destruct (sh_len rw in_out) as [w len].
  set (P := fun b : (W * list (nat * nat)) * nat =>
    (snd b <= request_size)%nat /\ Forall (fun '(offset, k) => offset + k <= request_size)%nat (snd (fst b))).
  assert (I : forall b offset k, P b -> P (fst (inout_into (noting_reads rw) b offset k))).
  { intros [[w' l] n] offset k [H1 H2]. unfold inout_into. cbn [fst snd] in *.
    destruct (Nat.ltb_spec n (offset + k)); [split; assumption|]. cbn [noting_reads sh_into].
    destruct (sh_into rw w' offset k). split; [exact H1|]. cbn. apply Forall_app. split; [exact H2|].
    repeat constructor. lia. }
  pose proof (kept dr es (inout_foreign (noting_reads rw) (also_noting wi)) P c ((w, []), Nat.min request_size len)) as H.
  destruct (answer_foreign dr es (inout_foreign (noting_reads rw) (also_noting wi)) c
              (w, [], Nat.min request_size len)) as [[c' [w' n']] r]. cbn [fst snd] in *.
  apply H; clear H.
  - auto.
  - intros b o Hb. cbn [inout_foreign f_u16]. unfold sh_provided. specialize (I b o 2%nat Hb).
    destruct (inout_into (noting_reads rw) b o 2). exact I.
  - intros b o Hb. cbn [inout_foreign f_u32]. unfold sh_provided. specialize (I b o 4%nat Hb).
    destruct (inout_into (noting_reads rw) b o 4). exact I.
  - intros [[w0 l] n] o d Hb. cbn. destruct (fw_write wi w0 o d). exact Hb.
  - intros [[w0 l] n] o d Hb. cbn. destruct (fw_begin wi w0 o d). exact Hb.
  - intros [[w0 l] n] o Hb. cbn. destruct (fw_finish wi w0 o). exact Hb.
  - split; cbn; [lia|constructor].
Qed.
(** Byte slices are such buffers, and the server does with them what it does in
    Server.v. *)
Theorem c107_slices D X (dr : Drbg D) (es : EntropySource X) c request resp frame :
  let '(c1, (r1, (w1, _)), o1) := served_separate dr es slice_reads slice_writes c request (resp, frame) in
  let '(c2, w2, o2) := execute_command_separate dr es c request resp in
  c1 = c2 /\ r1 = request /\ o1 = o2 /\ (o1 <> Panic -> w1 = w2).
Proof.
  unfold served_separate, execute_command_separate, answer_foreign, execute_foreign, execute_command,
    sh_take, read_be_u16, read_be_u32, read_be. small.
  destruct (slice_read request 0 2) as [tag|]; small; [|told].
  destruct (slice_read request 2 4) as [size|]; small; [|told].
  destruct (be_val size =? Z.of_nat (length request)); cbn [negb]; [|told].
  destruct (slice_read request 6 4) as [code|]; small; [|told].
  destruct (be_val code =? cc_GetRandom); [|told].
  unfold get_random_foreign, Server.get_random, sh_take, read_be_u16, read_be, write_callback, slice_write_callback.
  small. destruct (slice_read request 10 2) as [n|]; small; [|told].
  set (k := Z.to_nat (be_val n)). clearbody k.
  destruct (_ <=? length resp)%nat; [|told].
  destruct (get_random_or_failure dr es c (firstn k (skipn 10 resp))) as [[c' [u|z|]] out] eqn:G; small.
  2:{ exfalso. unfold get_random_or_failure in G. destruct (try_get_random _ _ _ _) as [[? ?] [?|?|]]; discriminate. }
  2:{ repeat split. congruence. }
  written; [|told]. written; [|told]. written; [|told]. auto.
Qed.
Theorem c107_slices_in_place D X (dr : Drbg D) (es : EntropySource X) c in_out request_size frame :
  let '(c1, (w1, _), o1) := served_in_place dr es framed_reads slice_writes c (in_out, frame) request_size in
  let '(c2, w2, o2) := execute_command_in_place dr es c in_out request_size in
  c1 = c2 /\ o1 = o2 /\ (o1 <> Panic -> w1 = w2).
Proof.
  unfold served_in_place, execute_command_in_place, answer_foreign, execute_foreign, execute_command,
    sh_take, read_be_u16, read_be_u32, read_be, inout_foreign, inout_new, sh_provided, inout_into. small.
  set (len := Nat.min request_size (length in_out)). clearbody len.
  destruct (len <? 2)%nat; small; [told|].
  destruct (slice_read in_out 0 2) as [tag|]; small; [|told].
  destruct (len <? 6)%nat; small; [told|].
  destruct (slice_read in_out 2 4) as [size|]; small; [|told].
  destruct (be_val size =? Z.of_nat len); cbn [negb]; [|told].
  destruct (len <? 10)%nat; small; [told|].
  destruct (slice_read in_out 6 4) as [code|]; small; [|told].
  destruct (be_val code =? cc_GetRandom); [|told].
  unfold get_random_foreign, Server.get_random, sh_take, read_be_u16, read_be, write_callback, slice_write_callback.
  small. destruct (len <? 12)%nat; small; [told|].
  destruct (slice_read in_out 10 2) as [n|]; small; [|told].
  set (k := Z.to_nat (be_val n)). clearbody k.
  destruct (_ <=? length in_out)%nat; [|told].
  destruct (get_random_or_failure dr es c (firstn k (skipn 10 in_out))) as [[c' [u|z|]] out] eqn:G; small.
  2:{ exfalso. unfold get_random_or_failure in G. destruct (try_get_random _ _ _ _) as [[? ?] [?|?|]]; discriminate. }
  2:{ repeat split. congruence. }
  written; [|told]. written; [|told]. written; [|told]. auto.
Qed.

(** *** The hypotheses can be met *)
Lemma slices_numbers : numbers (separate_foreign slice_reads slice_writes).
Proof.
  assert (B : forall k b o bs, slice_read b o k = Some bs -> 0 <= be_val bs < pow256 k).
  { intros k b o bs. unfold slice_read. destruct (Nat.leb_spec (o + k) (length b)); [|discriminate].
    intros E. injection E as <-.
    pose proof (be_val_range (firstn k (skipn o b))) as R.
    rewrite firstn_length, skipn_length, Nat.min_l in R by lia. exact R. }
  split; intros [r w] o e' z; cbn [separate_foreign f_u16 f_u32 slice_reads sh_u16 sh_u32 fst snd];
    unfold sh_provided, slice_into; destruct (slice_read r o _) as [bs|] eqn:E; cbn; intros H; try discriminate;
    injection H as <- <-; exact (B _ _ _ _ E).
Qed.
Definition ask_four : list byte :=
  [x80; x01; x00; x00; x00; x0c; x00; x00; x01; x7b; x00; x04].
Example c107_example :
  numbers (separate_foreign slice_reads slice_writes)
  /\ (let '(_, (_, l), r) := answer_foreign FakeDrbg FakeEntropy
         (noting (separate_foreign slice_reads slice_writes)) fake ((ask_four, (repeat xff 14, (0, 0)%nat)), []) in
      r = Ok 14%nat /\ map asks l = in_order 4 /\ handed l = [repeat xff 4])
  (* no room for the random bytes *)
  /\ (let '(_, (_, l), r) := answer_foreign FakeDrbg FakeEntropy
         (noting (separate_foreign slice_reads slice_writes)) fake ((ask_four, (repeat xff 13, (0, 0)%nat)), []) in
      r = Ok 10%nat /\ map asks l = firstn 7 (in_order 4) ++ [AWrite 6 [x00; x00; x09; x04]] /\ handed l = []).
Proof. split; [exact slices_numbers|]. split; vm_compute; auto. Qed.
(** A buffer that says [Ok] without running the callback is believed: the
    response is a success of fourteen bytes, four of which nobody wrote. *)
Definition lazy_writes : foreign_write framed := {|
  fw_write := fw_write slice_writes;
  fw_begin := fun w offset size => (w, None);
  fw_finish := fun w _ => (w, Ok tt)
|}.
Example c107_believed :
  served_separate FakeDrbg FakeEntropy slice_reads lazy_writes fake ask_four (repeat xff 14, (0, 0)%nat)
  = (fake, (ask_four, ([x80; x01; x00; x00; x00; x0e; x00; x00; x00; x00; xff; xff; xff; xff], (0, 0)%nat)), Ok 14%nat).
Proof. vm_compute. reflexivity. Qed.
