(** Which refusals further input can change (C79). *)
From Coq Require Import String ZArith NArith List Lia Bool.
From Coq Require Import Init.Byte.
From Verif Require Import Prelude Types Marshal WireSpec MarshalProofs WriteSpec MarshalWrite
  Layout Catalogue Samples MarshalFacts.
Import ListNotations.
Open Scope Z_scope.

(** ** Auxiliary facts *)

Definition settled {A} (f : list byte -> ures A) : Prop :=
  forall b r, fst (f b) <> Err UnexpectedEndOfBuffer -> f (b ++ r) = (fst (f b), snd (f b) ++ r).

Lemma settled_ret {A} (o : outcome merr A) : settled (fun b => (o, b)).
Proof. intros b r _. reflexivity. Qed.
Lemma settled_umap {A B} (g : A -> B) f : settled f -> settled (fun b => umap g (f b)).
Proof.
  intros H b r N. unfold umap in *. rewrite (H b r); [reflexivity|].
  intros E. apply N. cbn. now rewrite E.
Qed.
Lemma settled_uthen {A B} (f : list byte -> ures A) (k : A -> list byte -> ures B) :
  settled f -> (forall a, settled (k a)) -> settled (fun b => uthen (f b) (k)).
Proof.
  intros H K b r N. specialize (H b r). destruct (f b) as [[a|e|] b1] eqn:E; cbn [uthen fst snd] in *.
  - rewrite H by discriminate. cbn [uthen]. apply K. exact N.
  - rewrite H; [reflexivity|]. intros E'. apply N. congruence.
  - rewrite H by discriminate. reflexivity.
Qed.
Lemma settled_bytes n : settled (unm_bytes n).
Proof.
  intros b r N. destruct (unm_bytes_cases n b) as [(a & b1 & -> & Ha & E)|(_ & E)]; rewrite E in *; [|now destruct N].
  rewrite <- app_assoc, unm_bytes_app by assumption. reflexivity.
Qed.
Lemma settled_int sg k : settled (unm_int sg k).
Proof.
  intros b r N. unfold unm_int in *. pose proof (settled_bytes (N.of_nat k) b r) as H.
  destruct (unm_bytes (N.of_nat k) b) as [o b1]. cbn [fst snd] in *.
  rewrite H; [reflexivity|]. intros ->. now apply N.
Qed.
Lemma settled_arr f m : settled f -> settled (unm_arr f m).
Proof.
  intros H. induction m as [|m IH]; [apply settled_ret|]. cbn [unm_arr].
  apply (settled_uthen f (fun v b1 => umap (cons v) (unm_arr f m b1)) H). intros v. now apply settled_umap.
Qed.
Lemma settled_tpm2b max : settled (unm_tpm2b max).
Proof.
  intros b r N. unfold unm_tpm2b in *. pose proof (settled_int false 2 b r) as H.
  destruct (unm_int false 2 b) as [[z|e|] b1]; cbn [fst snd] in *.
  - rewrite H by discriminate. destruct (buf_get (Z.to_N z) b1) as [[s b2]|] eqn:Eg; cbn [fst snd] in *.
    + apply buf_get_Some in Eg as (-> & Hs). rewrite <- app_assoc, buf_get_app by assumption.
      destruct (max <? N.of_nat (length s))%N; reflexivity.
    + now destruct N.
  - rewrite H by congruence. reflexivity.
  - rewrite H by discriminate. reflexivity.
Qed.

Lemma unm_settled :
  (forall t, settled (unmarshal t))
  /\ (forall fs env, settled (unmarshal_fields env fs))
  /\ (forall ts, settled (unmarshal_tys ts))
  /\ (forall vrs sel, settled (unmarshal_variant vrs sel)).
Proof.
  apply ty_mutind.
  - intros sg k. apply settled_umap, settled_int.
  - apply settled_ret.
  - intros n. apply settled_umap, settled_bytes.
  - intros fs IH. apply settled_umap, IH.
  - intros ts IH. apply settled_umap, IH.
  - intros k vrs IH. apply (settled_uthen (unm_int false k)); [apply settled_int|]. intros sel. apply settled_umap, IH.
  - apply settled_tpm2b.
  - intros pre IHp k mid IHm vrs IHv. cbn [unmarshal].
    apply (settled_uthen (unmarshal_tys pre)); [apply IHp|]. intros a.
    apply (settled_uthen (unm_int false k)); [apply settled_int|]. intros sel.
    apply (settled_uthen (unmarshal_tys mid)); [apply IHm|]. intros b. apply settled_umap, IHv.
  - intros env. apply settled_ret.
  - intros name kd t IHt rest IHr env. destruct kd as [|n|n len d]; cbn [unmarshal_fields].
    + apply (settled_uthen (unmarshal t)); [apply IHt|]. intros v. apply settled_umap, IHr.
    + apply (settled_uthen (unm_arr (unmarshal t) (N.to_nat n))); [apply settled_arr, IHt|]. intros v. apply settled_umap, IHr.
    + destruct (lookup_len len env) as [c|]; [|apply settled_ret].
      destruct (n <? usize c)%N; [apply settled_ret|].
      apply (settled_uthen (unm_arr (unmarshal t) (N.to_nat (usize c)))); [apply settled_arr, IHt|].
      intros v. apply settled_umap, IHr.
  - apply settled_ret.
  - intros t IHt rest IHr. cbn [unmarshal_tys].
    apply (settled_uthen (unmarshal t)); [apply IHt|]. intros v. apply settled_umap, IHr.
  - intros sel. apply settled_ret.
  - intros s ts IHt rest IHr sel. cbn [unmarshal_variant]. destruct (sel =? s); auto.
Qed.

Definition end_err {A} (x : ures A) : Prop := fst x = Err UnexpectedEndOfBuffer.

Lemma end_umap {A B} (f : A -> B) x : end_err (umap f x) -> end_err x.
Proof. unfold end_err. destruct x as [[]]; cbn; congruence. Qed.
Lemma end_uthen {A B} (x : ures A) (k : A -> list byte -> ures B) :
  end_err (uthen x k) -> end_err x \/ exists a b, x = (Ok a, b) /\ end_err (k a b).
Proof. unfold end_err. destruct x as [[a|e|] b]; cbn; [right; eauto|left; congruence|discriminate]. Qed.

Lemma end_int sg k b : (0 < k)%nat -> end_err (unm_int sg k b) -> (length b < k)%nat.
Proof.
  intros Hk H. destruct (unm_int_cases sg k b Hk) as [(z & r & -> & _ & E)|(Hl & E)]; rewrite E in H; [discriminate|]. lia.
Qed.

Lemma end_arr f (e : val -> list byte) (P : val -> Prop) mx m :
  (forall b v r, f b = (Ok v, r) -> P v /\ b = e v ++ r) ->
  (forall v, P v -> (N.of_nat (length (e v)) <= mx)%N) ->
  (forall b, end_err (f b) -> (N.of_nat (length b) < mx)%N) ->
  forall b, end_err (unm_arr f m b) -> (N.of_nat (length b) < N.of_nat m * mx)%N.
Proof.
  intros Hf Hm He. induction m as [|m IH]; intros b H; cbn [unm_arr] in H; [discriminate|].
  apply end_uthen in H as [H|(v & b1 & E & H)].
  - apply He in H. lia.
  - apply end_umap in H. apply IH in H. apply Hf in E as (Pv & ->). apply Hm in Pv. rewrite app_length. lia.
Qed.

Lemma end_bound :
  (forall t, wf_ty t = true -> no_sized t = true -> forall b, end_err (unmarshal t b) ->
     (N.of_nat (length b) < max_enc t)%N)
  /\ (forall fs names, wf_ty_fields names fs = true -> no_sized_fields fs = true -> forall env b,
     map fst env = names -> end_err (unmarshal_fields env fs b) ->
     (N.of_nat (length b) < max_enc_fields fs)%N)
  /\ (forall ts, wf_ty_tys ts = true -> no_sized_tys ts = true -> forall b, end_err (unmarshal_tys ts b) ->
     (N.of_nat (length b) < max_enc_tys ts)%N)
  /\ (forall vrs k, wf_ty_variants k vrs = true -> no_sized_variants vrs = true -> forall sel b,
     end_err (unmarshal_variant vrs sel b) -> (N.of_nat (length b) < max_enc_variants vrs)%N).
Proof.
  apply ty_mutind.
  - intros sg k Ht _ b H. apply end_umap, end_int in H; [|now apply int_width_pos]. cbn. lia.
  - intros _ _ b H. discriminate.
  - intros n _ _ b H. apply end_umap in H. destruct (unm_bytes_cases n b) as [(a & r & -> & _ & E)|(Hl & E)]; unfold end_err in H; rewrite E in H; [discriminate|]. exact Hl.
  - intros fs IH Ht Hn b H. apply end_umap in H. exact (IH [] Ht Hn [] b eq_refl H).
  - intros ts IH Ht Hn b H. apply end_umap in H. exact (IH Ht Hn b H).
  - intros k vrs IH Ht Hn b H. cbn [wf_ty no_sized unmarshal max_enc] in *. bsplit.
    apply int_width_pos in H0. apply end_uthen in H as [H|(sel & b1 & E & H)].
    + apply end_int in H; [|assumption]. lia.
    + apply end_umap, (IH k) in H; try assumption. apply unm_int_inv in E as (_ & ->); [|assumption].
      rewrite app_length, be_bytes_length. lia.
  - discriminate.
  - intros pre IHp k mid IHm vrs IHv Ht Hn b H. cbn [wf_ty no_sized unmarshal max_enc] in *. bsplit.
    match goal with H : int_width k = true |- _ => apply int_width_pos in H end.
    apply end_uthen in H as [H|(a & b1 & E1 & H)]; [apply IHp in H; try assumption; lia|].
    apply (proj1 (proj2 (proj2 unm_inv_all))) in E1 as (W1 & _ & ->); [|assumption].
    apply (proj1 (proj2 (proj2 enc_max_all))) in W1. rewrite app_length.
    apply end_uthen in H as [H|(sel & b2 & E2 & H)]; [apply end_int in H; try assumption; lia|].
    apply unm_int_inv in E2 as (_ & ->); [|assumption]. rewrite app_length, be_bytes_length.
    apply end_uthen in H as [H|(m & b3 & E3 & H)]; [apply IHm in H; try assumption; lia|].
    apply (proj1 (proj2 (proj2 unm_inv_all))) in E3 as (W3 & _ & ->); [|assumption].
    apply (proj1 (proj2 (proj2 enc_max_all))) in W3. rewrite app_length.
    apply end_umap, (IHv k) in H; try assumption. lia.
  - intros names _ _ env b _ H. discriminate.
  - intros name kd t IHt rest IHr names Ht Hn env b Henv H.
    cbn [wf_ty_fields no_sized_fields] in *. bsplit. cbn [max_enc_fields].
    assert (Hb : forall b v r, unmarshal t b = (Ok v, r) -> wf t v = true /\ b = enc t v ++ r)
      by (intros b0 v r E; apply unm_inv in E; tauto).
    destruct kd as [|n|n len dflt]; cbn [unmarshal_fields kmul] in *.
    + apply end_uthen in H as [H|(v & b1 & E & H)]; [apply IHt in H; try assumption; lia|].
      apply end_umap in H. apply Hb in E as (W & ->).
      apply (IHr _ ltac:(eassumption) ltac:(eassumption)) in H;
        [|apply bind_len_names; assumption].
      apply (proj1 enc_max_all) in W. rewrite app_length. lia.
    + apply end_uthen in H as [H|(l & b1 & E & H)].
      * apply (end_arr _ (enc t) (fun v => wf t v = true) (max_enc t)) in H; try assumption; try apply enc_max_all; try (intros; apply IHt; assumption).
        rewrite N2Nat.id in H. lia.
      * apply end_umap in H. apply (unm_arr_inv _ (enc t) (fun v => wf t v = true)) in E as (El & Ef & ->); [|assumption].
        apply (IHr _ ltac:(eassumption) ltac:(eassumption)) in H; [|assumption]. rewrite app_length.
        pose proof (flat_map_max (enc t) (max_enc t) l) as Hm. rewrite El, N2Nat.id in Hm.
        assert (N.of_nat (length (flat_map (enc t) l)) <= n * max_enc t)%N.
        { apply Hm. intros v Hv. apply enc_max_all. exact (proj1 (Forall_forall _ _) Ef v Hv). }
        lia.
    + bsplit. match goal with H : existsb _ names = true |- _ => rewrite <- Henv in H; destruct (lookup_len_names _ _ H) as [c Ec] end.
      rewrite Ec in *. destruct (N.ltb_spec n (usize c)) as [Hc|Hc]; [discriminate|].
      apply end_uthen in H as [H|(l & b1 & E & H)].
      * apply (end_arr _ (enc t) (fun v => wf t v = true) (max_enc t)) in H; try assumption; try apply enc_max_all; try (intros; apply IHt; assumption).
        rewrite N2Nat.id in H. nia.
      * apply end_umap in H. apply (unm_arr_inv _ (enc t) (fun v => wf t v = true)) in E as (El & Ef & ->); [|assumption].
        apply (IHr _ ltac:(eassumption) ltac:(eassumption)) in H; [|assumption]. rewrite app_length.
        pose proof (flat_map_max (enc t) (max_enc t) l) as Hm. rewrite El, N2Nat.id in Hm.
        assert (N.of_nat (length (flat_map (enc t) l)) <= usize c * max_enc t)%N.
        { apply Hm. intros v Hv. apply enc_max_all. exact (proj1 (Forall_forall _ _) Ef v Hv). }
        nia.
  - intros _ _ b H. discriminate.
  - intros t IHt rest IHr Ht Hn b H. cbn [wf_ty_tys no_sized_tys unmarshal_tys max_enc_tys] in *. bsplit.
    apply end_uthen in H as [H|(v & b1 & E & H)]; [apply IHt in H; try assumption; lia|].
    apply end_umap in H. apply unm_inv in E as (W & _ & ->); [|assumption].
    apply IHr in H; try assumption. apply (proj1 enc_max_all) in W. rewrite app_length. lia.
  - intros k _ _ sel b H. discriminate.
  - intros s ts IHt rest IHr k Ht Hn sel b H. cbn [wf_ty_variants no_sized_variants unmarshal_variant max_enc_variants] in *. bsplit.
    destruct (sel =? s); [apply IHt in H|apply (IHr k) in H]; try assumption; lia.
Qed.

(** The maxima of the sized buffers in a type. *)
Fixpoint maxima (t : ty) : list N :=
  match t with
  | TInt _ _ | TUnit | TBytes _ => []
  | TTpm2b max => [max]
  | TNamed fs => maxima_fields fs
  | TTuple ts => maxima_tys ts
  | TEnum _ vrs => maxima_variants vrs
  | TSplit pre _ mid vrs => maxima_tys pre ++ maxima_tys mid ++ maxima_variants vrs
  end
with maxima_fields (fs : fields) : list N :=
  match fs with FNil => [] | FCons _ _ t rest => maxima t ++ maxima_fields rest end
with maxima_tys (ts : tys) : list N :=
  match ts with TNil => [] | TCons t rest => maxima t ++ maxima_tys rest end
with maxima_variants (vrs : variants) : list N :=
  match vrs with VNil => [] | VCons _ ts rest => maxima_tys ts ++ maxima_variants rest end.
(** The input has, somewhere, a size above one of these. *)
Definition oversized (l : list N) (b : list byte) : Prop :=
  exists max size p q, In max l /\ Z.of_N max < size < 65536 /\ b = p ++ be_bytes 2 size ++ q.
Definition decided {A} (f : list byte -> ures A) (mx : N) (l : list N) : Prop :=
  settled f
  /\ (forall b a b1, f b = (Ok a, b1) -> exists c, b = c ++ b1 /\ (N.of_nat (length c) <= mx)%N)
  /\ (forall b, end_err (f b) -> (N.of_nat (length b) < mx)%N \/ (oversized l b /\ forall r, end_err (f (b ++ r)))).
Lemma oversized_app l p b : oversized l b -> oversized l (p ++ b).
Proof.
  intros (max & size & p' & q & I & S & ->). exists max, size, (p ++ p'), q. rewrite <- app_assoc. auto.
Qed.
Lemma oversized_incl l l' b : incl l l' -> oversized l b -> oversized l' b.
Proof. intros H (max & size & p' & q & I & S & ->). exists max, size, p', q. auto. Qed.
Lemma decided_weak {A} (f : list byte -> ures A) mx l mx' l' :
  decided f mx l -> (mx <= mx')%N -> incl l l' -> decided f mx' l'.
Proof.
  intros (S & C & E) Hm Hl. split; [exact S|]. split.
  - intros b a b1 H. apply C in H as (c & -> & Hc). exists c. split; [reflexivity|lia].
  - intros b H. apply E in H as [H|[H1 H2]]; [left; lia|right]. split; [eapply oversized_incl; eassumption|assumption].
Qed.
Lemma decided_ret {A} (o : outcome merr A) : o <> Err UnexpectedEndOfBuffer -> decided (fun b => (o, b)) 0 [].
Proof.
  intros Ho. split; [apply settled_ret|]. split.
  - intros b a b1 H. injection H as _ <-. exists []. split; [reflexivity|cbn; lia].
  - intros b H. now destruct Ho.
Qed.
Lemma decided_umap {A B} (g : A -> B) f mx l : decided f mx l -> decided (fun b => umap g (f b)) mx l.
Proof.
  intros (S & C & E). split; [now apply settled_umap|]. split.
  - intros b a b1 H. unfold umap in H. destruct (f b) as [[x|e|] b2] eqn:F; try discriminate. injection H as _ <-. eapply C; eassumption.
  - intros b H. apply end_umap, E in H as [H|[H1 H2]]; [left; exact H|right]. split; [exact H1|].
    intros r. specialize (H2 r). unfold end_err, umap in *. destruct (f (b ++ r)) as [[x|e|] b2]; cbn in *; congruence.
Qed.
Lemma decided_uthen {A B} (f : list byte -> ures A) (k : A -> list byte -> ures B) mx l mx' l' :
  decided f mx l -> (forall a, decided (k a) mx' l') -> decided (fun b => uthen (f b) k) (mx + mx') (l ++ l').
Proof.
  intros (S & C & E) K. split; [apply settled_uthen; [exact S|intros a; apply K]|]. split.
  - intros b a b1 H. apply uthen_ok in H as (x & b2 & F & H). apply C in F as (c & -> & Hc).
    apply (proj1 (proj2 (K x))) in H as (c' & -> & Hc'). exists (c ++ c'). rewrite app_assoc, app_length. split; [reflexivity|lia].
  - intros b H. apply end_uthen in H as [H|(x & b1 & F & H)].
    + apply E in H as [H|[H1 H2]]; [left; lia|right]. split; [eapply oversized_incl; [|exact H1]; apply incl_appl, incl_refl|].
      intros r. specialize (H2 r). unfold end_err in *. destruct (f (b ++ r)) as [[y|e|] b2]; cbn in *; congruence.
    + pose proof (C _ _ _ F) as (c & -> & Hc). apply (proj2 (proj2 (K x))) in H as [H|[H1 H2]].
      * left. rewrite app_length. lia.
      * right. split; [apply oversized_app; eapply oversized_incl; [|exact H1]; apply incl_appr, incl_refl|].
        intros r. pose proof (S (c ++ b1) r) as Sr. rewrite F in Sr. cbn [fst snd] in Sr. rewrite Sr by discriminate. apply H2.
Qed.
Lemma decided_bytes n : decided (unm_bytes n) n [].
Proof.
  split; [apply settled_bytes|]. split.
  - intros b a b1 H. destruct (unm_bytes_cases n b) as [(a' & r & -> & Hl & E)|(Hl & E)]; rewrite E in H; [|discriminate].
    injection H as <- <-. exists a'. split; [reflexivity|lia].
  - intros b H. destruct (unm_bytes_cases n b) as [(a' & r & -> & Hl & E)|(Hl & E)]; unfold end_err in H; rewrite E in H; [discriminate|].
    left. exact Hl.
Qed.
Lemma decided_int sg k : decided (unm_int sg k) (N.of_nat k) [].
Proof.
  assert (E : forall b, unm_int sg k b = umap (int_of_be sg) (unm_bytes (N.of_nat k) b)).
  { intros b. unfold unm_int, umap. destruct (unm_bytes (N.of_nat k) b) as [[a|e|] r]; reflexivity. }
  destruct (decided_umap (int_of_be sg) _ _ _ (decided_bytes (N.of_nat k))) as (S & C & D).
  split; [apply settled_int|]. split.
  - intros b a b1 H. rewrite E in H. eapply C; eassumption.
  - intros b H. rewrite E in H. apply D in H as [H|[H1 H2]]; [left; exact H|right]. split; [exact H1|]. intros r. rewrite E. apply H2.
Qed.
Lemma decided_tpm2b max : decided (unm_tpm2b max) (2 + max) [max].
Proof.
  split; [apply settled_tpm2b|]. split.
  - intros b a b1 H. unfold unm_tpm2b in H. destruct (unm_int false 2 b) as [[z|e|] b2] eqn:E; try discriminate.
    apply (proj1 (proj2 (decided_int false 2))) in E as (c & -> & Hc).
    destruct (buf_get (Z.to_N z) b2) as [[s b3]|] eqn:G; [|discriminate]. apply buf_get_Some in G as (-> & Hs).
    destruct (N.ltb_spec max (N.of_nat (length s))); [discriminate|]. injection H as _ <-.
    exists (c ++ s). rewrite app_assoc, app_length. split; [reflexivity|lia].
  - intros b H. unfold end_err, unm_tpm2b in *.
    destruct (unm_int_cases false 2 b ltac:(lia)) as [(z & b1 & -> & R & E)|(Hl & E)]; rewrite E in H.
    2:{ left. lia. }
    apply in_range_iff in R. change (2 ^ (8 * Z.of_nat 2)) with 65536 in R.
    destruct (Z.le_gt_cases z (Z.of_N max)) as [Hz|Hz].
    + left. destruct (buf_get (Z.to_N z) b1) as [[s b3]|] eqn:G.
      * apply buf_get_Some in G as (-> & Hs). destruct (N.ltb_spec max (N.of_nat (length s))); [lia|discriminate].
      * apply buf_get_None in G. rewrite app_length, be_bytes_length. lia.
    + right. split; [exists max, z, [], b1; split; [left; reflexivity|]; split; [unfold pow256 in R; lia|reflexivity]|]. intros r.
      rewrite <- app_assoc, unm_int_app by (apply in_range_iff; exact R).
      destruct (buf_get (Z.to_N z) (b1 ++ r)) as [[s b3]|] eqn:G; [|reflexivity].
      apply buf_get_Some in G as (_ & Hs). destruct (N.ltb_spec max (N.of_nat (length s))); [reflexivity|lia].
Qed.
Lemma decided_arr f m mx l : decided f mx l -> decided (unm_arr f m) (N.of_nat m * mx) l.
Proof.
  intros H. induction m as [|m IH]; cbn [unm_arr].
  - eapply decided_weak; [apply decided_ret; discriminate|lia|intros x []].
  - eapply decided_weak.
    + apply (decided_uthen f (fun v b1 => umap (cons v) (unm_arr f m b1)) mx l (N.of_nat m * mx) l H). intros v. apply decided_umap, IH.
    + lia.
    + apply incl_app; apply incl_refl.
Qed.
Lemma unm_decided :
  (forall t, decided (unmarshal t) (max_enc t) (maxima t))
  /\ (forall fs env, decided (unmarshal_fields env fs) (max_enc_fields fs) (maxima_fields fs))
  /\ (forall ts, decided (unmarshal_tys ts) (max_enc_tys ts) (maxima_tys ts))
  /\ (forall vrs sel, decided (unmarshal_variant vrs sel) (max_enc_variants vrs) (maxima_variants vrs)).
Proof.
  apply ty_mutind.
  - intros sg k. apply decided_umap, decided_int.
  - apply decided_ret. discriminate.
  - intros n. apply decided_umap, decided_bytes.
  - intros fs IH. apply decided_umap, IH.
  - intros ts IH. apply decided_umap, IH.
  - intros k vrs IH. apply (decided_uthen (unm_int false k) _ _ []); [apply decided_int|]. intros sel. apply decided_umap, IH.
  - apply decided_tpm2b.
  - intros pre IHp k mid IHm vrs IHv. cbn [unmarshal max_enc maxima]. rewrite <- !N.add_assoc.
    apply (decided_uthen (unmarshal_tys pre)); [apply IHp|]. intros a.
    apply (decided_uthen (unm_int false k) _ _ []); [apply decided_int|]. intros sel.
    apply (decided_uthen (unmarshal_tys mid)); [apply IHm|]. intros b. apply decided_umap, IHv.
  - intros env. apply decided_ret. discriminate.
  - intros name kd t IHt rest IHr env. destruct kd as [|n|n len d]; cbn [unmarshal_fields max_enc_fields kmul maxima_fields].
    + apply (decided_uthen (unmarshal t)); [apply IHt|]. intros v. apply decided_umap, IHr.
    + apply (decided_uthen (unm_arr (unmarshal t) (N.to_nat n))).
      * eapply decided_weak; [apply decided_arr, IHt|lia|apply incl_refl].
      * intros v. apply decided_umap, IHr.
    + destruct (lookup_len len env) as [c|].
      2:{ eapply decided_weak; [apply decided_ret; discriminate|lia|intros x []]. }
      destruct (N.ltb_spec n (usize c)).
      { eapply decided_weak; [apply decided_ret; discriminate|lia|intros x []]. }
      apply (decided_uthen (unm_arr (unmarshal t) (N.to_nat (usize c)))).
      * eapply decided_weak; [apply decided_arr, IHt|nia|apply incl_refl].
      * intros v. apply decided_umap, IHr.
  - apply decided_ret. discriminate.
  - intros t IHt rest IHr. cbn [unmarshal_tys].
    apply (decided_uthen (unmarshal t)); [apply IHt|]. intros v. apply decided_umap, IHr.
  - intros sel. apply decided_ret. discriminate.
  - intros s ts IHt rest IHr sel. cbn [unmarshal_variant max_enc_variants maxima_variants]. destruct (sel =? s).
    + eapply decided_weak; [apply IHt|lia|apply incl_appl, incl_refl].
    + eapply decided_weak; [apply IHr|lia|apply incl_appr, incl_refl].
Qed.

(** ** C79 *)
(** Every outcome except "end of buffer" is final: on the input followed by
    anything the same value or the same error is returned, at the same place. *)
Theorem c79_final t b r :
  fst (unmarshal t b) <> Err UnexpectedEndOfBuffer ->
  unmarshal t (b ++ r) = (fst (unmarshal t b), snd (unmarshal t b) ++ r).
Proof. apply unm_settled. Qed.

(** "End of buffer" means that bytes are missing, for types without sized
    buffers: it cannot come of an input as long as the type is in memory ... *)
Theorem c79_missing_partial t b :
  wf_ty t = true -> no_sized t = true -> (size_of t <= N.of_nat (length b))%N ->
  fst (unmarshal t b) <> Err UnexpectedEndOfBuffer.
Proof.
  intros Ht Hn Hl H. apply (proj1 end_bound t Ht Hn) in H. pose proof (proj1 max_size_all t). unfold size_of in *. lia.
Qed.

(** ... so some continuation, in fact every one that is long enough, is
    accepted or refused for what it contains. *)
Theorem c79_continue_partial t b r :
  wf_ty t = true -> no_sized t = true -> (size_of t <= N.of_nat (length r))%N ->
  (exists v rest, unmarshal t (b ++ r) = (Ok v, rest))
  \/ (exists e rest, unmarshal t (b ++ r) = (Err e, rest) /\ (e = ArrayLengthExceeded \/ e = UnknownSelector)
        /\ forall r', fst (unmarshal t (b ++ r ++ r')) = Err e).
Proof.
  intros Ht Hn Hl. assert (N : fst (unmarshal t (b ++ r)) <> Err UnexpectedEndOfBuffer).
  { apply c79_missing_partial; try assumption. rewrite app_length. lia. }
  destruct (c03_unmarshal_total t (b ++ r) Ht) as [(v & rest & _ & E & _)|(e & rest & _ & E & _)]; [left; eauto|right].
  exists e, rest. split; [exact E|]. rewrite E in N. split.
  - destruct e; auto. now destruct N.
  - intros r'. rewrite app_assoc, c79_final; rewrite E; [reflexivity|exact N].
Qed.

(** With sized buffers it is false: a size above the maximum is reported as
    the end of the buffer however many bytes follow. *)
Theorem c79_missing_refuted :
  (forall max size r, Z.of_N max < size < 65536 ->
     fst (unmarshal (TTpm2b max) (be_bytes 2 size ++ r)) = Err UnexpectedEndOfBuffer)
  /\ exists t b, In t base_types /\ forall r, fst (unmarshal t (b ++ r)) = Err UnexpectedEndOfBuffer.
Proof.
  assert (H : forall max size r, Z.of_N max < size < 65536 ->
     fst (unmarshal (TTpm2b max) (be_bytes 2 size ++ r)) = Err UnexpectedEndOfBuffer).
  { intros max size r Hs. pose proof (c11_sized_buffer max size r ltac:(lia)) as E. cbn zeta in E.
    destruct (Z.leb_spec size (Z.of_N max)); [lia|]. exact E. }
  split; [exact H|]. exists Tpm2bDigest, [x00; x41]. split; [in_base|].
  intros r. exact (H 64%N 65 r ltac:(lia)).
Qed.

(** With sized buffers, too, an input as long as the type is in memory is
    decided: whatever follows, the outcome is the same ... *)
Theorem c79_decided t b r :
  (size_of t <= N.of_nat (length b))%N -> fst (unmarshal t (b ++ r)) = fst (unmarshal t b).
Proof.
  intros Hl. pose proof (proj1 unm_decided t) as (S & _ & E). specialize (S b r). specialize (E b).
  assert (D : fst (unmarshal t b) = Err UnexpectedEndOfBuffer \/ fst (unmarshal t b) <> Err UnexpectedEndOfBuffer).
  { destruct (fst (unmarshal t b)) as [v|[]|]; (left; reflexivity) || (right; discriminate). }
  destruct D as [D|D]; [|rewrite S by exact D; reflexivity].
  destruct (E D) as [E'|[_ E']]; [|rewrite D; apply E'].
  pose proof (proj1 max_size_all t). unfold size_of in *. lia.
Qed.
(** ... and if it is "end of buffer" after all, then the input has a size above
    the maximum of one of the type's sized buffers. *)
Theorem c79_oversized t b :
  (size_of t <= N.of_nat (length b))%N -> fst (unmarshal t b) = Err UnexpectedEndOfBuffer -> oversized (maxima t) b.
Proof.
  intros Hl D. pose proof (proj1 unm_decided t) as (_ & _ & E). destruct (E b D) as [E'|[E' _]]; [|exact E'].
  pose proof (proj1 max_size_all t). unfold size_of in *. lia.
Qed.

Example c79_example :
  fst (unmarshal TpmlDigest [x00; x00; x00; x09]) = Err ArrayLengthExceeded
  /\ fst (unmarshal TpmlDigest [xff; x00; x00]) = Err UnexpectedEndOfBuffer
  /\ fst (unmarshal TpmlDigest [xff; x00; x00; x00]) = Err ArrayLengthExceeded
  /\ no_sized TpmlPcrSelection = true /\ size_of TpmlPcrSelection = 132%N
  /\ no_sized TpmtHa = true
  /\ size_of Tpm2bDigest = 66%N /\ maxima Tpm2bDigest = [64%N]
  /\ fst (unmarshal Tpm2bDigest (x00 :: x41 :: repeat x00 64)) = Err UnexpectedEndOfBuffer.
Proof. vm_compute. auto 10. Qed.
