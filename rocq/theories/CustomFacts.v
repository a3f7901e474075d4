(** Types that derive [Marshalable] with members that implement it by hand (C105).
    The model is in Custom.v, the contract and the format in CustomSpec.v. *)
From Coq Require Import String ZArith NArith List Lia Bool.
From Coq Require Import Init.Byte.
From Verif Require Import Prelude Types Marshal WireSpec MarshalProofs WriteSpec MarshalWrite
  MarshalFacts Custom CustomSpec.
Import ListNotations.
Open Scope Z_scope.

Lemma add_small checked w n : (N.of_nat (w + n) < 2 ^ 64)%N ->
  add_written checked w n = Ok (w + n)%nat.
Proof.
  intros H. unfold add_written.
  destruct (N.ltb_spec (N.of_nat (w + n)) (2 ^ 64)); [reflexivity|lia].
Qed.

(** ** Writing at an offset *)
Section Marshals.
Context {W : Type} (theirs : nat -> custom W) (checked : bool).

Definition puts (f : W -> list byte -> W * mres) (x : list byte) : Prop :=
  forall s buf, slice buf ->
    if (length x <=? length buf)%nat
    then snd (f s buf) = (x ++ skipn (length x) buf, Ok (length x))
    else is_ok (snd (snd (f s buf))) = false.
Definition puts_at (f : W -> nat -> list byte -> W * mres) (x : list byte) : Prop :=
  forall s w buf, slice buf -> (w <= length buf)%nat ->
    if (w + length x <=? length buf)%nat
    then snd (f s w buf) = (firstn w buf ++ x ++ skipn (w + length x) buf, Ok (w + length x)%nat)
    else is_ok (snd (snd (f s w buf))) = false.

Lemma puts_at_nil : puts_at (fun s w buf => (s, (buf, Ok w))) [].
Proof.
  intros s w buf _ Hw. cbn [length]. destruct (Nat.leb_spec (w + 0) (length buf)); [|lia].
  cbn [snd app]. rewrite Nat.add_0_r, firstn_skipn. reflexivity.
Qed.

Lemma puts_seq f x : puts f x -> puts_at (cseq checked f) x.
Proof.
  intros H s w buf Hs Hw. unfold cseq.
  destruct (Nat.ltb_spec (length buf) w); [lia|].
  assert (Hs' : slice (skipn w buf)) by (unfold slice in *; rewrite skipn_length; lia).
  specialize (H s (skipn w buf) Hs'). rewrite skipn_length in H.
  destruct (f s (skipn w buf)) as [s' [sub r]]. cbn [snd] in *.
  destruct (Nat.leb_spec (length x) (length buf - w));
    destruct (Nat.leb_spec (w + length x) (length buf)); try lia.
  - injection H as -> ->. cbn [obind]. rewrite add_small by (unfold slice in Hs; lia).
    rewrite skipn_skipn'. reflexivity.
  - destruct r; [discriminate| |]; reflexivity.
Qed.

Lemma puts_then f x k y : puts_at f x -> puts_at k y ->
  puts_at (fun s w buf => cthen (f s w buf) k) (x ++ y).
Proof.
  intros Hf Hk s w buf Hs Hw. specialize (Hf s w buf Hs Hw). rewrite app_length.
  destruct (f s w buf) as [s' [b r]] eqn:E. cbn [snd] in Hf.
  destruct (Nat.leb_spec (w + length x) (length buf)).
  - injection Hf as -> ->. cbn [cthen].
    set (b := firstn w buf ++ x ++ skipn (w + length x) buf).
    assert (Hl : length b = length buf)
      by (unfold b; rewrite !app_length, firstn_length, skipn_length; lia).
    assert (Hs' : slice b) by (unfold slice in *; rewrite Hl; exact Hs).
    assert (Hw' : (w + length x <= length b)%nat) by lia.
    specialize (Hk s' (w + length x)%nat b Hs' Hw'). rewrite Hl in Hk.
    rewrite Nat.add_assoc.
    destruct (Nat.leb_spec (w + length x + length y) (length buf)); [|exact Hk].
    rewrite Hk. f_equal.
    assert (Hfw : length (firstn w buf ++ x) = (w + length x)%nat)
      by (rewrite app_length, firstn_length; lia).
    unfold b. rewrite (app_assoc (firstn w buf) x).
    rewrite (firstn_app_exact' (w + length x)) by (rewrite Hfw; reflexivity).
    rewrite (skipn_app (w + length x + length y)), Hfw.
    rewrite (skipn_all2 (firstn w buf ++ x)) by lia. cbn [app].
    rewrite skipn_skipn', <- !app_assoc.
    replace (w + length x + (w + length x + length y - (w + length x)))%nat
      with (w + length x + length y)%nat by lia. reflexivity.
  - destruct r; [discriminate| |]; cbn [cthen snd is_ok];
      destruct (Nat.leb_spec (w + (length x + length y)) (length buf)); try lia; reflexivity.
Qed.

Lemma puts_0 f x : puts_at f x -> puts (fun s => f s 0%nat) x.
Proof.
  intros H s buf Hs. specialize (H s 0%nat buf Hs (Nat.le_0_l _)). exact H.
Qed.

Lemma puts_at_ext f g x : (forall s w b, f s w b = g s w b) -> puts_at f x -> puts_at g x.
Proof. intros E H s w buf Hs Hw. rewrite <- E. apply H; assumption. Qed.

Lemma puts_arr f (x : val -> list byte) l : Forall (fun v => puts (fun s => f s v) (x v)) l ->
  forall hidden, puts_at (cmar_arr checked f (N.of_nat (length l)) (l ++ hidden)) (flat_map x l).
Proof.
  induction 1 as [|v l Hv _ IH]; intros hidden.
  - cbn [length app flat_map]. apply puts_at_ext with (2 := puts_at_nil).
    intros. destruct hidden; reflexivity.
  - cbn [flat_map]. apply puts_at_ext with (2 := puts_then _ _ _ _ (puts_seq _ _ Hv) (IH hidden)).
    intros s w b. cbn [app cmar_arr length].
    destruct (N.eqb_spec (N.of_nat (S (length l))) 0); [lia|].
    replace (N.of_nat (S (length l)) - 1)%N with (N.of_nat (length l)) by lia. reflexivity.
Qed.

Lemma puts_mar_int k z : puts (fun s b => (s, mar_int k z b)) (be_bytes k z).
Proof.
  intros s buf _. cbn [snd]. unfold mar_int, mar_bytes.
  destruct (length (be_bytes k z) <=? length buf)%nat; reflexivity.
Qed.

Lemma puts_lib t v : wf t v = true -> puts (fun s b => (s, marshal t v b)) (enc t v).
Proof.
  intros Hv s buf _. cbn [snd]. destruct (Nat.leb_spec (length (enc t v)) (length buf)) as [Hl|Hl].
  - rewrite marshal_fits by assumption. reflexivity.
  - destruct (marshal_short t v buf Hv Hl) as (pre & c & post & _ & _ & E).
    rewrite E. cbn [snd]. destruct (is_payload c); reflexivity.
Qed.

Context (good : nat -> val -> Prop) (e : nat -> val -> list byte).
Hypothesis Hm : forall i, marshals (theirs i) (good i) (e i).

Lemma cmarshal_puts :
  (forall t v, cgood good t v -> puts (fun s => cmarshal theirs checked t s v) (cenc e t v))
  /\ (forall fs env vs, cgood_fields good env fs vs ->
        puts_at (cmarshal_fields theirs checked env fs vs) (cenc_fields e env fs vs))
  /\ (forall ts vs, cgood_tys good ts vs ->
        puts_at (cmarshal_tys theirs checked ts vs) (cenc_tys e ts vs))
  /\ (forall vrs sel args, cgood_variant good vrs sel args ->
        puts (cmarshal_variant theirs checked vrs sel args) (cenc_variant e vrs sel args)).
Proof.
  apply cty_mutind.
  - intros t v [Hv _]. apply puts_lib, Hv.
  - intros i v Hg s buf Hs. apply Hm; assumption.
  - intros fs IH [] Hg; try contradiction. apply puts_0, (IH [] vs Hg).
  - intros ts IH [] Hg; try contradiction. apply puts_0, (IH vs Hg).
  - intros k vrs IH [] Hg; try contradiction. cbn [cenc].
    apply (puts_0 (fun s w b => cthen (cseq checked (fun s b => (s, mar_int k sel b)) s w b)
      (cseq checked (cmarshal_variant theirs checked vrs sel args)))).
    apply puts_then; apply puts_seq; [apply puts_mar_int|apply IH, Hg].
  - intros env [|] Hg; try contradiction. apply puts_at_nil.
  - intros name kd t IHt rest IH env [|v vs] Hg; [destruct kd; contradiction|].
    destruct kd as [|n|n len dflt]; cbn [cgood_fields cenc_fields] in *.
    + destruct Hg as [Hv Hg].
      apply (puts_then (cseq checked (fun s => cmarshal theirs checked t s v))); auto using puts_seq.
    + destruct v; try contradiction. destruct Hg as (Hn & Hv & Hg).
      apply (puts_then (cmar_arr checked (cmarshal theirs checked t) n vs0)); [|auto].
      subst n. rewrite <- (app_nil_r vs0) at 2. apply puts_arr.
      eapply Forall_impl; [|exact Hv]. auto.
    + destruct v; try contradiction. destruct Hg as ((c & Ec & Hc & _) & Hn & Hv & Hg).
      unfold counted in *. cbn [cmarshal_fields]. rewrite Ec in *.
      apply (puts_then (cmar_arr checked (cmarshal theirs checked t) (usize c) vs0)); [|auto].
      replace (usize c) with (N.of_nat (length (firstn (N.to_nat (usize c)) vs0)))
        at 1 by (rewrite firstn_length; lia).
      rewrite <- (firstn_skipn (N.to_nat (usize c)) vs0) at 2. apply puts_arr.
      eapply Forall_impl; [|exact Hv]. auto.
  - intros [|] Hg; try contradiction. apply puts_at_nil.
  - intros t IHt rest IH [|v vs] Hg; try contradiction. destruct Hg as [Hv Hg]. cbn [cenc_tys].
    apply (puts_then (cseq checked (fun s => cmarshal theirs checked t s v))); auto using puts_seq.
  - intros sel args [].
  - intros d ts IHt rest IH sel args Hg. cbn [cgood_variant cenc_variant cmarshal_variant] in *.
    destruct (sel =? d); [|auto]. apply puts_0. auto.
Qed.
End Marshals.

(** ** Reading *)
Section Unmarshals.
Context {W : Type} (theirs : nat -> custom W) (checked : bool).
Context (good : nat -> val -> Prop) (e : nat -> val -> list byte).

Lemma snd_cuthen {A B} (r : W * ures A) (k : W -> A -> list byte -> W * ures B) s a b :
  r = (s, (Ok a, b)) -> cuthen r k = k s a b.
Proof. intros ->. reflexivity. Qed.

Lemma snd_split {A B} (p : A * B) y : snd p = y -> p = (fst p, y).
Proof. destruct p. cbn. intros ->. reflexivity. Qed.

Lemma snd_cumap {A B} (f : A -> B) (r : W * ures A) a b :
  snd r = (Ok a, b) -> snd (cumap f r) = (Ok (f a), b).
Proof. intros E. unfold cumap. cbn [snd]. rewrite E. reflexivity. Qed.

Lemma cbind_names name t v env names :
  (forall n, existsb (String.eqb n) names = true -> lookup_len n env <> None) ->
  match t with CLib (TInt _ _) => exists z, v = VInt z | _ => True end ->
  forall n, existsb (String.eqb n) (cbind_name name KPlain t names) = true ->
    lookup_len n (bind_len name v env) <> None.
Proof.
  intros H Hv n Hn.
  assert (Hold : existsb (String.eqb n) names = true -> lookup_len n (bind_len name v env) <> None).
  { intros Hx. specialize (H n Hx). destruct v; cbn [bind_len lookup_len]; auto.
    destruct (String.eqb n name); [discriminate|exact H]. }
  destruct t as [[]| | | |]; cbn [cbind_name] in Hn; auto.
  destruct Hv as [z ->]. cbn [existsb] in Hn. apply orb_true_iff in Hn. destruct Hn as [Hn|Hn].
  - cbn [bind_len lookup_len]. rewrite Hn. discriminate.
  - auto.
Qed.

Section RoundTrip.
Hypothesis Hu : forall i, unmarshals (theirs i) (good i) (e i).

Lemma cunm_arr_reads f (x : val -> list byte) l :
  Forall (fun v => forall s rest, snd (f s (x v ++ rest)) = (Ok v, rest)) l ->
  forall s rest, snd (@cunm_arr W f (length l) s (flat_map x l ++ rest)) = (Ok l, rest).
Proof.
  induction 1 as [|v l Hv _ IH]; intros s rest; [reflexivity|].
  cbn [length cunm_arr flat_map]. rewrite <- app_assoc.
  rewrite (snd_cuthen _ _ _ _ _ (snd_split _ _ (Hv s (flat_map x l ++ rest)))).
  apply snd_cumap, IH.
Qed.

Lemma cgood_sel_range k vrs sel args : cwf_variants k vrs = true ->
  cgood_variant good vrs sel args -> in_range false k sel = true.
Proof.
  induction vrs as [|d ts rest IH]; cbn; [contradiction|]. intros H Hg. bsplit.
  destruct (Z.eqb_spec sel d); [subst; assumption|auto].
Qed.

Lemma cunmarshal_reads :
  (forall t, cwf t = true -> forall v s rest, cgood good t v ->
     snd (cunmarshal theirs t s (cenc e t v ++ rest)) = (Ok v, rest))
  /\ (forall fs names, cwf_fields names fs = true -> forall env vs s rest,
        cgood_fields good env fs vs ->
        snd (cunmarshal_fields theirs env fs s (cenc_fields e env fs vs ++ rest)) = (Ok vs, rest))
  /\ (forall ts, cwf_tys ts = true -> forall vs s rest, cgood_tys good ts vs ->
        snd (cunmarshal_tys theirs ts s (cenc_tys e ts vs ++ rest)) = (Ok vs, rest))
  /\ (forall vrs k, cwf_variants k vrs = true -> forall sel args s rest,
        cgood_variant good vrs sel args ->
        snd (cunmarshal_variant theirs vrs sel s (cenc_variant e vrs sel args ++ rest)) = (Ok args, rest)).
Proof.
  apply cty_mutind.
  - intros t Ht v s rest [Hv Hc]. cbn. rewrite unm_enc by assumption. rewrite Hc. reflexivity.
  - intros i _ v s rest Hg. apply Hu, Hg.
  - intros fs IH Ht [] s rest Hg; try contradiction. apply snd_cumap, (IH [] Ht), Hg.
  - intros ts IH Ht [] s rest Hg; try contradiction. apply snd_cumap, (IH Ht), Hg.
  - intros k vrs IH Ht [] s rest Hg; try contradiction. cbn [cwf cgood cenc] in *. bsplit.
    cbn [cunmarshal]. rewrite <- app_assoc.
    rewrite unm_int_app by (eapply cgood_sel_range; eassumption). cbn [cuthen].
    apply snd_cumap, (IH k); assumption.
  - intros names _ env [|] s rest Hg; try contradiction. reflexivity.
  - intros name kd t IHt rest IH names Ht env [|v vs] s r Hg; [destruct kd; contradiction|].
    cbn [cwf_fields] in Ht. bsplit.
    destruct kd as [|n|n len dflt]; cbn [cgood_fields cenc_fields cunmarshal_fields] in *.
    + destruct Hg as [Hv Hg]. rewrite <- app_assoc.
      rewrite (snd_cuthen _ _ _ _ _ (snd_split _ _ (IHt H v s _ Hv))).
      apply snd_cumap. eapply IH; eassumption.
    + destruct v; try contradiction. destruct Hg as (Hn & Hv & Hg). rewrite <- app_assoc.
      replace (N.to_nat n) with (length vs0) by lia.
      rewrite (snd_cuthen _ _ _ _ _ (snd_split _ _ (cunm_arr_reads _ (cenc e t) vs0
        ltac:(eapply Forall_impl; [|exact Hv]; cbn; auto) s _))).
      apply snd_cumap. eapply IH; eassumption.
    + destruct v; try contradiction. destruct Hg as ((c & Ec & Hc & Hd) & Hn & Hv & Hg).
      rewrite <- app_assoc. unfold counted in *. rewrite Ec in *.
      destruct (N.ltb_spec n (usize c)); [lia|].
      set (l := firstn (N.to_nat (usize c)) vs0) in *.
      assert (Hl : length l = N.to_nat (usize c)) by (unfold l; rewrite firstn_length; lia).
      rewrite <- Hl at 1.
      rewrite (snd_cuthen _ _ _ _ _ (snd_split _ _ (cunm_arr_reads _ (cenc e t) l
        ltac:(eapply Forall_impl; [|exact Hv]; cbn; auto) s _))).
      rewrite Hl, <- Hd. unfold l. rewrite firstn_skipn.
      apply snd_cumap. eapply IH; eassumption.
  - intros _ [|] s rest Hg; try contradiction. reflexivity.
  - intros t IHt rest IH Ht [|v vs] s r Hg; try contradiction. cbn [cwf_tys] in Ht. bsplit.
    destruct Hg as [Hv Hg]. cbn [cenc_tys cunmarshal_tys]. rewrite <- app_assoc.
    rewrite (snd_cuthen _ _ _ _ _ (snd_split _ _ (IHt H v s _ Hv))).
    apply snd_cumap, IH; assumption.
  - intros k _ sel args s rest [].
  - intros d ts IHt rest IH k Ht sel args s r Hg. cbn [cwf_variants] in Ht. bsplit.
    cbn [cgood_variant cenc_variant cunmarshal_variant] in *.
    destruct (sel =? d); [auto|eapply IH; eassumption].
Qed.
End RoundTrip.

Lemma cuthen_ok {A B} (r : W * ures A) (k : W -> A -> list byte -> W * ures B) b rest :
  snd (cuthen r k) = (Ok b, rest) ->
  exists s a m, r = (s, (Ok a, m)) /\ snd (k s a m) = (Ok b, rest).
Proof. destruct r as [s [[a|x|] m]]; cbn; intros E; try discriminate. eauto. Qed.

Lemma cumap_ok {A B} (f : A -> B) (r : W * ures A) b rest :
  snd (cumap f r) = (Ok b, rest) -> exists a, b = f a /\ snd r = (Ok a, rest).
Proof.
  destruct r as [s [[a|x|] m]]; cbn; intros E; try discriminate. injection E as <- <-. eauto.
Qed.

Section Strict.
Hypothesis Hs : forall i, strict (theirs i) (good i) (e i).

Lemma cunm_arr_strict f (P : val -> Prop) (x : val -> list byte) :
  (forall s b v rest, snd (f s b) = (Ok v, rest) -> P v /\ b = x v ++ rest) ->
  forall m s b l rest, snd (@cunm_arr W f m s b) = (Ok l, rest) ->
    length l = m /\ Forall P l /\ b = flat_map x l ++ rest.
Proof.
  intros Hf. induction m as [|m IH]; cbn [cunm_arr]; intros s b l rest E.
  - injection E as <- <-. auto.
  - apply cuthen_ok in E. destruct E as (s1 & v & b1 & E1 & E).
    apply cumap_ok in E. destruct E as (l1 & -> & E). apply IH in E.
    destruct E as (Hl & HP & ->).
    destruct (Hf s b v (flat_map x l1 ++ rest)) as [Hv ->]; [rewrite E1; reflexivity|].
    cbn [length flat_map]. rewrite <- app_assoc. auto.
Qed.

Lemma cunmarshal_strict :
  (forall t, cwf t = true -> forall s b v rest,
     snd (cunmarshal theirs t s b) = (Ok v, rest) -> cgood good t v /\ b = cenc e t v ++ rest)
  /\ (forall fs names, cwf_fields names fs = true -> forall env s b vs rest,
        snd (cunmarshal_fields theirs env fs s b) = (Ok vs, rest) ->
        cgood_fields good env fs vs /\ b = cenc_fields e env fs vs ++ rest)
  /\ (forall ts, cwf_tys ts = true -> forall s b vs rest,
        snd (cunmarshal_tys theirs ts s b) = (Ok vs, rest) ->
        cgood_tys good ts vs /\ b = cenc_tys e ts vs ++ rest)
  /\ (forall vrs k, cwf_variants k vrs = true -> forall sel s b args rest,
        snd (cunmarshal_variant theirs vrs sel s b) = (Ok args, rest) ->
        cgood_variant good vrs sel args /\ b = cenc_variant e vrs sel args ++ rest).
Proof.
  apply cty_mutind.
  - intros t Ht s b v rest E. cbn in E. apply unm_inv in E; [|assumption].
    destruct E as (Hv & Hc & ->). cbn. auto.
  - intros i _ s b v rest E. apply (Hs i s), E.
  - intros fs IH Ht s b v rest E. apply cumap_ok in E. destruct E as (vs & -> & E).
    apply (IH [] Ht) in E. exact E.
  - intros ts IH Ht s b v rest E. apply cumap_ok in E. destruct E as (vs & -> & E).
    apply (IH Ht) in E. exact E.
  - intros k vrs IH Ht s b v rest E. cbn [cwf cunmarshal] in *. bsplit.
    apply cuthen_ok in E. destruct E as (s1 & sel & b1 & E1 & E).
    apply cumap_ok in E. destruct E as (args & -> & E).
    injection E1 as <- E1. apply unm_int_inv in E1; [|apply int_width_pos; assumption].
    destruct E1 as [_ ->]. apply (IH k) in E; [|assumption]. destruct E as [Hg ->].
    cbn [cgood cenc]. rewrite <- app_assoc. auto.
  - intros names _ env s b vs rest E. injection E as <- <-. cbn. auto.
  - intros name kd t IHt rest IH names Ht env s b vs r E. cbn [cwf_fields] in Ht. bsplit.
    destruct kd as [|n|n len dflt]; cbn [cunmarshal_fields] in E.
    + apply cuthen_ok in E. destruct E as (s1 & v & b1 & E1 & E).
      apply cumap_ok in E. destruct E as (vs1 & -> & E).
      eapply IH in E; [|eassumption]. destruct E as [Hg ->].
      destruct (IHt H s b v _ (f_equal snd E1)) as [Hv ->].
      cbn [cgood_fields cenc_fields]. rewrite <- app_assoc. auto.
    + apply cuthen_ok in E. destruct E as (s1 & l & b1 & E1 & E).
      apply cumap_ok in E. destruct E as (vs1 & -> & E).
      eapply IH in E; [|eassumption]. destruct E as [Hg ->].
      destruct (cunm_arr_strict _ (cgood good t) (cenc e t) (IHt H) (N.to_nat n) s b l _
        (f_equal snd E1)) as (Hl & Hv & ->).
      cbn [cgood_fields cenc_fields]. rewrite <- app_assoc. split; [|reflexivity].
      split; [lia|auto].
    + destruct (lookup_len len env) as [c|] eqn:Ec; [|discriminate].
      destruct (N.ltb_spec n (usize c)); [discriminate|].
      apply cuthen_ok in E. destruct E as (s1 & l & b1 & E1 & E).
      apply cumap_ok in E. destruct E as (vs1 & -> & E).
      eapply IH in E; [|eassumption]. destruct E as [Hg ->].
      destruct (cunm_arr_strict _ (cgood good t) (cenc e t) (IHt H) (N.to_nat (usize c)) s b l _
        (f_equal snd E1)) as (Hl & Hv & ->).
      cbn [cgood_fields cenc_fields]. unfold counted. rewrite Ec, <- app_assoc.
      rewrite firstn_app_exact' by lia. split; [|reflexivity].
      split; [|split; [|auto]].
      * exists c. split; [reflexivity|]. split; [assumption|].
        rewrite skipn_app_exact' by lia. f_equal. lia.
      * rewrite app_length, repeat_length. lia.
  - intros _ s b vs rest E. injection E as <- <-. cbn. auto.
  - intros t IHt rest IH Ht s b vs r E. cbn [cwf_tys cunmarshal_tys] in *. bsplit.
    apply cuthen_ok in E. destruct E as (s1 & v & b1 & E1 & E).
    apply cumap_ok in E. destruct E as (vs1 & -> & E).
    apply IH in E; [|assumption]. destruct E as [Hg ->].
    destruct (IHt H s b v _ (f_equal snd E1)) as [Hv ->].
    cbn [cgood_tys cenc_tys]. rewrite <- app_assoc. auto.
  - intros k _ sel s b args rest E. discriminate.
  - intros d ts IHt rest IH k Ht sel s b args r E. cbn [cwf_variants] in Ht. bsplit.
    cbn [cgood_variant cenc_variant cunmarshal_variant] in *.
    destruct (sel =? d); [eauto|eapply IH; eassumption].
Qed.
End Strict.

Section Total.
Hypothesis Ht : forall i, total (theirs i).

Definition returns {A} (b : list byte) (r : W * ures A) : Prop :=
  is_panic (fst (snd r)) = false /\ exists consumed, b = consumed ++ snd (snd r).

Lemma returns_ok {A} s (a : A) b : returns b (s, (Ok a, b)).
Proof. split; [reflexivity|]. exists []. reflexivity. Qed.
Lemma returns_err {A} s x b : returns b (s, (@Err merr A x, b)).
Proof. split; [reflexivity|]. exists []. reflexivity. Qed.

Lemma returns_cuthen {A B} b (r : W * ures A) (k : W -> A -> list byte -> W * ures B) :
  returns b r -> (forall s a m, r = (s, (Ok a, m)) -> returns m (k s a m)) -> returns b (cuthen r k).
Proof.
  intros [Hp [c Hc]] Hk. destruct r as [s [[a|x|] m]]; cbn [cuthen fst snd] in *.
  - destruct (Hk s a m eq_refl) as [Hp' [c' Hc']]. split; [exact Hp'|].
    exists (c ++ c'). rewrite <- app_assoc, <- Hc'. exact Hc.
  - split; [reflexivity|]. exists c. exact Hc.
  - discriminate.
Qed.

Lemma returns_cumap {A B} (f : A -> B) b (r : W * ures A) : returns b r -> returns b (cumap f r).
Proof. intros [Hp Hc]. destruct r as [s [[a|x|] m]]; split; cbn in *; auto. Qed.

Lemma returns_arr f : (forall s b, returns b (f s b)) ->
  forall m s b, returns b (@cunm_arr W f m s b).
Proof.
  intros Hf. induction m as [|m IH]; intros s b; cbn [cunm_arr]; [apply returns_ok|].
  apply returns_cuthen; [apply Hf|]. intros. apply returns_cumap, IH.
Qed.

Lemma returns_int k s b : (0 < k)%nat -> returns b (s, unm_int false k b).
Proof.
  intros Hk. destruct (unm_int_cases false k b Hk) as [(z & r & -> & _ & E)|(_ & E)]; rewrite E.
  - split; [reflexivity|]. eexists. reflexivity.
  - apply returns_err.
Qed.

Lemma cunmarshal_total :
  (forall t, cwf t = true -> forall s b, returns b (cunmarshal theirs t s b))
  /\ (forall fs names, cwf_fields names fs = true -> forall env s b,
        (forall n, existsb (String.eqb n) names = true -> lookup_len n env <> None) ->
        returns b (cunmarshal_fields theirs env fs s b))
  /\ (forall ts, cwf_tys ts = true -> forall s b, returns b (cunmarshal_tys theirs ts s b))
  /\ (forall vrs k, cwf_variants k vrs = true -> forall sel s b,
        returns b (cunmarshal_variant theirs vrs sel s b)).
Proof.
  apply cty_mutind.
  - intros t Hw s b. destruct (proj1 unm_total_all t Hw b) as [Hp Hc]. split; assumption.
  - intros i _ s b. apply Ht.
  - intros fs IH Hw s b. apply returns_cumap, (IH [] Hw). intros n Hn. discriminate.
  - intros ts IH Hw s b. apply returns_cumap, (IH Hw).
  - intros k vrs IH Hw s b. cbn [cwf cunmarshal] in *. bsplit.
    apply returns_cuthen; [apply returns_int, int_width_pos; assumption|].
    intros. apply returns_cumap. eapply IH; eassumption.
  - intros names _ env s b _. apply returns_ok.
  - intros name kd t IHt rest IH names Hw env s b Hn. cbn [cwf_fields] in Hw. bsplit.
    destruct kd as [|n|n len dflt]; cbn [cunmarshal_fields].
    + apply returns_cuthen; [auto|]. intros s1 v m E. apply returns_cumap.
      eapply IH; [eassumption|]. apply cbind_names; [assumption|].
      destruct t as [[]| | | |]; auto.
      apply (f_equal (fun p => fst (snd p))) in E. cbn in E.
      destruct (unm_int sg k b) as [[z|x|] r]; cbn in E; try discriminate.
      injection E as <-. eauto.
    + apply returns_cuthen; [apply returns_arr; auto|]. intros. apply returns_cumap.
      eapply IH; eassumption.
    + specialize (Hn len ltac:(assumption)) as Hl.
      destruct (lookup_len len env) as [c|]; [|congruence].
      destruct (n <? usize c)%N; [apply returns_err|].
      apply returns_cuthen; [apply returns_arr; auto|]. intros. apply returns_cumap.
      eapply IH; eassumption.
  - intros _ s b. apply returns_ok.
  - intros t IHt rest IH Hw s b. cbn [cwf_tys cunmarshal_tys] in *. bsplit.
    apply returns_cuthen; [auto|]. intros. apply returns_cumap, IH. assumption.
  - intros k _ sel s b. apply returns_err.
  - intros d ts IHt rest IH k Hw sel s b. cbn [cwf_variants cunmarshal_variant] in *. bsplit.
    destruct (sel =? d); [auto|eapply IH; eassumption].
Qed.
End Total.
End Unmarshals.

(** ** Library types in the place of hand-written ones *)
Section Library.
Context {W : Type} (f : nat -> ty) (checked : bool).
Let lib (i : nat) : custom W := library (f i).

Lemma marshal_count t v buf n : snd (marshal t v buf) = Ok n -> (n <= length buf)%nat.
Proof. rewrite marshal_chunks. apply write_chunks_ok_le. Qed.

Lemma marshal_len t v buf : length (fst (marshal t v buf)) = length buf.
Proof. rewrite marshal_chunks. apply write_chunks_length. Qed.

Definition same (g : W -> list byte -> W * mres) (h : list byte -> mres) : Prop :=
  forall s b, slice b -> g s b = (s, h b)
    /\ length (fst (h b)) = length b /\ (forall n, snd (h b) = Ok n -> (n <= length b)%nat).
Definition same_at (g : W -> nat -> list byte -> W * mres) (h : nat -> list byte -> mres) : Prop :=
  forall s w b, slice b -> (w <= length b)%nat -> g s w b = (s, h w b)
    /\ length (fst (h w b)) = length b /\ (forall n, snd (h w b) = Ok n -> (n <= length b)%nat).

Lemma same_seq g h : same g h -> same_at (cseq checked g) (mseq h).
Proof.
  intros H s w b Hb Hw. unfold cseq, mseq. destruct (Nat.ltb_spec (length b) w); [lia|].
  assert (Hb' : slice (skipn w b)) by (unfold slice in *; rewrite skipn_length; lia).
  destruct (H s (skipn w b) Hb') as (-> & Hl & Hn). rewrite skipn_length in Hl.
  destruct (h (skipn w b)) as [sub r]. cbn [fst snd] in *.
  split; [|split].
  - destruct r as [n|x|]; cbn [obind omap]; try reflexivity.
    specialize (Hn n eq_refl). rewrite skipn_length in Hn.
    rewrite add_small by (unfold slice in Hb; lia). reflexivity.
  - rewrite app_length, firstn_length, Hl. lia.
  - intros n E. destruct r as [m|x|]; try discriminate. injection E as <-.
    specialize (Hn m eq_refl). rewrite skipn_length in Hn. lia.
Qed.

Lemma same_then g h k l : same_at g h -> same_at k l ->
  same_at (fun s w b => cthen (g s w b) k) (fun w b => mthen (h w b) l).
Proof.
  intros H K s w b Hb Hw. destruct (H s w b Hb Hw) as (-> & Hl & Hn).
  destruct (h w b) as [b1 [n|x|]]; cbn [cthen mthen fst snd] in *.
  - specialize (Hn n eq_refl).
    destruct (K s n b1) as (-> & Hl' & Hn'); [unfold slice in *; lia|lia|].
    split; [reflexivity|]. split; [lia|]. intros m E. specialize (Hn' m E). lia.
  - split; [reflexivity|]. split; [assumption|discriminate].
  - split; [reflexivity|]. split; [assumption|discriminate].
Qed.

Lemma same_done : same_at (fun s w b => (s, (b, Ok w))) (fun w b => (b, Ok w)).
Proof. intros s w b _ Hw. split; [reflexivity|]. split; [reflexivity|]. intros n E. injection E as <-. exact Hw. Qed.
Lemma same_panic : same_at (fun s w b => (s, (b, Panic))) (fun w b => (b, Panic)).
Proof. intros s w b _ Hw. split; [reflexivity|]. split; [reflexivity|discriminate]. Qed.
Lemma same_0 g h : same_at g h -> same (fun s => g s 0%nat) (h 0%nat).
Proof. intros H s b Hb. exact (H s 0%nat b Hb (Nat.le_0_l _)). Qed.

Lemma same_arr g h : (forall v, same (fun s => g s v) (h v)) ->
  forall l cnt, same_at (cmar_arr checked g cnt l) (mar_arr h cnt l).
Proof.
  intros H. induction l as [|v l IH]; intros cnt; cbn [cmar_arr mar_arr].
  - destruct (cnt =? 0)%N; [apply same_done|apply same_panic].
  - destruct (cnt =? 0)%N; [apply same_done|].
    apply (same_then (cseq checked (fun s => g s v)) (mseq (h v))); [apply same_seq, H|apply IH].
Qed.

Lemma same_int k z : same (fun s b => (s, mar_int k z b)) (mar_int k z).
Proof.
  intros s b _. split; [reflexivity|]. rewrite mar_int_chunks. split; [apply write_chunks_length|].
  intros n. apply write_chunks_ok_le.
Qed.

Lemma cmarshal_lib :
  (forall t v, same (fun s => cmarshal lib checked t s v) (marshal (plain f t) v))
  /\ (forall fs env vs, same_at (cmarshal_fields lib checked env fs vs)
                              (marshal_fields env (plain_fields f fs) vs))
  /\ (forall ts vs, same_at (cmarshal_tys lib checked ts vs) (marshal_tys (plain_tys f ts) vs))
  /\ (forall vrs sel args, same (cmarshal_variant lib checked vrs sel args)
                              (marshal_variant (plain_variants f vrs) sel args)).
Proof.
  apply cty_mutind.
  - intros t v s b _. split; [reflexivity|]. split; [apply marshal_len|]. intros n. apply marshal_count.
  - intros i v s b _. split; [reflexivity|]. split; [apply marshal_len|]. intros n. apply marshal_count.
  - intros fs IH [] ; try (apply (same_0 _ _ same_panic)). apply (same_0 _ _ (IH [] vs)).
  - intros ts IH [] ; try (apply (same_0 _ _ same_panic)). apply (same_0 _ _ (IH vs)).
  - intros k vrs IH [] ; try (apply (same_0 _ _ same_panic)).
    apply (same_0 (fun s w b => cthen (cseq checked (fun s b => (s, mar_int k sel b)) s w b)
      (cseq checked (cmarshal_variant lib checked vrs sel args)))
      (fun w b => mthen (mseq (mar_int k sel) w b)
        (fun w b => mseq (marshal_variant (plain_variants f vrs) sel args) w b))).
    apply same_then; apply same_seq; [apply same_int|apply IH].
  - intros env [|]; [apply same_done|apply same_panic].
  - intros name kd t IHt rest IH env [|v vs]; [destruct kd; apply same_panic|].
    destruct kd as [|n|n len dflt]; cbn [cmarshal_fields marshal_fields plain_fields].
    + apply (same_then (cseq checked (fun s => cmarshal lib checked t s v))
        (mseq (marshal (plain f t) v))); [apply same_seq, IHt|apply IH].
    + destruct v; try apply same_panic.
      apply (same_then (cmar_arr checked (cmarshal lib checked t) n vs0)
        (mar_arr (marshal (plain f t)) n vs0)); [apply same_arr, IHt|apply IH].
    + destruct v; try apply same_panic. destruct (lookup_len len env) as [c|]; [|apply same_panic].
      apply (same_then (cmar_arr checked (cmarshal lib checked t) (usize c) vs0)
        (mar_arr (marshal (plain f t)) (usize c) vs0)); [apply same_arr, IHt|apply IH].
  - intros [|]; [apply same_done|apply same_panic].
  - intros t IHt rest IH [|v vs]; [apply same_panic|].
    apply (same_then (cseq checked (fun s => cmarshal lib checked t s v))
      (mseq (marshal (plain f t) v))); [apply same_seq, IHt|apply IH].
  - intros sel args. apply (same_0 _ _ same_panic).
  - intros d ts IHt rest IH sel args. cbn [cmarshal_variant marshal_variant plain_variants].
    destruct (sel =? d); [|apply IH]. apply (same_0 _ _ (IHt args)).
Qed.

Lemma cuthen_pure {A B} s (r : ures A) (k : W -> A -> list byte -> W * ures B) h :
  (forall a b, k s a b = (s, h a b)) -> cuthen (s, r) k = (s, uthen r h).
Proof. intros H. destruct r as [[a|x|] b]; cbn; auto. Qed.

Lemma cunm_arr_pure g h : (forall s b, g s b = (s, h b)) ->
  forall m (s : W) b, cunm_arr g m s b = (s, unm_arr h m b).
Proof.
  intros H. induction m as [|m IH]; intros s b; cbn [cunm_arr unm_arr]; [reflexivity|].
  rewrite H. apply cuthen_pure. intros v b1. rewrite IH. reflexivity.
Qed.

Lemma cunmarshal_lib :
  (forall t s b, cunmarshal lib t s b = (s, unmarshal (plain f t) b))
  /\ (forall fs env s b, cunmarshal_fields lib env fs s b
                       = (s, unmarshal_fields env (plain_fields f fs) b))
  /\ (forall ts s b, cunmarshal_tys lib ts s b = (s, unmarshal_tys (plain_tys f ts) b))
  /\ (forall vrs sel s b, cunmarshal_variant lib vrs sel s b
                        = (s, unmarshal_variant (plain_variants f vrs) sel b)).
Proof.
  apply cty_mutind.
  - reflexivity.
  - reflexivity.
  - intros fs IH s b. cbn [cunmarshal]. rewrite IH. reflexivity.
  - intros ts IH s b. cbn [cunmarshal]. rewrite IH. reflexivity.
  - intros k vrs IH s b. cbn [cunmarshal plain unmarshal]. apply cuthen_pure.
    intros sel b1. rewrite IH. reflexivity.
  - reflexivity.
  - intros name kd t IHt rest IH env s b.
    destruct kd as [|n|n len dflt]; cbn [cunmarshal_fields unmarshal_fields plain_fields].
    + rewrite IHt. apply cuthen_pure. intros. rewrite IH. reflexivity.
    + rewrite (cunm_arr_pure _ _ IHt). apply cuthen_pure. intros. rewrite IH. reflexivity.
    + destruct (lookup_len len env) as [c|]; [|reflexivity].
      destruct (n <? usize c)%N; [reflexivity|].
      rewrite (cunm_arr_pure _ _ IHt). apply cuthen_pure. intros. rewrite IH. reflexivity.
  - reflexivity.
  - intros t IHt rest IH s b. cbn [cunmarshal_tys unmarshal_tys plain_tys].
    rewrite IHt. apply cuthen_pure. intros. rewrite IH. reflexivity.
  - reflexivity.
  - intros d ts IHt rest IH sel s b. cbn [cunmarshal_variant unmarshal_variant plain_variants].
    destruct (sel =? d); auto.
Qed.
End Library.

(** ** Calls *)
Section Calls.
Context {W : Type} (theirs : nat -> custom W) (checked : bool).

Lemma in_turn_none {A} (r : outcome merr A) : in_turn [] [] r.
Proof.
  unfold in_turn. destruct (ended r).
  - exists [], []. split; [reflexivity|]. left. constructor.
  - constructor.
Qed.

Lemma in_turn_stop {A B} ms1 ms2 l (r : outcome merr A) (r' : outcome merr B) :
  is_ok r' = false -> (is_ok r = true \/ ended r = ended r') -> in_turn ms1 l r ->
  in_turn (ms1 ++ ms2) l r'.
Proof.
  unfold in_turn. intros Hr' Hr H. destruct (ended r') as [x|] eqn:E'; [|destruct r'; discriminate].
  destruct (ended r) as [y|] eqn:E.
  - destruct Hr as [Hr|Hr]; [destruct r; discriminate|]. injection Hr as ->.
    destruct H as (before & after & -> & H).
    exists before, (after ++ ms2). rewrite app_assoc. split; [reflexivity|].
    destruct H as [H|(m & later & calls & c & -> & H)]; [left; exact H|].
    right. exists m, (later ++ ms2), calls, c. split; [reflexivity|exact H].
  - exists ms1, ms2. auto.
Qed.

Lemma in_turn_then {A B} ms1 ms2 l1 l2 (a : A) (r : outcome merr B) :
  in_turn ms1 l1 (@Ok merr A a) -> in_turn ms2 l2 r -> in_turn (ms1 ++ ms2) (l1 ++ l2) r.
Proof.
  unfold in_turn. cbn [ended]. unfold marshalled. intros H1 H. destruct (ended r) as [x|].
  - destruct H as (before & after & -> & H). exists (ms1 ++ before), after.
    rewrite app_assoc. split; [reflexivity|].
    destruct H as [H|(m & later & calls & c & -> & -> & H & Hc)].
    + left. apply Forall2_app; assumption.
    + right. exists m, later, (l1 ++ calls), c. rewrite app_assoc.
      split; [reflexivity|]. split; [reflexivity|]. split; [apply Forall2_app; assumption|exact Hc].
  - apply Forall2_app; assumption.
Qed.

Definition heard (f : list call * W -> list byte -> (list call * W) * mres)
    (g : W -> list byte -> W * mres) (ms : list (nat * val)) : Prop :=
  forall log s b, exists new, f (log, s) b = ((log ++ new, fst (g s b)), snd (g s b))
    /\ in_turn ms new (snd (snd (g s b))).
Definition heard_at (f : list call * W -> nat -> list byte -> (list call * W) * mres)
    (g : W -> nat -> list byte -> W * mres) (ms : list (nat * val)) : Prop :=
  forall log s w b, exists new, f (log, s) w b = ((log ++ new, fst (g s w b)), snd (g s w b))
    /\ in_turn ms new (snd (snd (g s w b))).

Lemma heard_done : heard_at (fun s w b => (s, (b, Ok w))) (fun s w b => (s, (b, Ok w))) [].
Proof. intros log s w b. exists []. rewrite app_nil_r. split; [reflexivity|apply in_turn_none]. Qed.
Lemma heard_panic ms : heard_at (fun s w b => (s, (b, Panic))) (fun s w b => (s, (b, Panic))) ms.
Proof.
  intros log s w b. exists []. rewrite app_nil_r. split; [reflexivity|].
  exists [], ms. split; [reflexivity|]. left. constructor.
Qed.
Lemma heard_0 f g ms : heard_at f g ms -> heard (fun s => f s 0%nat) (fun s => g s 0%nat) ms.
Proof. intros H log s b. apply H. Qed.

Lemma heard_seq f g ms : heard f g ms -> heard_at (cseq checked f) (cseq checked g) ms.
Proof.
  intros H log s w b. unfold cseq. destruct (length b <? w)%nat; [apply (heard_panic ms log s w b)|].
  destruct (H log s (skipn w b)) as (new & E & Ht). rewrite E.
  destruct (g s (skipn w b)) as [s' [sub r]]. cbn [fst snd] in *.
  exists new. split; [reflexivity|].
  destruct r as [n|x|]; cbn [obind].
  - unfold add_written. destruct (_ <? _)%N; [exact Ht|]. destruct checked; [|exact Ht].
    rewrite <- (app_nil_r ms). eapply in_turn_stop; [reflexivity| |exact Ht]. left. reflexivity.
  - exact Ht.
  - exact Ht.
Qed.

Lemma heard_then f g k h ms1 ms2 : heard_at f g ms1 -> heard_at k h ms2 ->
  heard_at (fun s w b => cthen (f s w b) k) (fun s w b => cthen (g s w b) h) (ms1 ++ ms2).
Proof.
  intros H K log s w b. destruct (H log s w b) as (new & -> & Ht).
  destruct (g s w b) as [s1 [b1 [n|x|]]]; cbn [fst snd cthen] in *.
  - destruct (K (log ++ new) s1 n b1) as (new2 & -> & Ht2). exists (new ++ new2).
    rewrite app_assoc. split; [reflexivity|]. eapply in_turn_then; eassumption.
  - exists new. split; [reflexivity|]. eapply in_turn_stop; [reflexivity| |exact Ht]. auto.
  - exists new. split; [reflexivity|]. eapply in_turn_stop; [reflexivity| |exact Ht]. auto.
Qed.

Lemma heard_arr f g (ms : val -> list (nat * val)) :
  (forall v, heard (fun s => f s v) (fun s => g s v) (ms v)) ->
  forall l cnt, heard_at (cmar_arr checked f cnt l) (cmar_arr checked g cnt l)
                  (flat_map ms (firstn (N.to_nat cnt) l)).
Proof.
  intros H. induction l as [|v l IH]; intros cnt; cbn [cmar_arr].
  - rewrite firstn_nil. destruct (cnt =? 0)%N; [apply heard_done|apply heard_panic].
  - destruct (N.eqb_spec cnt 0) as [->|Hc]; [apply heard_done|].
    replace (N.to_nat cnt) with (S (N.to_nat (cnt - 1))) by lia. cbn [firstn flat_map].
    apply (heard_then (cseq checked (fun s => f s v)) (cseq checked (fun s => g s v)));
      [apply heard_seq, H|apply IH].
Qed.

Lemma heard_pure (h : list byte -> mres) : heard (fun s b => (s, h b)) (fun s b => (s, h b)) [].
Proof. intros log s b. exists []. rewrite app_nil_r. split; [reflexivity|apply in_turn_none]. Qed.

Lemma cmarshal_heard :
  (forall t v, heard (fun s => cmarshal (listened theirs) checked t s v)
                     (fun s => cmarshal theirs checked t s v) (members t v))
  /\ (forall fs env vs, heard_at (cmarshal_fields (listened theirs) checked env fs vs)
         (cmarshal_fields theirs checked env fs vs) (members_fields env fs vs))
  /\ (forall ts vs, heard_at (cmarshal_tys (listened theirs) checked ts vs)
         (cmarshal_tys theirs checked ts vs) (members_tys ts vs))
  /\ (forall vrs sel args, heard (cmarshal_variant (listened theirs) checked vrs sel args)
         (cmarshal_variant theirs checked vrs sel args) (members_variant vrs sel args)).
Proof.
  apply cty_mutind.
  - intros t v. apply heard_pure.
  - intros i v log s b. eexists. split; [reflexivity|]. cbn.
    destruct (try_marshal (theirs i) s v b) as [s1 [b1 [n|x|]]]; cbn.
    + constructor; [|constructor]. eauto.
    + exists [], [(i, v)]. split; [reflexivity|]. right.
      exists (i, v), [], [], (Marshalled i v (Err x)). cbn. repeat split; eauto. constructor.
    + exists [], [(i, v)]. split; [reflexivity|]. right.
      exists (i, v), [], [], (Marshalled i v Panic). cbn. repeat split; eauto. constructor.
  - intros fs IH []; try apply (heard_0 _ _ _ (heard_panic _)). apply (heard_0 _ _ _ (IH [] vs)).
  - intros ts IH []; try apply (heard_0 _ _ _ (heard_panic _)). apply (heard_0 _ _ _ (IH vs)).
  - intros k vrs IH []; try apply (heard_0 _ _ _ (heard_panic _)).
    apply (heard_0 (fun s w b => cthen (cseq checked (fun s b => (s, mar_int k sel b)) s w b)
                     (cseq checked (cmarshal_variant (listened theirs) checked vrs sel args)))
                   (fun s w b => cthen (cseq checked (fun s b => (s, mar_int k sel b)) s w b)
                     (cseq checked (cmarshal_variant theirs checked vrs sel args)))).
    apply (heard_then _ _ _ _ []); apply heard_seq; [apply heard_pure|apply IH].
  - intros env [|]; [apply heard_done|apply heard_panic].
  - intros name kd t IHt rest IH env [|v vs]; [destruct kd; apply heard_panic|].
    destruct kd as [|n|n len dflt]; cbn [members_fields].
    + apply (heard_then (cseq checked (fun s => cmarshal (listened theirs) checked t s v))
        (cseq checked (fun s => cmarshal theirs checked t s v))); [apply heard_seq, IHt|apply IH].
    + destruct v; try apply heard_panic.
      apply (heard_then (cmar_arr checked (cmarshal (listened theirs) checked t) n vs0)
        (cmar_arr checked (cmarshal theirs checked t) n vs0)); [apply heard_arr, IHt|apply IH].
    + destruct v; try apply heard_panic. unfold counted. cbn [cmarshal_fields].
      destruct (lookup_len len env) as [c|]; [|apply heard_panic].
      apply (heard_then (cmar_arr checked (cmarshal (listened theirs) checked t) (usize c) vs0)
        (cmar_arr checked (cmarshal theirs checked t) (usize c) vs0)); [apply heard_arr, IHt|apply IH].
  - intros [|]; [apply heard_done|apply heard_panic].
  - intros t IHt rest IH [|v vs]; [apply heard_panic|]. cbn [members_tys].
    apply (heard_then (cseq checked (fun s => cmarshal (listened theirs) checked t s v))
      (cseq checked (fun s => cmarshal theirs checked t s v))); [apply heard_seq, IHt|apply IH].
  - intros sel args. apply (heard_0 _ _ _ (heard_panic _)).
  - intros d ts IHt rest IH sel args. cbn [cmarshal_variant members_variant].
    destruct (sel =? d); [apply (heard_0 _ _ _ (IHt args))|apply IH].
Qed.

Definition heard_back {A} (f : list call * W -> list byte -> (list call * W) * ures A)
    (g : W -> list byte -> W * ures A) (ms : A -> list (nat * val)) (most : nat) : Prop :=
  forall log s b, exists new, f (log, s) b = ((log ++ new, fst (g s b)), snd (g s b))
    /\ in_turn_back ms new (fst (snd (g s b))) /\ (length new <= most)%nat.

Lemma unmarshalled_ok ms l : unmarshalled ms l -> Forall (fun c => failed c = None) l.
Proof. induction 1 as [|m c ms l -> _ IH]; constructor; auto. Qed.

Lemma heard_back_pure {A} (h : list byte -> ures A) m :
  heard_back (fun s b => (s, h b)) (fun s b => (s, h b)) (fun _ => []) m.
Proof.
  intros log s b. exists []. rewrite app_nil_r. split; [reflexivity|]. split; [|cbn; lia].
  cbn. destruct (fst (h b)); cbn; [constructor| |]; exists []; split; auto.
Qed.

Lemma heard_back_fails {A} (h : list byte -> ures A) ms m :
  (forall b, is_ok (fst (h b)) = false) ->
  heard_back (fun s b => (s, h b)) (fun s b => (s, h b)) ms m.
Proof.
  intros H log s b. destruct (heard_back_pure h m log s b) as (new & E & Ht & Hl).
  exists new. split; [exact E|]. split; [|exact Hl]. specialize (H b). cbn in *.
  destruct (fst (h b)); [discriminate| |]; exact Ht.
Qed.

Lemma heard_back_then {A B C} (f : list call * W -> list byte -> (list call * W) * ures A) g
    (k : list call * W -> A -> list byte -> (list call * W) * ures B) h
    (wrap : A -> B -> C) (ms1 : A -> list (nat * val)) (ms2 : A -> B -> list (nat * val))
    (ms : C -> list (nat * val)) m1 m2 :
  (forall s b a r, snd (g s b) = (Ok a, r) -> forall v, ms (wrap a v) = ms1 a ++ ms2 a v) ->
  heard_back f g ms1 m1 -> (forall a, heard_back (fun s => k s a) (fun s => h s a) (ms2 a) m2) ->
  heard_back (fun s b => cuthen (f s b) (fun s a b => cumap (wrap a) (k s a b)))
             (fun s b => cuthen (g s b) (fun s a b => cumap (wrap a) (h s a b))) ms (m1 + m2).
Proof.
  intros Hms H K log s b. destruct (H log s b) as (new & -> & Ht & Hl). specialize (Hms s b).
  destruct (g s b) as [s1 [[a|x|] b1]]; cbn [fst snd cuthen] in *.
  - destruct (K a (log ++ new) s1 b1) as (new2 & -> & Ht2 & Hl2). exists (new ++ new2).
    rewrite app_assoc. split; [reflexivity|]. split; [|rewrite app_length; lia].
    cbn [in_turn_back] in Ht. cbn [cumap umap fst snd].
    destruct (fst (snd (h s1 a b1))) as [v|x|]; cbn [omap in_turn_back] in *.
    + rewrite (Hms a b1 eq_refl). apply Forall2_app; assumption.
    + destruct Ht2 as (calls & Hc & Hn). exists (new ++ calls).
      split; [apply Forall_app; split; [eapply unmarshalled_ok, Ht|exact Hc]|].
      destruct Hn as [->|(c & -> & Hf)]; [auto|]. right. exists c. rewrite app_assoc. auto.
    + destruct Ht2 as (calls & Hc & Hn). exists (new ++ calls).
      split; [apply Forall_app; split; [eapply unmarshalled_ok, Ht|exact Hc]|].
      destruct Hn as [->|(c & -> & Hf)]; [auto|]. right. exists c. rewrite app_assoc. auto.
  - exists new. split; [reflexivity|]. split; [exact Ht|lia].
  - exists new. split; [reflexivity|]. split; [exact Ht|lia].
Qed.

Lemma heard_back_map {A B} (f : list call * W -> list byte -> (list call * W) * ures A) g
    (w : A -> B) ms ms' m : (forall a, ms' (w a) = ms a) ->
  heard_back f g ms m -> heard_back (fun s b => cumap w (f s b)) (fun s b => cumap w (g s b)) ms' m.
Proof.
  intros E H log s b. destruct (H log s b) as (new & -> & Ht & Hl). exists new.
  split; [reflexivity|]. split; [|exact Hl]. cbn.
  destruct (fst (snd (g s b))); cbn in *; [rewrite E; exact Ht|exact Ht|exact Ht].
Qed.

Lemma heard_back_more {A} f g (ms : A -> list (nat * val)) m m' : (m <= m')%nat ->
  heard_back f g ms m -> heard_back f g ms m'.
Proof. intros Hm H log s b. destruct (H log s b) as (new & E & Ht & Hl). exists new. repeat split; auto. lia. Qed.

Lemma heard_back_arr f g (ms : val -> list (nat * val)) most :
  heard_back f g ms most ->
  forall m, heard_back (cunm_arr f m) (cunm_arr g m) (flat_map ms) (m * most).
Proof.
  intros H. induction m as [|m IH].
  - apply (heard_back_more _ _ _ 0); [lia|]. intros log s b. exists []. rewrite app_nil_r.
    split; [reflexivity|]. split; [constructor|cbn; lia].
  - apply (heard_back_then f g (fun s _ => cunm_arr f m s) (fun s _ => cunm_arr g m s)
      cons ms (fun _ => flat_map ms)); [reflexivity|exact H|]. intros _. exact IH.
Qed.

Lemma cunm_arr_length {X} (g : X -> list byte -> X * ures val) :
  forall m s b l r, snd (cunm_arr g m s b) = (Ok l, r) -> length l = m.
Proof.
  induction m as [|m IH]; cbn [cunm_arr]; intros s b l r E; [injection E as <- _; reflexivity|].
  destruct (g s b) as [s1 [[v|x|] b1]]; cbn [cuthen] in E; try discriminate.
  destruct (cunm_arr g m s1 b1) as [s2 [[l1|x|] b2]] eqn:E2; try discriminate.
  injection E as <- _. cbn. f_equal. eapply IH. rewrite E2. reflexivity.
Qed.

Lemma cunmarshal_heard :
  (forall t, heard_back (cunmarshal (listened theirs) t) (cunmarshal theirs t) (members t) (room t))
  /\ (forall fs env, heard_back (cunmarshal_fields (listened theirs) env fs)
         (cunmarshal_fields theirs env fs) (members_fields env fs) (room_fields fs))
  /\ (forall ts, heard_back (cunmarshal_tys (listened theirs) ts)
         (cunmarshal_tys theirs ts) (members_tys ts) (room_tys ts))
  /\ (forall vrs sel, heard_back (cunmarshal_variant (listened theirs) vrs sel)
         (cunmarshal_variant theirs vrs sel) (members_variant vrs sel) (room_variants vrs)).
Proof.
  apply cty_mutind.
  - intros t. apply heard_back_pure.
  - intros i log s b. eexists. split; [reflexivity|]. split; [|cbn; lia]. cbn.
    destruct (try_unmarshal (theirs i) s b) as [s1 [[v|x|] b1]]; cbn.
    + constructor; [reflexivity|constructor].
    + exists []. split; [constructor|]. right. eexists. split; reflexivity.
    + exists []. split; [constructor|]. right. eexists. split; reflexivity.
  - intros fs IH.
    apply (heard_back_map (cunmarshal_fields (listened theirs) [] fs)
      (cunmarshal_fields theirs [] fs) VStruct (members_fields [] fs)); [reflexivity|apply IH].
  - intros ts IH.
    apply (heard_back_map (cunmarshal_tys (listened theirs) ts)
      (cunmarshal_tys theirs ts) VStruct (members_tys ts)); [reflexivity|apply IH].
  - intros k vrs IH.
    apply (heard_back_then (fun s b => (s, unm_int false k b)) (fun s b => (s, unm_int false k b))
      (fun s sel => cunmarshal_variant (listened theirs) vrs sel s)
      (fun s sel => cunmarshal_variant theirs vrs sel s) VEnum (fun _ => [])
      (fun sel => members_variant vrs sel) (members (CEnum k vrs)) 0);
      [reflexivity|apply heard_back_pure|exact IH].
  - intros env. apply (heard_back_pure (fun b => (Ok [], b))).
  - intros name kd t IHt rest IH env.
    destruct kd as [|n|n len dflt]; cbn [room_fields].
    + apply (heard_back_then (cunmarshal (listened theirs) t) (cunmarshal theirs t)
        (fun s v => cunmarshal_fields (listened theirs) (bind_len name v env) rest s)
        (fun s v => cunmarshal_fields theirs (bind_len name v env) rest s) cons (members t)
        (fun v => members_fields (bind_len name v env) rest));
        [reflexivity|exact IHt|]. intros v. apply IH.
    + apply (heard_back_then (cunm_arr (cunmarshal (listened theirs) t) (N.to_nat n))
        (cunm_arr (cunmarshal theirs t) (N.to_nat n))
        (fun s _ => cunmarshal_fields (listened theirs) env rest s)
        (fun s _ => cunmarshal_fields theirs env rest s) (fun l => cons (VArr l))
        (flat_map (members t)) (fun _ => members_fields env rest));
        [|apply heard_back_arr, IHt|intros _; apply IH].
      intros s b l r E vs. apply cunm_arr_length in E. cbn [members_fields].
      rewrite <- E, firstn_all. reflexivity.
    + cbn [cunmarshal_fields]. unfold heard_back. cbn [cunmarshal_fields].
      destruct (lookup_len len env) as [c|] eqn:Ec.
      2:{ apply (heard_back_fails (fun b => (Panic, b))). reflexivity. }
      destruct (N.ltb_spec n (usize c)).
      { apply (heard_back_fails (fun b => (Err ArrayLengthExceeded, b))). reflexivity. }
      assert (Hle : (N.to_nat (usize c) * room t + room_fields rest
        <= N.to_nat n * room t + room_fields rest)%nat)
        by (apply Nat.add_le_mono_r, Nat.mul_le_mono_r; lia).
      refine (heard_back_more _ _ _ _ _ Hle
        (heard_back_then (cunm_arr (cunmarshal (listened theirs) t) (N.to_nat (usize c)))
          (cunm_arr (cunmarshal theirs t) (N.to_nat (usize c)))
          (fun s _ => cunmarshal_fields (listened theirs) env rest s)
          (fun s _ => cunmarshal_fields theirs env rest s)
          (fun l => cons (VArr (l ++ repeat dflt (N.to_nat n - length l))))
          (flat_map (members t)) (fun _ => members_fields env rest)
          (members_fields env (CFCons name (KLen n len dflt) t rest)) _ _ _
          (heard_back_arr _ _ _ _ IHt _) (fun _ => IH env))).
      intros s b l r E vs. apply cunm_arr_length in E. cbn [members_fields].
      unfold counted. rewrite Ec, firstn_app_exact' by lia. reflexivity.
  - apply (heard_back_pure (fun b => (Ok [], b))).
  - intros t IHt rest IH.
    apply (heard_back_then (cunmarshal (listened theirs) t) (cunmarshal theirs t)
      (fun s _ => cunmarshal_tys (listened theirs) rest s)
      (fun s _ => cunmarshal_tys theirs rest s) cons (members t)
      (fun _ => members_tys rest)); [reflexivity|exact IHt|]. intros _. exact IH.
  - intros sel. apply (heard_back_fails (fun b => (Err UnknownSelector, b))). reflexivity.
  - intros d ts IHt rest IH sel. cbn [room_variants].
    unfold heard_back. cbn [cunmarshal_variant members_variant].
    destruct (sel =? d).
    + refine (heard_back_more _ _ _ _ _ _ IHt). lia.
    + refine (heard_back_more _ _ _ _ _ _ (IH sel)). lia.
Qed.
End Calls.

(** ** What was written stays *)
Section Earlier.
Context {W : Type} (theirs : nat -> custom W).
Hypothesis Hk : forall i, keeps_length (theirs i).

Definition stays (f : W -> nat -> list byte -> W * mres) : Prop :=
  forall s w b, length (fst (snd (f s w b))) = length b
    /\ firstn w (fst (snd (f s w b))) = firstn w b
    /\ forall n, snd (snd (f s w b)) = Ok n -> (w <= n)%nat.
Definition sized (f : W -> list byte -> W * mres) : Prop :=
  forall s b, length (fst (snd (f s b))) = length b.

Lemma stays_done : stays (fun s w b => (s, (b, Ok w))).
Proof. intros s w b. cbn. repeat split. intros n E. injection E as <-. lia. Qed.
Lemma stays_panic : stays (fun s w b => (s, (b, Panic))).
Proof. intros s w b. cbn. repeat split. discriminate. Qed.
Lemma stays_sized f : stays f -> sized (fun s => f s 0%nat).
Proof. intros H s b. apply H. Qed.

Lemma stays_seq f : sized f -> stays (cseq true f).
Proof.
  intros H s w b. unfold cseq. destruct (Nat.ltb_spec (length b) w); [apply stays_panic|].
  specialize (H s (skipn w b)). destruct (f s (skipn w b)) as [s1 [sub r]]. cbn [fst snd] in *.
  rewrite skipn_length in H. split; [|split].
  - rewrite app_length, firstn_length. lia.
  - apply firstn_app_exact'. rewrite firstn_length. lia.
  - intros n. destruct r as [m|x|]; cbn [obind]; try discriminate.
    unfold add_written. destruct (_ <? _)%N; [|discriminate]. intros E. injection E as <-. lia.
Qed.

Lemma firstn_le {A} w n (a b : list A) : (w <= n)%nat -> firstn n a = firstn n b ->
  firstn w a = firstn w b.
Proof.
  intros Hw E. apply (f_equal (firstn w)) in E. rewrite !firstn_firstn, !Nat.min_l in E by lia. exact E.
Qed.

Lemma stays_then f k : stays f -> stays k -> stays (fun s w b => cthen (f s w b) k).
Proof.
  intros H K s w b. destruct (H s w b) as (Hl & Hf & Hn).
  destruct (f s w b) as [s1 [b1 [n|x|]]]; cbn [cthen fst snd] in *.
  - specialize (Hn n eq_refl). destruct (K s1 n b1) as (Hl' & Hf' & Hn'). split; [lia|]. split.
    + rewrite <- Hf. eapply firstn_le; eassumption.
    + intros m E. specialize (Hn' m E). lia.
  - split; [assumption|]. split; [assumption|discriminate].
  - split; [assumption|]. split; [assumption|discriminate].
Qed.

Lemma stays_arr f : (forall v, sized (fun s => f s v)) -> forall l cnt, stays (cmar_arr true f cnt l).
Proof.
  intros H. induction l as [|v l IH]; intros cnt; cbn [cmar_arr].
  - destruct (cnt =? 0)%N; [apply stays_done|apply stays_panic].
  - destruct (cnt =? 0)%N; [apply stays_done|].
    apply (stays_then (cseq true (fun s => f s v))); [apply stays_seq, H|apply IH].
Qed.

Lemma sized_int k z : sized (fun s b => (s, mar_int k z b)).
Proof. intros s b. cbn [fst snd]. rewrite mar_int_chunks. apply write_chunks_length. Qed.

Lemma cmarshal_stays :
  (forall t v, sized (fun s => cmarshal theirs true t s v))
  /\ (forall fs env vs, stays (cmarshal_fields theirs true env fs vs))
  /\ (forall ts vs, stays (cmarshal_tys theirs true ts vs))
  /\ (forall vrs sel args, sized (cmarshal_variant theirs true vrs sel args)).
Proof.
  apply cty_mutind.
  - intros t v s b. apply marshal_len.
  - intros i v s b. apply Hk.
  - intros fs IH []; try apply (stays_sized _ stays_panic). apply (stays_sized _ (IH [] vs)).
  - intros ts IH []; try apply (stays_sized _ stays_panic). apply (stays_sized _ (IH vs)).
  - intros k vrs IH []; try apply (stays_sized _ stays_panic).
    apply (stays_sized (fun s w b => cthen (cseq true (fun s b => (s, mar_int k sel b)) s w b)
                     (cseq true (cmarshal_variant theirs true vrs sel args)))).
    apply stays_then; apply stays_seq; [apply sized_int|apply IH].
  - intros env [|]; [apply stays_done|apply stays_panic].
  - intros name kd t IHt rest IH env [|v vs]; [destruct kd; apply stays_panic|].
    destruct kd as [|n|n len dflt].
    + apply (stays_then (cseq true (fun s => cmarshal theirs true t s v)));
        [apply stays_seq, IHt|apply IH].
    + destruct v; try apply stays_panic.
      apply (stays_then (cmar_arr true (cmarshal theirs true t) n vs0));
        [apply stays_arr, IHt|apply IH].
    + destruct v; try apply stays_panic. cbn [cmarshal_fields].
      destruct (lookup_len len env) as [c|]; [|apply stays_panic].
      apply (stays_then (cmar_arr true (cmarshal theirs true t) (usize c) vs0));
        [apply stays_arr, IHt|apply IH].
  - intros [|]; [apply stays_done|apply stays_panic].
  - intros t IHt rest IH [|v vs]; [apply stays_panic|].
    apply (stays_then (cseq true (fun s => cmarshal theirs true t s v)));
      [apply stays_seq, IHt|apply IH].
  - intros sel args. apply (stays_sized _ stays_panic).
  - intros d ts IHt rest IH sel args. cbn [cmarshal_variant].
    destruct (sel =? d); [apply (stays_sized _ (IHt args))|apply IH].
Qed.

Lemma cthen_ok (r : W * mres) k s b n : cthen r k = (s, (b, Ok n)) ->
  exists s1 b1 n1, r = (s1, (b1, Ok n1)) /\ k s1 n1 b1 = (s, (b, Ok n)).
Proof. destruct r as [s1 [b1 [n1|x|]]]; cbn; intros E; try discriminate. eauto. Qed.

Lemma tys_then_run ts2 vs2 checked : forall ts1 vs1 s w b s1 b1 n,
  cmarshal_tys theirs checked ts1 vs1 s w b = (s1, (b1, Ok n)) ->
  cmarshal_tys theirs checked (tys_then ts1 ts2) (vs1 ++ vs2) s w b
  = cmarshal_tys theirs checked ts2 vs2 s1 n b1.
Proof.
  induction ts1 as [|t ts1 IH]; intros [|v vs1] s w b s1 b1 n E; try discriminate.
  - injection E as <- <- <-. reflexivity.
  - apply cthen_ok in E. destruct E as (s2 & b2 & n2 & E1 & E).
    cbn [tys_then app]. etransitivity; [|apply IH, E].
    change (cthen (cseq checked (fun s => cmarshal theirs checked t s v) s w b)
      (cmarshal_tys theirs checked (tys_then ts1 ts2) (vs1 ++ vs2))
      = cmarshal_tys theirs checked (tys_then ts1 ts2) (vs1 ++ vs2) s2 n2 b2).
    change (cseq checked (fun s => cmarshal theirs checked t s v) s w b = (s2, (b2, Ok n2))) in E1.
    rewrite E1. reflexivity.
Qed.

Lemma fields_then_run fs2 vs2 checked : forall fs1 env vs1 s w b s1 b1 n,
  cmarshal_fields theirs checked env fs1 vs1 s w b = (s1, (b1, Ok n)) ->
  exists env', cmarshal_fields theirs checked env (fields_then fs1 fs2) (vs1 ++ vs2) s w b
  = cmarshal_fields theirs checked env' fs2 vs2 s1 n b1.
Proof.
  induction fs1 as [|name kd t fs1 IH]; intros env vs1 s w b s1 b1 n E.
  - destruct vs1; [|discriminate]. injection E as <- <- <-. exists env. reflexivity.
  - destruct vs1 as [|v vs1]; [destruct kd; discriminate|].
    destruct kd as [|k|k len dflt]; cbn [fields_then app].
    + apply cthen_ok in E. destruct E as (s2 & b2 & n2 & E1 & E).
      destruct (IH _ _ _ _ _ _ _ _ E) as [env' E']. exists env'. rewrite <- E'.
      change (cseq checked (fun s => cmarshal theirs checked t s v) s w b = (s2, (b2, Ok n2))) in E1.
      change (cthen (cseq checked (fun s => cmarshal theirs checked t s v) s w b)
        (cmarshal_fields theirs checked (bind_len name v env) (fields_then fs1 fs2) (vs1 ++ vs2))
        = cmarshal_fields theirs checked (bind_len name v env) (fields_then fs1 fs2) (vs1 ++ vs2) s2 n2 b2).
      rewrite E1. reflexivity.
    + destruct v; try discriminate.
      apply cthen_ok in E. destruct E as (s2 & b2 & n2 & E1 & E).
      destruct (IH _ _ _ _ _ _ _ _ E) as [env' E']. exists env'. rewrite <- E'.
      change (cmar_arr checked (cmarshal theirs checked t) k vs s w b = (s2, (b2, Ok n2))) in E1.
      change (cthen (cmar_arr checked (cmarshal theirs checked t) k vs s w b)
        (cmarshal_fields theirs checked env (fields_then fs1 fs2) (vs1 ++ vs2))
        = cmarshal_fields theirs checked env (fields_then fs1 fs2) (vs1 ++ vs2) s2 n2 b2).
      rewrite E1. reflexivity.
    + destruct v; try discriminate. cbn [cmarshal_fields] in *.
      destruct (lookup_len len env) as [c|]; [|discriminate].
      apply cthen_ok in E. destruct E as (s2 & b2 & n2 & E1 & E).
      destruct (IH _ _ _ _ _ _ _ _ E) as [env' E']. exists env'. rewrite <- E'.
      change (cmar_arr checked (cmarshal theirs checked t) (usize c) vs s w b = (s2, (b2, Ok n2))) in E1.
      change (cthen (cmar_arr checked (cmarshal theirs checked t) (usize c) vs s w b)
        (cmarshal_fields theirs checked env (fields_then fs1 fs2) (vs1 ++ vs2))
        = cmarshal_fields theirs checked env (fields_then fs1 fs2) (vs1 ++ vs2) s2 n2 b2).
      rewrite E1. reflexivity.
Qed.
End Earlier.

(** ** C105 *)
(** If the members' implementations keep the contract, so does the derived one. *)
Theorem c105_marshals {W} (theirs : nat -> custom W) checked good e t :
  (forall i, marshals (theirs i) (good i) (e i)) ->
  marshals (derived theirs checked t) (cgood good t) (cenc e t).
Proof.
  intros H s v buf Hg Hs. apply (proj1 (cmarshal_puts theirs checked good e H) t v Hg s buf Hs).
Qed.

Theorem c105_unmarshals {W} (theirs : nat -> custom W) checked good e t :
  cwf t = true -> (forall i, unmarshals (theirs i) (good i) (e i)) ->
  unmarshals (derived theirs checked t) (cgood good t) (cenc e t).
Proof. intros Ht H s v rest Hg. apply (proj1 (cunmarshal_reads theirs good e H) t Ht), Hg. Qed.

(** If they accept nothing but encodings, so does the derived one ... *)
Theorem c105_strict {W} (theirs : nat -> custom W) checked good e t :
  cwf t = true -> (forall i, strict (theirs i) (good i) (e i)) ->
  strict (derived theirs checked t) (cgood good t) (cenc e t).
Proof. intros Ht H s b v rest E. apply (proj1 (cunmarshal_strict theirs good e H) t Ht s), E. Qed.

(** ... and if they return on every input, so does the derived one. *)
Theorem c105_total {W} (theirs : nat -> custom W) checked t :
  cwf t = true -> (forall i, total (theirs i)) -> total (derived theirs checked t).
Proof. intros Ht H s b. apply (proj1 (cunmarshal_total theirs H) t Ht s b). Qed.

(** With library types as members this is the library's own code. *)
Theorem c105_library {W} (f : nat -> ty) checked t (s : W) v b : slice b ->
  try_marshal (derived (fun i => library (f i)) checked t) s v b
  = try_marshal (library (plain f t)) s v b
  /\ try_unmarshal (derived (fun i => library (f i)) checked t) s b
  = try_unmarshal (library (plain f t)) s b.
Proof.
  intros Hb. split.
  - apply (proj1 (cmarshal_lib f checked) t v s b Hb).
  - apply (proj1 (cunmarshal_lib f) t s b).
Qed.

(** Whatever the members' implementations do: each is called once for each member
    that is on the wire, in order of declaration, none after one that failed, and
    a failure is the result. *)
Theorem c105_marshal_calls {W} (theirs : nat -> custom W) checked t s v buf :
  let '((calls, s'), r) := try_marshal (derived (listened theirs) checked t) ([], s) v buf in
  (s', r) = try_marshal (derived theirs checked t) s v buf
  /\ in_turn (members t v) calls (snd r).
Proof.
  destruct (proj1 (cmarshal_heard theirs checked) t v [] s buf) as (new & E & Ht).
  change (try_marshal (derived (listened theirs) checked t) ([], s) v buf)
    with (cmarshal (listened theirs) checked t ([], s) v buf).
  rewrite E. split; [|exact Ht]. cbn.
  destruct (cmarshal theirs checked t s v buf). reflexivity.
Qed.

(** The same for decoding; and there are never more calls than members that a
    value can have, whatever counts the input states. *)
Theorem c105_unmarshal_calls {W} (theirs : nat -> custom W) checked t s b :
  let '((calls, s'), r) := try_unmarshal (derived (listened theirs) checked t) ([], s) b in
  (s', r) = try_unmarshal (derived theirs checked t) s b
  /\ in_turn_back (members t) calls (fst r) /\ (length calls <= room t)%nat.
Proof.
  destruct (proj1 (cunmarshal_heard theirs) t [] s b) as (new & E & Ht & Hl).
  change (try_unmarshal (derived (listened theirs) checked t) ([], s) b)
    with (cunmarshal (listened theirs) t ([], s) b).
  rewrite E. split; [|split; [exact Ht|exact Hl]]. cbn.
  destruct (cunmarshal theirs t s b). reflexivity.
Qed.

(** With overflow checks, what earlier members wrote stays, whatever the later
    ones' implementations write and claim to have written. *)
Theorem c105_earlier {W} (theirs : nat -> custom W) s s1 vs vs' b b1 n :
  (forall i, keeps_length (theirs i)) ->
  (forall fs fs',
     try_marshal (derived theirs true (CNamed fs)) s (VStruct vs) b = (s1, (b1, Ok n)) ->
     let b' := fst (snd (try_marshal (derived theirs true (CNamed (fields_then fs fs'))) s
                           (VStruct (vs ++ vs')) b)) in
     length b' = length b /\ firstn n b' = firstn n b1)
  /\ (forall ts ts',
     try_marshal (derived theirs true (CTuple ts)) s (VStruct vs) b = (s1, (b1, Ok n)) ->
     let b' := fst (snd (try_marshal (derived theirs true (CTuple (tys_then ts ts'))) s
                           (VStruct (vs ++ vs')) b)) in
     length b' = length b /\ firstn n b' = firstn n b1).
Proof.
  intros Hk. split.
  - intros fs fs' E. cbn zeta.
    pose proof (proj1 (cmarshal_stays theirs Hk) (CNamed (fields_then fs fs')) (VStruct (vs ++ vs')) s b) as Hl.
    split; [exact Hl|].
    destruct (fields_then_run theirs fs' vs' true fs [] vs s 0%nat b s1 b1 n E) as [env' E'].
    change (try_marshal (derived theirs true (CNamed (fields_then fs fs'))) s (VStruct (vs ++ vs')) b)
      with (cmarshal_fields theirs true [] (fields_then fs fs') (vs ++ vs') s 0 b).
    rewrite E'. apply (proj1 (proj2 (cmarshal_stays theirs Hk)) fs' env' vs' s1 n b1).
  - intros ts ts' E. cbn zeta.
    pose proof (proj1 (cmarshal_stays theirs Hk) (CTuple (tys_then ts ts')) (VStruct (vs ++ vs')) s b) as Hl.
    split; [exact Hl|].
    pose proof (tys_then_run theirs ts' vs' true ts vs s 0%nat b s1 b1 n E) as E'.
    change (try_marshal (derived theirs true (CTuple (tys_then ts ts'))) s (VStruct (vs ++ vs')) b)
      with (cmarshal_tys theirs true (tys_then ts ts') (vs ++ vs') s 0 b).
    rewrite E'. apply (proj1 (proj2 (proj2 (cmarshal_stays theirs Hk))) ts' vs' s1 n b1).
Qed.

(** What a member claims to have written is believed: the next one is written
    that much further on; if that is outside the buffer, the call panics and no
    other member is called; if the count overflows, the call panics in builds with
    overflow checks and goes on at the wrapped offset in others. *)
Theorem c105_claimed {W} (theirs : nat -> custom W) checked ts ts' i v vs vs' s s1 s2 b b1 w sub n :
  try_marshal (derived theirs checked (CTuple ts)) s (VStruct vs) b = (s1, (b1, Ok w)) ->
  (w <= length b1)%nat -> slice b1 -> (N.of_nat n < 2 ^ 64)%N ->
  try_marshal (theirs i) s1 v (skipn w b1) = (s2, (sub, Ok n)) ->
  let whole := try_marshal (derived theirs checked (CTuple (tys_then ts (CTCons (CTheirs i) ts')))) s
                 (VStruct (vs ++ v :: vs')) b in
  let b2 := firstn w b1 ++ sub in
  if (N.of_nat (w + n) <? 2 ^ 64)%N
  then whole = cmarshal_tys theirs checked ts' vs' s2 (w + n) b2
       /\ (ts' <> CTNil -> (length b2 < w + n)%nat -> whole = (s2, (b2, Panic)))
  else if checked then whole = (s2, (b2, Panic))
  else whole = cmarshal_tys theirs checked ts' vs' s2 (N.to_nat (N.of_nat (w + n) - 2 ^ 64)) b2.
Proof.
  intros E Hw Hs Hn Ei whole b2.
  assert (Hwhole : whole = cthen (s2, (b2, add_written checked w n)) (cmarshal_tys theirs checked ts' vs')).
  { unfold whole.
    change (cmarshal_tys theirs checked (tys_then ts (CTCons (CTheirs i) ts')) (vs ++ v :: vs') s 0 b
      = cthen (s2, (b2, add_written checked w n)) (cmarshal_tys theirs checked ts' vs')).
    rewrite (tys_then_run theirs (CTCons (CTheirs i) ts') (v :: vs') checked ts vs s 0%nat b s1 b1 w E).
    change (cthen (cseq checked (fun s => try_marshal (theirs i) s v) s1 w b1)
      (cmarshal_tys theirs checked ts' vs')
      = cthen (s2, (b2, add_written checked w n)) (cmarshal_tys theirs checked ts' vs')).
    unfold cseq. destruct (Nat.ltb_spec (length b1) w); [lia|]. rewrite Ei. reflexivity. }
  rewrite Hwhole. unfold add_written.
  destruct (N.ltb_spec (N.of_nat (w + n)) (2 ^ 64)).
  - split; [reflexivity|]. intros Hts Hb. destruct ts' as [|t ts']; [congruence|]. cbn [cthen].
    destruct vs' as [|v' vs']; [reflexivity|].
    change (cthen (cseq checked (fun s => cmarshal theirs checked t s v') s2 (w + n) b2)
      (cmarshal_tys theirs checked ts' vs') = (s2, (b2, Panic))).
    unfold cseq. destruct (Nat.ltb_spec (length b2) (w + n)); [reflexivity|lia].
  - destruct checked; [reflexivity|]. cbn [cthen]. f_equal. f_equal. symmetry.
    apply N.mod_unique with (q := 1%N); unfold slice in Hs; lia.
Qed.
(** A hand-written type: an integer below 32768 in one byte or two, which counts
    its calls. *)
Definition short_enc (v : val) : list byte :=
  match v with
  | VInt z => if z <? 128 then [zb z] else [zb (128 + z / 256); zb z]
  | _ => []
  end.
Definition short_good (v : val) : Prop := exists z, v = VInt z /\ 0 <= z < 32768.
Definition short : custom nat :=
  {| try_marshal := fun s v buf => (S s, mar_bytes (short_enc v) buf);
     try_unmarshal := fun s buf =>
       (S s, match buf with
             | [] => (Err UnexpectedEndOfBuffer, buf)
             | a :: buf1 =>
                 if bz a <? 128 then (Ok (VInt (bz a)), buf1)
                 else match buf1 with
                      | [] => (Err UnexpectedEndOfBuffer, buf1)
                      | c :: buf2 =>
                          let z := (bz a - 128) * 256 + bz c in
                          if z <? 128 then (Err UnknownSelector, buf2) else (Ok (VInt z), buf2)
                      end
             end) |}.
(** A list of up to three of them, and another. *)
Definition short_list : cty :=
  CNamed (CFCons "count" KPlain (CLib (TInt false 1))
         (CFCons "items" (KLen 3 "count" (VInt 0)) (CTheirs 0)
         (CFCons "tag" KPlain (CTheirs 0) CFNil))).
Definition short_value : val :=
  VStruct [VInt 2; VArr [VInt 5; VInt 300; VInt 0]; VInt 7].

Lemma short_enc_inv z rest : 0 <= z < 32768 ->
  forall s, snd (try_unmarshal short s (short_enc (VInt z) ++ rest)) = (Ok (VInt z), rest).
Proof.
  intros Hz s. cbn [short short_enc try_unmarshal snd].
  destruct (Z.ltb_spec z 128); cbn [app]; rewrite !bz_zb.
  - rewrite Z.mod_small by lia. destruct (Z.ltb_spec z 128); [reflexivity|lia].
  - rewrite (Z.mod_small (128 + z / 256)) by lia.
    destruct (Z.ltb_spec (128 + z / 256) 128); [lia|].
    replace ((128 + z / 256 - 128) * 256 + z mod 256) with z by lia.
    destruct (Z.ltb_spec z 128); [lia|reflexivity].
Qed.

Example c105_example :
  (forall i : nat, marshals short short_good short_enc)
  /\ (forall i : nat, unmarshals short short_good short_enc)
  /\ (forall i : nat, strict short short_good short_enc)
  /\ (forall i : nat, total short)
  /\ cwf short_list = true
  /\ cgood (fun _ => short_good) short_list short_value
  /\ try_marshal (derived (fun _ => short) true short_list) 0%nat short_value (repeat xff 6)
     = (3%nat, ([x02; x05; x81; x2c; x07; xff], Ok 5%nat))
  /\ try_unmarshal (derived (fun _ => short) true short_list) 0%nat [x02; x05; x81; x2c; x07; xff]
     = (3%nat, (Ok short_value, [xff])).
Proof.
  split.
  { intros _ s v buf _ _. cbn [short try_marshal snd]. unfold mar_bytes.
    destruct (length (short_enc v) <=? length buf)%nat; reflexivity. }
  split.
  { intros _ s v rest (z & -> & Hz). apply short_enc_inv, Hz. }
  split.
  { intros _ s b v rest. cbn [short try_unmarshal snd].
    destruct b as [|a b1]; [discriminate|]. pose proof (bz_range a).
    destruct (Z.ltb_spec (bz a) 128).
    - intros E. injection E as <- <-. split; [exists (bz a); split; [reflexivity|lia]|].
      cbn [short_enc]. destruct (Z.ltb_spec (bz a) 128); [|lia]. rewrite zb_bz. reflexivity.
    - destruct b1 as [|c b2]; [discriminate|]. pose proof (bz_range c). cbn zeta.
      destruct (Z.ltb_spec ((bz a - 128) * 256 + bz c) 128); [discriminate|].
      intros E. injection E as <- <-. split; [eexists; split; [reflexivity|lia]|].
      cbn [short_enc]. destruct (Z.ltb_spec ((bz a - 128) * 256 + bz c) 128); [lia|].
      replace (128 + ((bz a - 128) * 256 + bz c) / 256) with (bz a) by lia.
      cbn [app]. rewrite zb_bz. f_equal. f_equal.
      apply bz_inj. rewrite bz_zb. lia. }
  split.
  { intros _ s b. cbn [short try_unmarshal snd].
    destruct b as [|a b1]; [split; [reflexivity|exists []; reflexivity]|].
    destruct (bz a <? 128); [split; [reflexivity|exists [a]; reflexivity]|].
    destruct b1 as [|c b2]; [split; [reflexivity|exists [a]; reflexivity]|].
    cbn zeta. destruct (_ <? 128); (split; [reflexivity|exists [a; c]; reflexivity]). }
  split; [reflexivity|]. split.
  { assert (Hg : forall z, 0 <= z < 32768 -> short_good (VInt z)) by (intros; exists z; auto).
    cbn. split; [split; reflexivity|]. split.
    { exists 2. repeat split; vm_compute; congruence. }
    split; [reflexivity|]. split; [|split; [|exact I]].
    - repeat constructor; apply Hg; lia.
    - apply Hg. lia. }
  split; vm_compute; reflexivity.
Qed.

Example c105_calls_example :
  members short_list short_value = [(0%nat, VInt 5); (0%nat, VInt 300); (0%nat, VInt 7)]
  /\ room short_list = 4%nat
  /\ fst (fst (try_unmarshal (derived (listened (fun _ => short)) true short_list) ([], 0%nat)
                 [x02; x05; x80; x07; x07]))
     = [Unmarshalled 0 (Ok (VInt 5)); Unmarshalled 0 (Err UnknownSelector)]
  /\ fst (fst (try_unmarshal (derived (listened (fun _ => short)) true short_list) ([], 0%nat)
                 [xff; x05; x80; x07; x07])) = [].
Proof. vm_compute. auto. Qed.

(** A member that claims to have written almost [usize::MAX] bytes: with overflow
    checks the call panics and what was written before stays; without, the count
    wraps and the next member is written over the first. *)
Definition liar : custom unit :=
  {| try_marshal := fun s _ buf => (s, (buf, Ok (N.to_nat (2 ^ 64 - 2))));
     try_unmarshal := fun s buf => (s, (Ok VUnit, buf)) |}.
Definition liar_tys : ctys :=
  CTCons (CLib (TInt false 2)) (CTCons (CTheirs 0) (CTCons (CLib (TInt false 1)) CTNil)).

Example c105_earlier_example :
  keeps_length liar
  /\ try_marshal (derived (fun _ => liar) true (CTuple (CTCons (CLib (TInt false 2)) CTNil))) tt
       (VStruct [VInt 258]) [x00; x00; x00] = (tt, ([x01; x02; x00], Ok 2%nat))
  /\ try_marshal (derived (fun _ => liar) true (CTuple liar_tys)) tt
       (VStruct [VInt 258; VUnit; VInt 9]) [x00; x00; x00] = (tt, ([x01; x02; x00], Panic))
  /\ try_marshal (derived (fun _ => liar) false (CTuple liar_tys)) tt
       (VStruct [VInt 258; VUnit; VInt 9]) [x00; x00; x00] = (tt, ([x09; x02; x00], Ok 1%nat)).
Proof.
  assert (E : forall c, add_written c 2 (N.to_nat (2 ^ 64 - 2)) = if c then Panic else Ok 0%nat).
  { intros c. unfold add_written. rewrite Nat2N.inj_add, N2Nat.id.
    change (N.of_nat 2 + (2 ^ 64 - 2))%N with (2 ^ 64)%N. rewrite N.ltb_irrefl.
    destruct c; [reflexivity|]. reflexivity. }
  split; [intros s v buf; reflexivity|]. split; [reflexivity|].
  assert (R : forall c,
    try_marshal (derived (fun _ => liar) c (CTuple liar_tys)) tt
       (VStruct [VInt 258; VUnit; VInt 9]) [x00; x00; x00]
    = cthen (tt, ([x01; x02; x00], add_written c 2 (N.to_nat (2 ^ 64 - 2))))
        (cmarshal_tys (fun _ => liar) c (CTCons (CLib (TInt false 1)) CTNil) [VInt 9])).
  { intros c. reflexivity. }
  split; rewrite R, E; vm_compute; reflexivity.
Qed.
