(** Proofs about the marshalling model, for every derivable type. *)
From Coq Require Import String ZArith NArith List Lia Bool.
From Coq Require Import Init.Byte.
From Verif Require Import Prelude Types Marshal WireSpec.
Import ListNotations.
Open Scope Z_scope.

Ltac bsplit :=
  repeat match goal with
  | H : _ && _ = true |- _ => apply andb_true_iff in H; destruct H
  end.

(** ** Integers *)

Lemma int_width_pos k : int_width k = true -> (0 < k)%nat.
Proof. unfold int_width. destruct k; [discriminate|lia]. Qed.

Lemma pow256_even k : (0 < k)%nat -> pow256 k = 2 * (pow256 k / 2).
Proof. destruct k; [lia|]. intros _. rewrite pow256_S. lia. Qed.

Lemma int_be_roundtrip sg k z :
  in_range sg k z = true -> int_of_be sg (be_bytes k z) = z.
Proof.
  unfold in_range, int_of_be. intros H.
  rewrite be_bytes_length, be_val_bytes.
  pose proof (pow256_pos k).
  destruct sg; cbn [andb]; bsplit.
  - apply Z.leb_le in H. apply Z.ltb_lt in H1.
    destruct (Z_lt_le_dec z 0).
    + assert (E : z mod pow256 k = z + pow256 k).
      { symmetry. apply (Z.mod_unique _ _ (-1)); [|lia]. left. lia. }
      rewrite E. destruct (Z.leb_spec (pow256 k) (2 * (z + pow256 k))); lia.
    + rewrite Z.mod_small by lia. destruct (Z.leb_spec (pow256 k) (2 * z)); lia.
  - apply Z.leb_le in H. apply Z.ltb_lt in H1. apply Z.mod_small; lia.
Qed.

Lemma int_of_be_range sg l :
  (0 < length l)%nat -> in_range sg (length l) (int_of_be sg l) = true.
Proof.
  intros Hk. unfold in_range, int_of_be.
  pose proof (be_val_range l). pose proof (pow256_even _ Hk).
  destruct sg; cbn [andb].
  - destruct (Z.leb_spec (pow256 (length l)) (2 * be_val l));
      apply andb_true_iff; split; [apply Z.leb_le|apply Z.ltb_lt|apply Z.leb_le|apply Z.ltb_lt]; lia.
  - apply andb_true_iff; split; [apply Z.leb_le|apply Z.ltb_lt]; lia.
Qed.

Lemma be_bytes_int_of_be sg l : be_bytes (length l) (int_of_be sg l) = l.
Proof.
  unfold int_of_be. destruct (sg && (pow256 (length l) <=? 2 * be_val l)).
  - rewrite <- (be_bytes_mod (length l) (be_val l - pow256 (length l))).
    replace (be_val l - pow256 (length l)) with (be_val l + (-1) * pow256 (length l)) by ring.
    rewrite Z.mod_add by (pose proof (pow256_pos (length l)); lia).
    rewrite be_bytes_mod. apply be_bytes_val.
  - apply be_bytes_val.
Qed.

(** ** [UnmarshalBuf] and byte arrays *)

Lemma buf_get_app n a r : N.of_nat (length a) = n -> buf_get n (a ++ r) = Some (a, r).
Proof.
  intros <-. unfold buf_get. rewrite app_length.
  destruct (N.ltb_spec (N.of_nat (length a + length r)) (N.of_nat (length a))); [lia|].
  rewrite Nat2N.id, firstn_app_exact, skipn_app_exact. reflexivity.
Qed.

Lemma buf_get_Some n b a r : buf_get n b = Some (a, r) -> b = a ++ r /\ N.of_nat (length a) = n.
Proof.
  unfold buf_get. destruct (N.ltb_spec (N.of_nat (length b)) n); [discriminate|].
  intros E. injection E as <- <-. split.
  - symmetry. apply firstn_skipn.
  - rewrite firstn_length. lia.
Qed.

Lemma buf_get_None n b : buf_get n b = None <-> (N.of_nat (length b) < n)%N.
Proof.
  unfold buf_get. destruct (N.ltb_spec (N.of_nat (length b)) n); split; intros; try lia; congruence.
Qed.

Lemma unm_bytes_app n a r : N.of_nat (length a) = n -> unm_bytes n (a ++ r) = (Ok a, r).
Proof. intros. unfold unm_bytes. rewrite buf_get_app by assumption. reflexivity. Qed.

Lemma unm_bytes_cases n b :
  (exists a r, b = a ++ r /\ N.of_nat (length a) = n /\ unm_bytes n b = (Ok a, r))
  \/ ((N.of_nat (length b) < n)%N /\ unm_bytes n b = (Err UnexpectedEndOfBuffer, b)).
Proof.
  unfold unm_bytes. destruct (buf_get n b) as [[a r]|] eqn:E.
  - left. apply buf_get_Some in E. exists a, r. tauto.
  - right. apply buf_get_None in E. tauto.
Qed.

Lemma unm_int_app sg k z r :
  in_range sg k z = true -> unm_int sg k (be_bytes k z ++ r) = (Ok z, r).
Proof.
  intros. unfold unm_int. rewrite unm_bytes_app by (rewrite be_bytes_length; reflexivity).
  cbn. rewrite int_be_roundtrip by assumption. reflexivity.
Qed.

Lemma unm_int_cases sg k b : (0 < k)%nat ->
  (exists z r, b = be_bytes k z ++ r /\ in_range sg k z = true /\ unm_int sg k b = (Ok z, r))
  \/ ((length b < k)%nat /\ unm_int sg k b = (Err UnexpectedEndOfBuffer, b)).
Proof.
  intros Hk. unfold unm_int.
  destruct (unm_bytes_cases (N.of_nat k) b) as [(a & r & -> & Hl & E)|(Hl & E)]; rewrite E; cbn.
  - left. apply Nat2N.inj in Hl. subst k.
    exists (int_of_be sg a), r. rewrite be_bytes_int_of_be, int_of_be_range by assumption. auto.
  - right. split; [lia|reflexivity].
Qed.

Lemma unm_int_inv sg k b z r : (0 < k)%nat ->
  unm_int sg k b = (Ok z, r) -> in_range sg k z = true /\ b = be_bytes k z ++ r.
Proof.
  intros Hk E. destruct (unm_int_cases sg k b Hk) as [(z' & r' & Hb & Hr & E')|(_ & E')];
    rewrite E' in E; [|discriminate]. injection E as <- <-. auto.
Qed.

Lemma in_range_u16 z : in_range false 2 z = true -> 0 <= z < 65536.
Proof.
  unfold in_range. change (pow256 2) with 65536. intros H. bsplit.
  apply Z.leb_le in H. apply Z.ltb_lt in H0. lia.
Qed.

(** ** Environments *)

Lemma bind_len_canon name t v env : bind_len name (canon t v) env = bind_len name v env.
Proof.
  destruct t, v; try reflexivity. cbn.
  destruct vs0 as [|[] [|[] [|[] [|]]]]; reflexivity.
Qed.

Lemma lookup_len_names len env :
  existsb (String.eqb len) (map fst env) = true -> exists c, lookup_len len env = Some c.
Proof.
  induction env as [|[n z] env IH]; cbn; [discriminate|].
  destruct (String.eqb len n); cbn; eauto.
Qed.

Lemma bind_len_names name t v env names :
  wf t v = true -> map fst env = names ->
  map fst (bind_len name v env) = bind_name name KPlain t names.
Proof. intros H <-. destruct t, v; try discriminate; reflexivity. Qed.

(** ** Arrays *)

Lemma unm_arr_app f (e : val -> list byte) c l r :
  (forall v r, In v l -> f (e v ++ r) = (Ok (c v), r)) ->
  unm_arr f (length l) (flat_map e l ++ r) = (Ok (map c l), r).
Proof.
  revert r. induction l as [|v l IH]; intros r H; cbn [length flat_map unm_arr map app]; [reflexivity|].
  rewrite <- app_assoc, H by (left; reflexivity). cbn [uthen].
  rewrite IH by (intros; apply H; right; assumption). reflexivity.
Qed.

Lemma forallb_In {A} (f : A -> bool) l x : forallb f l = true -> In x l -> f x = true.
Proof. intros H. rewrite forallb_forall in H. auto. Qed.

Lemma counted_In len env l v : In v (counted len env l) -> In v l.
Proof.
  unfold counted. destruct (lookup_len len env) as [c|]; [|contradiction].
  intros H. rewrite <- (firstn_skipn (N.to_nat (usize c)) l). apply in_or_app. left. exact H.
Qed.

Lemma counted_length n len env l c :
  lookup_len len env = Some c -> (usize c <= n)%N -> N.of_nat (length l) = n ->
  length (counted len env l) = N.to_nat (usize c).
Proof. intros E H Hl. unfold counted. rewrite E, firstn_length. lia. Qed.

Lemma variant_sel_range k vrs sel args : wf_ty_variants k vrs = true ->
  wf_variant vrs sel args = true -> in_range false k sel = true.
Proof.
  induction vrs as [|s ts rest IH]; cbn; intros Ht Hv; [discriminate|]. bsplit.
  destruct (Z.eqb_spec sel s); [subst; assumption|auto].
Qed.

(** ** Round trip *)

Theorem unm_enc_all :
  (forall t, wf_ty t = true -> forall v r, wf t v = true ->
     unmarshal t (enc t v ++ r) = (Ok (canon t v), r))
  /\ (forall fs names, wf_ty_fields names fs = true -> forall env vs r,
     wf_fields env fs vs = true ->
     unmarshal_fields env fs (enc_fields env fs vs ++ r) = (Ok (canon_fields env fs vs), r))
  /\ (forall ts, wf_ty_tys ts = true -> forall vs r, wf_tys ts vs = true ->
     unmarshal_tys ts (enc_tys ts vs ++ r) = (Ok (canon_tys ts vs), r))
  /\ (forall vrs k, wf_ty_variants k vrs = true -> forall sel args r,
     wf_variant vrs sel args = true ->
     unmarshal_variant vrs sel (enc_variant vrs sel args ++ r)
       = (Ok (canon_variant vrs sel args), r)).
Proof.
  apply ty_mutind.
  - (* TInt *) intros sg k Ht v r Hv. destruct v; try discriminate. cbn in *.
    rewrite unm_int_app by assumption. reflexivity.
  - intros _ v r Hv. destruct v; try discriminate. reflexivity.
  - intros n _ v r Hv. destruct v; try discriminate. cbn in *.
    rewrite unm_bytes_app by (apply N.eqb_eq; assumption). reflexivity.
  - intros fs IH Ht v r Hv. destruct v; try discriminate. cbn in *.
    rewrite (IH [] Ht) by assumption. reflexivity.
  - intros ts IH Ht v r Hv. destruct v; try discriminate. cbn in *.
    rewrite IH by assumption. reflexivity.
  - intros k vrs IH Ht v r Hv. destruct v; try discriminate. cbn in *. bsplit.
    rewrite <- app_assoc, unm_int_app.
    + cbn. rewrite (IH k) by assumption. reflexivity.
    + eapply variant_sel_range; eassumption.
  - intros max _ v r Hv. destruct v; try discriminate. cbn [enc canon wf] in *. bsplit.
    cbn [unmarshal]. unfold unm_tpm2b. rewrite <- app_assoc, unm_int_app by assumption.
    apply in_range_u16 in H. apply N.leb_le in H1. apply N.eqb_eq in H0.
    assert (Hf : length (firstn (Z.to_nat size) buf) = Z.to_nat size)
      by (rewrite firstn_length; lia).
    rewrite buf_get_app by lia.
    rewrite Hf. destruct (N.ltb_spec max (N.of_nat (Z.to_nat size))); [lia|].
    unfold overwrite. rewrite Hf. do 4 f_equal.
    replace (N.to_nat max) with (Z.to_nat size + (N.to_nat max - Z.to_nat size))%nat at 1 by lia.
    rewrite repeat_app, skipn_app_exact' by (rewrite repeat_length; reflexivity). reflexivity.
  - intros pre IHp k mid IHm vrs IHv Ht v r Hv.
    destruct v; try discriminate.
    destruct vs as [|[] [|[] [|[] [|]]]]; try discriminate.
    cbn in *. bsplit.
    rewrite <- !app_assoc, IHp by assumption. cbn.
    rewrite unm_int_app.
    + cbn. rewrite IHm by assumption. cbn. rewrite (IHv k) by assumption. reflexivity.
    + eapply variant_sel_range; eassumption.
  - intros names _ env vs r Hv. destruct vs; try discriminate. reflexivity.
  - intros name kd t IHt rest IHr names Ht env vs r Hv. cbn in Ht. bsplit.
    destruct kd as [|n|n len dflt].
    + destruct vs as [|v vs]; [discriminate|]. cbn in Hv |- *. bsplit.
      rewrite <- app_assoc, IHt by assumption. cbn.
      rewrite bind_len_canon, (IHr _ H0) by assumption. reflexivity.
    + destruct vs as [|[] vs']; try discriminate. cbn in Hv |- *. bsplit.
      apply N.eqb_eq in H2. subst n. rewrite Nat2N.id, <- app_assoc.
      rewrite (unm_arr_app _ _ (canon t)).
      2:{ intros v r' Hin. apply IHt; [assumption|]. eapply forallb_In; eassumption. }
      cbn. rewrite (IHr _ H0) by assumption. reflexivity.
    + destruct vs as [|[] vs']; try discriminate. cbn in Hv |- *. bsplit.
      unfold len_ok in H4. destruct (lookup_len len env) as [c|] eqn:Ec; [|discriminate].
      apply N.leb_le in H4. apply N.eqb_eq in H2.
      destruct (N.ltb_spec n (usize c)); [lia|].
      pose proof (counted_length _ _ _ _ _ Ec H4 H2) as Hl.
      rewrite <- Hl, <- app_assoc.
      rewrite (unm_arr_app _ _ (canon t)).
      2:{ intros v r' Hin. apply IHt; [assumption|]. eapply forallb_In; [eassumption|].
          eapply counted_In; eassumption. }
      cbn. rewrite (IHr _ H0) by assumption. rewrite map_length. reflexivity.
  - intros _ vs r Hv. destruct vs; try discriminate. reflexivity.
  - intros t IHt rest IHr Ht vs r Hv. destruct vs as [|v vs]; [discriminate|].
    cbn in *. bsplit. rewrite <- app_assoc, IHt by assumption. cbn.
    rewrite IHr by assumption. reflexivity.
  - intros k _ sel args r Hv. discriminate.
  - intros s ts IHt rest IHr k Ht sel args r Hv. cbn in *. bsplit.
    destruct (Z.eqb_spec sel s); [apply IHt|apply (IHr k)]; assumption.
Qed.

Theorem unm_enc t v r :
  wf_ty t = true -> wf t v = true -> unmarshal t (enc t v ++ r) = (Ok (canon t v), r).
Proof. intros. apply unm_enc_all; assumption. Qed.

(** ** What a successful unmarshal means *)

Lemma uthen_ok {A B} (x : ures A) (k : A -> list byte -> ures B) b r :
  uthen x k = (Ok b, r) -> exists a r', x = (Ok a, r') /\ k a r' = (Ok b, r).
Proof. destruct x as [[] r']; cbn; try discriminate. eauto. Qed.

Lemma umap_ok {A B} (f : A -> B) x b r :
  umap f x = (Ok b, r) -> exists a, x = (Ok a, r) /\ b = f a.
Proof. destruct x as [[] r']; cbn; intros E; try discriminate. injection E as <- <-. eauto. Qed.

Lemma unm_arr_inv f (e : val -> list byte) (P : val -> Prop) m : forall b l r,
  (forall b v r, f b = (Ok v, r) -> P v /\ b = e v ++ r) ->
  unm_arr f m b = (Ok l, r) -> length l = m /\ Forall P l /\ b = flat_map e l ++ r.
Proof.
  induction m; intros b l r Hf E; cbn in E.
  - injection E as <- <-. auto.
  - apply uthen_ok in E. destruct E as (v & r1 & E1 & E2).
    apply umap_ok in E2. destruct E2 as (l' & E2 & ->).
    apply Hf in E1. destruct E1 as [HP ->].
    apply IHm in E2; [|assumption]. destruct E2 as (Hl & HF & ->).
    cbn. rewrite <- app_assoc. auto.
Qed.

Lemma Forall_canon_map t l : Forall (fun v => wf t v = true /\ canon t v = v) l ->
  forallb (wf t) l = true /\ map (canon t) l = l.
Proof.
  induction 1 as [|v l [H1 H2] _ [IH1 IH2]]; cbn; [auto|].
  rewrite H1, H2, IH1, IH2. auto.
Qed.

Lemma forallb_repeat {A} (f : A -> bool) x n : f x = true -> forallb f (repeat x n) = true.
Proof. intros H. induction n; cbn; [reflexivity|]. rewrite H. exact IHn. Qed.

Theorem unm_inv_all :
  (forall t, wf_ty t = true -> forall b v r, unmarshal t b = (Ok v, r) ->
     wf t v = true /\ canon t v = v /\ b = enc t v ++ r)
  /\ (forall fs names, wf_ty_fields names fs = true -> forall env b vs r,
     map fst env = names ->
     unmarshal_fields env fs b = (Ok vs, r) ->
     wf_fields env fs vs = true /\ canon_fields env fs vs = vs /\ b = enc_fields env fs vs ++ r)
  /\ (forall ts, wf_ty_tys ts = true -> forall b vs r, unmarshal_tys ts b = (Ok vs, r) ->
     wf_tys ts vs = true /\ canon_tys ts vs = vs /\ b = enc_tys ts vs ++ r)
  /\ (forall vrs k, wf_ty_variants k vrs = true -> forall sel b args r,
     unmarshal_variant vrs sel b = (Ok args, r) ->
     wf_variant vrs sel args = true /\ canon_variant vrs sel args = args
     /\ b = enc_variant vrs sel args ++ r).
Proof.
  apply ty_mutind.
  - intros sg k Ht b v r E. cbn in *. apply umap_ok in E. destruct E as (z & E & ->).
    apply unm_int_inv in E; [|apply int_width_pos; assumption]. cbn. tauto.
  - intros _ b v r E. injection E as <- <-. auto.
  - intros n _ b v r E. cbn in *. apply umap_ok in E. destruct E as (l & E & ->).
    destruct (unm_bytes_cases n b) as [(a & r' & -> & Hl & E')|(_ & E')]; rewrite E' in E;
      [|discriminate]. injection E as <- <-. cbn. rewrite Hl, N.eqb_refl. auto.
  - intros fs IH Ht b v r E. cbn in *. apply umap_ok in E. destruct E as (vs & E & ->).
    apply (IH [] Ht) in E; [|reflexivity]. destruct E as (H1 & H2 & H3). cbn. rewrite H2. auto.
  - intros ts IH Ht b v r E. cbn in *. apply umap_ok in E. destruct E as (vs & E & ->).
    apply IH in E; [|assumption]. destruct E as (H1 & H2 & H3). cbn. rewrite H2. auto.
  - intros k vrs IH Ht b v r E. cbn in *. bsplit. apply uthen_ok in E.
    destruct E as (sel & r1 & E1 & E2). apply umap_ok in E2. destruct E2 as (args & E2 & ->).
    apply unm_int_inv in E1; [|apply int_width_pos; assumption]. destruct E1 as [_ ->].
    apply (IH k) in E2; [|assumption]. destruct E2 as (H1 & H2 & ->). cbn.
    rewrite H2, <- app_assoc. auto.
  - intros max _ b v r E. cbn [unmarshal] in E. unfold unm_tpm2b in E.
    destruct (unm_int_cases false 2 b ltac:(lia)) as [(z & r1 & -> & Hz & E1)|(_ & E1)];
      rewrite E1 in E; [|discriminate].
    destruct (buf_get (Z.to_N z) r1) as [[s r2]|] eqn:Eg; [|discriminate].
    apply buf_get_Some in Eg. destruct Eg as [-> Hs].
    destruct (N.ltb_spec max (N.of_nat (length s))); [discriminate|].
    injection E as <- <-. pose proof (in_range_u16 _ Hz).
    assert (Hs' : length s = Z.to_nat z) by lia.
    assert (Ho : length (overwrite s (repeat x00 (N.to_nat max))) = N.to_nat max)
      by (rewrite overwrite_length; rewrite repeat_length; lia).
    cbn [wf canon enc]. rewrite Hz, Ho, <- Hs'.
    rewrite !firstn_overwrite. repeat split.
    + apply andb_true_iff; split; [apply N.leb_le|apply N.eqb_eq]; lia.
    + f_equal. unfold overwrite. f_equal.
      replace (repeat x00 (N.to_nat max)) with
        (repeat x00 (length s) ++ repeat x00 (N.to_nat max - length s))
        by (rewrite <- repeat_app; f_equal; lia).
      rewrite skipn_app_exact' by (rewrite repeat_length; reflexivity). reflexivity.
  - intros pre IHp k mid IHm vrs IHv Ht b v r E. cbn in *. bsplit.
    apply uthen_ok in E. destruct E as (a & r1 & E1 & E).
    apply uthen_ok in E. destruct E as (sel & r2 & E2 & E).
    apply uthen_ok in E. destruct E as (m & r3 & E3 & E).
    apply umap_ok in E. destruct E as (args & E & ->).
    apply IHp in E1; [|assumption]. destruct E1 as (Ha1 & Ha2 & ->).
    apply unm_int_inv in E2; [|apply int_width_pos; assumption]. destruct E2 as [_ ->].
    apply IHm in E3; [|assumption]. destruct E3 as (Hb1 & Hb2 & ->).
    apply (IHv k) in E; [|assumption]. destruct E as (Hc1 & Hc2 & ->).
    cbn. rewrite Ha1, Ha2, Hb1, Hb2, Hc1, Hc2, <- !app_assoc. auto.
  - intros names _ env b vs r _ E. injection E as <- <-. auto.
  - intros name kd t IHt rest IHr names Ht env b vs r Henv E. cbn in Ht. bsplit.
    destruct kd as [|n|n len dflt]; cbn in E.
    + apply uthen_ok in E. destruct E as (v & r1 & E1 & E).
      apply umap_ok in E. destruct E as (vs' & E & ->).
      apply IHt in E1; [|assumption]. destruct E1 as (Hv1 & Hv2 & ->).
      apply (IHr _ H0) in E; [|apply bind_len_names; assumption].
      destruct E as (Hr1 & Hr2 & ->). cbn. rewrite Hv1, Hv2, Hr1, Hr2, <- app_assoc. auto.
    + apply uthen_ok in E. destruct E as (l & r1 & E1 & E).
      apply umap_ok in E. destruct E as (vs' & E & ->).
      eapply (unm_arr_inv _ (enc t) (fun v => wf t v = true /\ canon t v = v)) in E1.
      2:{ intros b' v' r' E'. apply IHt in E'; tauto. }
      destruct E1 as (Hl & HF & ->). apply Forall_canon_map in HF. destruct HF as [HF1 HF2].
      apply (IHr _ H0) in E; [|assumption]. destruct E as (Hr1 & Hr2 & ->).
      cbn. rewrite HF1, HF2, Hr1, Hr2, <- app_assoc, Hl, N2Nat.id, N.eqb_refl. auto.
    + destruct (lookup_len len env) as [c|] eqn:Ec; [|discriminate].
      destruct (N.ltb_spec n (usize c)); [discriminate|].
      apply uthen_ok in E. destruct E as (l & r1 & E1 & E).
      apply umap_ok in E. destruct E as (vs' & E & ->).
      eapply (unm_arr_inv _ (enc t) (fun v => wf t v = true /\ canon t v = v)) in E1.
      2:{ intros b' v' r' E'. apply IHt in E'; tauto. }
      destruct E1 as (Hl & HF & ->). apply Forall_canon_map in HF. destruct HF as [HF1 HF2].
      apply (IHr _ H0) in E; [|assumption]. destruct E as (Hr1 & Hr2 & ->).
      bsplit. cbn. unfold len_ok, counted. rewrite Ec.
      rewrite (firstn_app_exact' (N.to_nat (usize c)) l) by lia.
      rewrite forallb_app, HF1, HF2, Hr1, Hr2, <- app_assoc.
      rewrite forallb_repeat by assumption.
      rewrite app_length, repeat_length. repeat split.
      repeat (apply andb_true_iff; split); try reflexivity; [apply N.eqb_eq|apply N.leb_le]; lia.
  - intros _ b vs r E. injection E as <- <-. auto.
  - intros t IHt rest IHr Ht b vs r E. cbn in *. bsplit.
    apply uthen_ok in E. destruct E as (v & r1 & E1 & E).
    apply umap_ok in E. destruct E as (vs' & E & ->).
    apply IHt in E1; [|assumption]. destruct E1 as (Hv1 & Hv2 & ->).
    apply IHr in E; [|assumption]. destruct E as (Hr1 & Hr2 & ->).
    cbn. rewrite Hv1, Hv2, Hr1, Hr2, <- app_assoc. auto.
  - intros k _ sel b args r E. discriminate.
  - intros s ts IHt rest IHr k Ht sel b args r E. cbn in *. bsplit.
    destruct (Z.eqb_spec sel s); [apply IHt|apply (IHr k)]; assumption.
Qed.

Theorem unm_inv t b v r :
  wf_ty t = true -> unmarshal t b = (Ok v, r) ->
  wf t v = true /\ canon t v = v /\ b = enc t v ++ r.
Proof. intros. apply unm_inv_all; assumption. Qed.

(** ** Totality: no panic, and the rest is a suffix of the input *)

Definition total {A} (b : list byte) (x : ures A) : Prop :=
  is_panic (fst x) = false /\ exists c, b = c ++ snd x.

Lemma total_ok {A} b (a : A) : total b (Ok a, b).
Proof. split; [reflexivity|exists []; reflexivity]. Qed.
Lemma total_err {A} b e : total b (@Err merr A e, b).
Proof. split; [reflexivity|exists []; reflexivity]. Qed.

Lemma total_umap {A B} (f : A -> B) b x : total b x -> total b (umap f x).
Proof. destruct x as [[] r]; unfold total; cbn; intros [H Hc]; auto. Qed.

Lemma total_uthen {A B} b (x : ures A) (k : A -> list byte -> ures B) :
  total b x -> (forall a r, x = (Ok a, r) -> total r (k a r)) -> total b (uthen x k).
Proof.
  destruct x as [[a|e|] r]; unfold total; cbn; intros [H [c Hc]] Hk.
  - destruct (Hk a r eq_refl) as [H1 [c1 H2]]. split; [assumption|].
    exists (c ++ c1). rewrite <- app_assoc, <- H2. exact Hc.
  - eauto.
  - discriminate.
Qed.

Lemma total_arr f m : (forall b, total b (f b)) -> forall b, total b (unm_arr f m b).
Proof.
  intros Hf. induction m; intros b; cbn; [apply total_ok|].
  apply total_uthen; [apply Hf|]. intros. apply total_umap, IHm.
Qed.

Lemma total_int sg k b : (0 < k)%nat -> total b (unm_int sg k b).
Proof.
  intros Hk. destruct (unm_int_cases sg k b Hk) as [(z & r & -> & _ & ->)|(_ & ->)].
  - split; [reflexivity|]. eexists; reflexivity.
  - apply total_err.
Qed.

Theorem unm_total_all :
  (forall t, wf_ty t = true -> forall b, total b (unmarshal t b))
  /\ (forall fs names, wf_ty_fields names fs = true -> forall env b,
      map fst env = names -> total b (unmarshal_fields env fs b))
  /\ (forall ts, wf_ty_tys ts = true -> forall b, total b (unmarshal_tys ts b))
  /\ (forall vrs k, wf_ty_variants k vrs = true -> forall sel b,
      total b (unmarshal_variant vrs sel b)).
Proof.
  apply ty_mutind.
  - intros sg k Ht b. cbn in *. apply total_umap, total_int, int_width_pos, Ht.
  - intros _ b. apply total_ok.
  - intros n _ b. cbn. apply total_umap.
    destruct (unm_bytes_cases n b) as [(a & r & -> & _ & ->)|(_ & ->)].
    + split; [reflexivity|]. eexists; reflexivity.
    + apply total_err.
  - intros fs IH Ht b. cbn. apply total_umap, (IH [] Ht). reflexivity.
  - intros ts IH Ht b. cbn. apply total_umap, IH, Ht.
  - intros k vrs IH Ht b. cbn in *. bsplit. apply total_uthen.
    + apply total_int, int_width_pos. assumption.
    + intros. apply total_umap, (IH k). assumption.
  - intros max _ b. cbn. unfold unm_tpm2b.
    destruct (unm_int_cases false 2 b ltac:(lia)) as [(z & r1 & -> & Hz & ->)|(_ & ->)];
      [|apply total_err].
    destruct (buf_get (Z.to_N z) r1) as [[s r2]|] eqn:Eg.
    2:{ split; [reflexivity|]. eexists; reflexivity. }
    apply buf_get_Some in Eg. destruct Eg as [-> Hs].
    destruct (N.ltb_spec max (N.of_nat (length s))); (split; [reflexivity|]);
      exists (be_bytes 2 z ++ s); reflexivity.
  - intros pre IHp k mid IHm vrs IHv Ht b. cbn in *. bsplit.
    apply total_uthen; [apply IHp; assumption|]. intros.
    apply total_uthen; [apply total_int, int_width_pos; assumption|]. intros.
    apply total_uthen; [apply IHm; assumption|]. intros.
    apply total_umap, (IHv k). assumption.
  - intros names _ env b _. apply total_ok.
  - intros name kd t IHt rest IHr names Ht env b Henv. cbn in Ht. bsplit.
    destruct kd as [|n|n len dflt]; cbn.
    + apply total_uthen; [apply IHt; assumption|]. intros v r E. apply total_umap.
      apply (IHr _ H0). apply bind_len_names; [|assumption].
      apply (unm_inv t) in E; tauto.
    + apply total_uthen; [apply total_arr, IHt; assumption|]. intros l r E.
      apply total_umap, (IHr _ H0). assumption.
    + bsplit. rewrite <- Henv in H1. destruct (lookup_len_names _ _ H1) as [c ->].
      destruct (n <? usize c)%N; [apply total_err|].
      apply total_uthen; [apply total_arr, IHt; assumption|]. intros l r E.
      apply total_umap, (IHr _ H0). assumption.
  - intros _ b. apply total_ok.
  - intros t IHt rest IHr Ht b. cbn in *. bsplit.
    apply total_uthen; [apply IHt; assumption|]. intros. apply total_umap, IHr. assumption.
  - intros k _ sel b. cbn. apply total_err.
  - intros s ts IHt rest IHr k Ht sel b. cbn in *. bsplit.
    destruct (sel =? s); [apply IHt|apply (IHr k)]; assumption.
Qed.

(** ** Truncation *)

Definition cut {A} (x : ures A) : Prop := fst x = Err UnexpectedEndOfBuffer.

Lemma cut_umap {A B} (f : A -> B) x : cut x -> cut (umap f x).
Proof. destruct x as [[] r]; unfold cut; cbn; congruence. Qed.

Lemma cut_uthen_l {A B} (x : ures A) (k : A -> list byte -> ures B) : cut x -> cut (uthen x k).
Proof. destruct x as [[] r]; unfold cut; cbn; congruence. Qed.

(** [p ++ q = e1 ++ e2]: the cut is inside [e1] or inside [e2]. *)
Lemma app_split {A} (e1 e2 p q : list A) :
  e1 ++ e2 = p ++ q -> q <> [] ->
  (exists q1, e1 = p ++ q1 /\ q1 <> []) \/ (exists p2, p = e1 ++ p2 /\ e2 = p2 ++ q).
Proof.
  revert p. induction e1 as [|x e1 IH]; intros p E Hq.
  - right. exists p. auto.
  - destruct p as [|y p].
    + left. exists (x :: e1). split; [reflexivity|discriminate].
    + injection E as <- E. destruct (IH p E Hq) as [(q1 & -> & H)|(p2 & -> & H)].
      * left. exists q1. auto.
      * right. exists p2. auto.
Qed.

Lemma cut_bytes n l p q : N.of_nat (length l) = n -> l = p ++ q -> q <> [] -> cut (unm_bytes n p).
Proof.
  intros Hl -> Hq. unfold cut, unm_bytes.
  rewrite (proj2 (buf_get_None n p)); [reflexivity|].
  rewrite app_length in Hl. destruct q; [congruence|]. cbn in Hl. lia.
Qed.

Lemma cut_int sg k z p q : be_bytes k z = p ++ q -> q <> [] -> cut (unm_int sg k p).
Proof.
  intros E Hq. unfold unm_int.
  pose proof (cut_bytes (N.of_nat k) _ p q ltac:(rewrite be_bytes_length; reflexivity) E Hq) as H.
  unfold cut in *. destruct (unm_bytes (N.of_nat k) p) as [[] r]; cbn in *; congruence.
Qed.

Lemma cut_arr f (e : val -> list byte) c l : forall p q,
  (forall v r, In v l -> f (e v ++ r) = (Ok (c v), r)) ->
  (forall v p q, In v l -> e v = p ++ q -> q <> [] -> cut (f p)) ->
  flat_map e l = p ++ q -> q <> [] -> cut (unm_arr f (length l) p).
Proof.
  induction l as [|v l IH]; intros p q Hf Hc E Hq; cbn in *.
  - destruct p; [cbn in E; congruence|discriminate].
  - apply app_split in E; [|assumption].
    destruct E as [(q1 & E1 & Hq1)|(p2 & -> & E2)].
    + apply cut_uthen_l. eapply Hc; eauto.
    + rewrite Hf by auto. cbn. apply cut_umap. eapply IH; eauto.
Qed.

Theorem truncation_all :
  (forall t, wf_ty t = true -> forall v p q, wf t v = true -> enc t v = p ++ q -> q <> [] ->
     cut (unmarshal t p))
  /\ (forall fs names, wf_ty_fields names fs = true -> forall env vs p q,
     wf_fields env fs vs = true -> enc_fields env fs vs = p ++ q -> q <> [] ->
     cut (unmarshal_fields env fs p))
  /\ (forall ts, wf_ty_tys ts = true -> forall vs p q, wf_tys ts vs = true ->
     enc_tys ts vs = p ++ q -> q <> [] -> cut (unmarshal_tys ts p))
  /\ (forall vrs k, wf_ty_variants k vrs = true -> forall sel args p q,
     wf_variant vrs sel args = true -> enc_variant vrs sel args = p ++ q -> q <> [] ->
     cut (unmarshal_variant vrs sel p)).
Proof.
  assert (Hnil : forall p q : list byte, [] = p ++ q -> q <> [] -> False).
  { intros p q E Hq. destruct p; [cbn in E; congruence|discriminate]. }
  apply ty_mutind.
  - intros sg k Ht v p q Hv E Hq. destruct v; try discriminate. cbn in *.
    eapply cut_umap, cut_int; eassumption.
  - intros _ v p q Hv E Hq. destruct v; try discriminate. exfalso; eapply Hnil; eassumption.
  - intros n _ v p q Hv E Hq. destruct v; try discriminate. cbn in *.
    eapply cut_umap, cut_bytes; [|eassumption|assumption]. apply N.eqb_eq. assumption.
  - intros fs IH Ht v p q Hv E Hq. destruct v; try discriminate. cbn in *.
    eapply cut_umap, (IH [] Ht); eassumption.
  - intros ts IH Ht v p q Hv E Hq. destruct v; try discriminate. cbn in *.
    eapply cut_umap, IH; eassumption.
  - intros k vrs IH Ht v p q Hv E Hq. destruct v; try discriminate. cbn in *. bsplit.
    apply app_split in E; [|assumption]. destruct E as [(q1 & E1 & Hq1)|(p2 & -> & E2)].
    + eapply cut_uthen_l, cut_int; eassumption.
    + rewrite unm_int_app by (eapply variant_sel_range; eassumption). cbn.
      eapply cut_umap, (IH k); eassumption.
  - intros max _ v p q Hv E Hq. destruct v; try discriminate. cbn [wf enc] in *. bsplit.
    cbn [unmarshal]. unfold unm_tpm2b.
    apply app_split in E; [|assumption]. destruct E as [(q1 & E1 & Hq1)|(p2 & -> & E2)].
    + pose proof (cut_int false _ _ _ _ E1 Hq1) as Hc. unfold cut in *.
      destruct (unm_int false 2 p) as [[] r]; cbn in *; congruence.
    + rewrite unm_int_app by assumption.
      apply in_range_u16 in H. apply N.leb_le in H1. apply N.eqb_eq in H0.
      rewrite (proj2 (buf_get_None _ p2)); [reflexivity|].
      assert (length (firstn (Z.to_nat size) buf) = length (p2 ++ q)) by (rewrite E2; reflexivity).
      rewrite firstn_length, app_length in H2. destruct q; [congruence|]. cbn in H2. lia.
  - intros pre IHp k mid IHm vrs IHv Ht v p q Hv E Hq.
    destruct v; try discriminate.
    destruct vs as [|[] [|[] [|[] [|]]]]; try discriminate.
    cbn in *. bsplit.
    apply app_split in E; [|assumption]. destruct E as [(q1 & E1 & Hq1)|(p2 & -> & E)].
    { eapply cut_uthen_l, IHp; eassumption. }
    rewrite (proj1 (proj2 (proj2 unm_enc_all))) by assumption. cbn.
    apply app_split in E; [|assumption]. destruct E as [(q1 & E1 & Hq1)|(p3 & -> & E)].
    { eapply cut_uthen_l, cut_int; eassumption. }
    rewrite unm_int_app by (eapply variant_sel_range; eassumption). cbn.
    apply app_split in E; [|assumption]. destruct E as [(q1 & E1 & Hq1)|(p4 & -> & E)].
    { eapply cut_uthen_l, IHm; eassumption. }
    rewrite (proj1 (proj2 (proj2 unm_enc_all))) by assumption. cbn.
    eapply cut_umap, (IHv k); eassumption.
  - intros names _ env vs p q Hv E Hq. destruct vs; try discriminate. exfalso; eapply Hnil; eassumption.
  - intros name kd t IHt rest IHr names Ht env vs p q Hv E Hq. cbn in Ht. bsplit.
    destruct kd as [|n|n len dflt].
    + destruct vs as [|v vs]; [discriminate|]. cbn in Hv, E |- *. bsplit.
      apply app_split in E; [|assumption]. destruct E as [(q1 & E1 & Hq1)|(p2 & -> & E2)].
      * eapply cut_uthen_l, IHt; eassumption.
      * rewrite unm_enc by assumption. cbn. rewrite bind_len_canon.
        eapply cut_umap, (IHr _ H0); eassumption.
    + destruct vs as [|[] vs']; try discriminate. cbn in Hv, E |- *. bsplit.
      apply N.eqb_eq in H2. subst n. rewrite Nat2N.id.
      assert (Hin : forall v, In v vs -> wf t v = true) by (intros; eapply forallb_In; eassumption).
      apply app_split in E; [|assumption]. destruct E as [(q1 & E1 & Hq1)|(p2 & -> & E2)].
      * eapply cut_uthen_l, (cut_arr _ (enc t) (canon t)); try eassumption.
        -- intros. apply unm_enc; auto.
        -- intros v' p' q' Hv' He' Hq'. apply (IHt H v' p' q'); auto.
      * rewrite (unm_arr_app _ _ (canon t)) by (intros; apply unm_enc; auto). cbn.
        eapply cut_umap, (IHr _ H0); eassumption.
    + destruct vs as [|[] vs']; try discriminate. cbn in Hv, E |- *. bsplit.
      unfold len_ok in H4. destruct (lookup_len len env) as [c|] eqn:Ec; [|discriminate].
      apply N.leb_le in H4. apply N.eqb_eq in H2.
      destruct (N.ltb_spec n (usize c)); [lia|].
      pose proof (counted_length _ _ _ _ _ Ec H4 H2) as Hl. rewrite <- Hl.
      assert (Hin : forall v, In v (counted len env vs) -> wf t v = true)
        by (intros; eapply forallb_In; [eassumption|eapply counted_In; eassumption]).
      apply app_split in E; [|assumption]. destruct E as [(q1 & E1 & Hq1)|(p2 & -> & E2)].
      * eapply cut_uthen_l, (cut_arr _ (enc t) (canon t)); try eassumption.
        -- intros. apply unm_enc; auto.
        -- intros v' p' q' Hv' He' Hq'. apply (IHt H v' p' q'); auto.
      * rewrite (unm_arr_app _ _ (canon t)) by (intros; apply unm_enc; auto). cbn.
        eapply cut_umap, (IHr _ H0); eassumption.
  - intros _ vs p q Hv E Hq. destruct vs; try discriminate. exfalso; eapply Hnil; eassumption.
  - intros t IHt rest IHr Ht vs p q Hv E Hq. destruct vs as [|v vs]; [discriminate|].
    cbn in *. bsplit.
    apply app_split in E; [|assumption]. destruct E as [(q1 & E1 & Hq1)|(p2 & -> & E2)].
    + eapply cut_uthen_l, IHt; eassumption.
    + rewrite unm_enc by assumption. cbn. eapply cut_umap, IHr; eassumption.
  - intros k _ sel args p q Hv. discriminate.
  - intros s ts IHt rest IHr k Ht sel args p q Hv E Hq. cbn in *. bsplit.
    destruct (Z.eqb_spec sel s); [eapply IHt|eapply (IHr k)]; eassumption.
Qed.
