(** The default values (C75).  The values are [zero_of] in Catalogue.v, where
    they also pre-fill arrays. *)
From Coq Require Import String ZArith NArith List Lia Bool.
From Coq Require Import Init.Byte.
From Verif Require Import Prelude Types Marshal WireSpec MarshalProofs WriteSpec MarshalWrite MarshalFacts
  Layout Catalogue Errors ListSpec Tpml TpmlFacts Tpm2b FixedFacts.
Import ListNotations.
Open Scope Z_scope.

(** Every union has a member: its first one is the default. *)
Fixpoint inhabited (t : ty) : bool :=
  match t with
  | TInt _ _ | TUnit | TBytes _ | TTpm2b _ => true
  | TNamed fs => inhabited_fields fs
  | TTuple ts => inhabited_tys ts
  | TEnum _ VNil => false
  | TEnum _ (VCons _ ts _) => inhabited_tys ts
  | TSplit _ _ _ VNil => false
  | TSplit pre _ mid (VCons _ ts _) => inhabited_tys pre && inhabited_tys mid && inhabited_tys ts
  end
with inhabited_fields (fs : fields) : bool :=
  match fs with
  | FNil => true
  | FCons _ (KLen _ _ _) _ rest => inhabited_fields rest
  | FCons _ _ t rest => inhabited t && inhabited_fields rest
  end
with inhabited_tys (ts : tys) : bool :=
  match ts with TNil => true | TCons t rest => inhabited t && inhabited_tys rest end.

(** All lengths bound so far are zero, and all of [names] are bound. *)
Definition zero_env (names : list string) (env : lenv) : Prop :=
  forall n, existsb (String.eqb n) names = true -> lookup_len n env = Some 0.

Lemma zero_env_bind names env name kd t :
  zero_env names env -> kd = KPlain ->
  zero_env (bind_name name kd t names) (bind_len name (zero_of t) env).
Proof.
  intros Z ->. destruct t; cbn [bind_name zero_of bind_len]; try exact Z.
  - intros n E. cbn [existsb lookup_len] in *. destruct (String.eqb n name); [reflexivity|]. exact (Z n E).
  - destruct vs; exact Z.
Qed.
Lemma forallb_repeat {A} (f : A -> bool) x n : f x = true -> forallb f (repeat x n) = true.
Proof. intros E. induction n; cbn; [reflexivity|]. now rewrite E. Qed.
Lemma map_repeat' {A B} (f : A -> B) x n : map f (repeat x n) = repeat (f x) n.
Proof. induction n; cbn; congruence. Qed.

Lemma zero_ok :
  (forall t, wf_ty t = true -> inhabited t = true ->
     wf t (zero_of t) = true /\ canonical t (zero_of t))
  /\ (forall fs names env, wf_ty_fields names fs = true -> inhabited_fields fs = true -> zero_env names env ->
     wf_fields env fs (zero_fields fs) = true /\ canon_fields env fs (zero_fields fs) = zero_fields fs)
  /\ (forall ts, wf_ty_tys ts = true -> inhabited_tys ts = true ->
     wf_tys ts (zero_tys ts) = true /\ canon_tys ts (zero_tys ts) = zero_tys ts)
  /\ (forall vrs k s ts rest, vrs = VCons s ts rest -> wf_ty_variants k vrs = true -> inhabited_tys ts = true ->
     wf_variant vrs s (zero_tys ts) = true /\ canon_variant vrs s (zero_tys ts) = zero_tys ts).
Proof.
  unfold canonical. apply ty_mutind.
  - intros sg k Ht _. split; [|reflexivity]. cbn [wf zero_of]. unfold wf_ty in Ht.
    unfold int_width in Ht. destruct sg; repeat (apply orb_true_iff in Ht as [Ht|Ht]); apply Nat.eqb_eq in Ht as ->; reflexivity.
  - auto.
  - intros n _ _. split; [|reflexivity]. cbn. rewrite repeat_length, N2Nat.id. apply N.eqb_refl.
  - intros fs IH Ht Hi. destruct (IH [] [] Ht Hi) as (A & B); [intros n E; discriminate|].
    cbn [wf zero_of canon]. rewrite A, B. auto.
  - intros ts IH Ht Hi. destruct (IH Ht Hi) as (A & B). cbn [wf zero_of canon]. rewrite A, B. auto.
  - intros k vrs IH Ht Hi. cbn [wf_ty] in Ht. apply andb_true_iff in Ht as (_ & Ht).
    destruct vrs as [|s ts rest]; [discriminate|].
    destruct (IH k s ts rest eq_refl Ht Hi) as (A & B). cbn [wf zero_of canon]. rewrite A, B. auto.
  - intros max _ _. cbn [wf zero_of canon]. rewrite repeat_length, N2Nat.id, N.eqb_refl.
    change (Z.to_N 0) with 0%N. change (Z.to_nat 0) with 0%nat. rewrite (proj2 (N.leb_le 0 max)) by lia.
    cbn [firstn app]. rewrite Nat.sub_0_r. auto.
  - intros pre IHp k mid IHm vrs IHv Ht Hi. cbn [wf_ty] in Ht.
    apply andb_true_iff in Ht as (Ht & Hv). apply andb_true_iff in Ht as (Ht & _). apply andb_true_iff in Ht as (Hp & Hm).
    destruct vrs as [|s ts rest]; [discriminate|]. cbn [inhabited] in Hi.
    apply andb_true_iff in Hi as (Hi & Hit). apply andb_true_iff in Hi as (Hip & Him).
    destruct (IHp Hp Hip) as (A & B). destruct (IHm Hm Him) as (C & D).
    destruct (IHv k s ts rest eq_refl Hv Hit) as (E & F).
    cbn [wf zero_of canon]. rewrite A, B, C, D, E, F. auto.
  - auto.
  - intros name kd t IHt fs IHfs names env Ht Hi Hz. cbn [wf_ty_fields] in Ht.
    apply andb_true_iff in Ht as (Ht & Hfs). apply andb_true_iff in Ht as (Ht & Hk).
    destruct kd as [|n|n len d]; cbn [inhabited_fields zero_fields wf_fields canon_fields] in *.
    + apply andb_true_iff in Hi as (Hi & Hif). destruct (IHt Ht Hi) as (A & B).
      destruct (IHfs _ _ Hfs Hif (zero_env_bind names env name KPlain t Hz eq_refl)) as (C & D).
      rewrite A, B, C, D. auto.
    + assert (E : bind_name name (KArr n) t names = names) by reflexivity. rewrite E in Hfs.
      apply andb_true_iff in Hi as (Hi & Hif). destruct (IHt Ht Hi) as (A & B).
      destruct (IHfs _ _ Hfs Hif Hz) as (C & D).
      rewrite repeat_length, N2Nat.id, N.eqb_refl, forallb_repeat, map_repeat', B, C, D by exact A. auto.
    + assert (E : bind_name name (KLen n len d) t names = names) by reflexivity. rewrite E in Hfs.
      destruct (IHfs _ _ Hfs Hi Hz) as (C & D). apply andb_true_iff in Hk as (Hn & Hd).
      unfold len_ok, counted. rewrite (Hz len Hn). change (usize 0) with 0%N.
      rewrite repeat_length, N2Nat.id, N.eqb_refl, (forallb_repeat _ _ _ Hd), C, D.
      rewrite (proj2 (N.leb_le 0 n)) by lia. cbn [firstn N.to_nat map app length]. rewrite Nat.sub_0_r. auto.
  - auto.
  - intros t IHt ts IHts Ht Hi. cbn [wf_ty_tys inhabited_tys] in *.
    apply andb_true_iff in Ht as (Ht & Hts). apply andb_true_iff in Hi as (Hi & His).
    destruct (IHt Ht Hi) as (A & B). destruct (IHts Hts His) as (C & D).
    cbn [zero_tys wf_tys canon_tys]. rewrite A, B, C, D. auto.
  - intros k s ts rest E. discriminate.
  - intros s0 ts0 IHts vrs _ k s ts rest E Ht Hi. injection E as -> -> ->. cbn [wf_ty_variants] in Ht.
    apply andb_true_iff in Ht as (Ht & _). apply andb_true_iff in Ht as (_ & Ht).
    cbn [wf_variant canon_variant]. rewrite Z.eqb_refl. exact (IHts Ht Hi).
Qed.

(** Without unions a default is zero bytes. *)
Fixpoint no_union (t : ty) : bool :=
  match t with
  | TInt _ _ | TUnit | TBytes _ | TTpm2b _ => true
  | TNamed fs => no_union_fields fs
  | TTuple ts => no_union_tys ts
  | TEnum _ _ | TSplit _ _ _ _ => false
  end
with no_union_fields (fs : fields) : bool :=
  match fs with
  | FNil => true
  | FCons _ (KLen _ _ _) _ rest => no_union_fields rest
  | FCons _ _ t rest => no_union t && no_union_fields rest
  end
with no_union_tys (ts : tys) : bool :=
  match ts with TNil => true | TCons t rest => no_union t && no_union_tys rest end.

Lemma no_union_inhabited :
  (forall t, no_union t = true -> inhabited t = true)
  /\ (forall fs, no_union_fields fs = true -> inhabited_fields fs = true)
  /\ (forall ts, no_union_tys ts = true -> inhabited_tys ts = true)
  /\ (forall vs : variants, True).
Proof.
  apply ty_mutind; try (intros; exact I); try reflexivity; try discriminate; auto.
  - intros name kd t IHt fs IHfs H. destruct kd; cbn in *; auto; apply andb_true_iff in H as (H1 & H2);
      rewrite IHt, IHfs by assumption; reflexivity.
  - intros t IHt ts IHts H. cbn in *. apply andb_true_iff in H as (H1 & H2).
    rewrite IHt, IHts by assumption. reflexivity.
Qed.

Definition zeros (l : list byte) : Prop := Forall (eq x00) l.
Lemma zeros_repeat n : zeros (repeat x00 n).
Proof. induction n; constructor; auto. Qed.
Lemma be_zeros k : zeros (be_bytes k 0).
Proof.
  induction k as [|k IH]; [constructor|]. cbn [be_bytes]. rewrite Z.div_0_l by lia. apply Forall_app. split; [exact IH|].
  constructor; [reflexivity|constructor].
Qed.
Lemma zeros_flat_map {A} (f : A -> list byte) x n : zeros (f x) -> zeros (flat_map f (repeat x n)).
Proof. intros Z. induction n; cbn; [constructor|]. apply Forall_app. auto. Qed.

Lemma zero_zeros :
  (forall t, wf_ty t = true -> no_union t = true -> zeros (enc t (zero_of t)))
  /\ (forall fs names env, wf_ty_fields names fs = true -> no_union_fields fs = true -> zero_env names env ->
        zeros (enc_fields env fs (zero_fields fs)))
  /\ (forall ts, wf_ty_tys ts = true -> no_union_tys ts = true -> zeros (enc_tys ts (zero_tys ts)))
  /\ (forall vs : variants, True).
Proof.
  apply ty_mutind.
  - intros sg k _ _. apply be_zeros.
  - constructor.
  - intros n _ _. apply zeros_repeat.
  - intros fs IH Ht Hn. apply (IH [] [] Ht Hn). intros n E. discriminate.
  - intros ts IH Ht Hn. exact (IH Ht Hn).
  - discriminate.
  - intros max _ _. cbn [enc zero_of]. apply Forall_app. split; [apply be_zeros|constructor].
  - discriminate.
  - constructor.
  - intros name kd t IHt fs IHfs names env Ht Hn Hz. cbn [wf_ty_fields] in Ht.
    apply andb_true_iff in Ht as (Ht & Hfs). apply andb_true_iff in Ht as (Ht & Hk).
    destruct kd as [|n|n len d]; cbn [no_union_fields zero_fields enc_fields] in *; apply Forall_app.
    + apply andb_true_iff in Hn as (Hn & Hnf). split; [exact (IHt Ht Hn)|].
      exact (IHfs _ _ Hfs Hnf (zero_env_bind names env name KPlain t Hz eq_refl)).
    + apply andb_true_iff in Hn as (Hn & Hnf). split; [apply zeros_flat_map; exact (IHt Ht Hn)|].
      exact (IHfs _ _ Hfs Hnf Hz).
    + apply andb_true_iff in Hk as (Hl & _). unfold counted. rewrite (Hz len Hl). split; [constructor|].
      exact (IHfs _ _ Hfs Hn Hz).
  - constructor.
  - intros t IHt ts IHts Ht Hn. cbn [wf_ty_tys no_union_tys zero_tys enc_tys] in *.
    apply andb_true_iff in Ht as (Ht & Hts). apply andb_true_iff in Hn as (Hn & Hns). apply Forall_app. split; [exact (IHt Ht Hn)|exact (IHts Hts Hns)].
  - exact I.
  - intros; exact I.
Qed.

(** ** C75 *)
(** The default value of every type: it is a value of the type, it marshals,
    and comes back from the wire as it was. *)
Theorem c75_valid t buf rest :
  In t base_types -> (N.to_nat (size_of t) <= length buf)%nat ->
  exists n, (n <= N.to_nat (size_of t))%nat
    /\ snd (marshal t (zero_of t) buf) = Ok n
    /\ unmarshal t (firstn n (fst (marshal t (zero_of t) buf)) ++ rest) = (Ok (zero_of t), rest).
Proof.
  intros Hb Hl. pose proof (base_type_wf t Hb) as Ht.
  assert (Hi : inhabited t = true).
  { assert (F : forallb inhabited base_types = true) by (vm_compute; reflexivity).
    rewrite forallb_forall in F. exact (F t Hb). }
  destruct (proj1 zero_ok t Ht Hi) as (Hw & Hc). pose proof (enc_size_of t _ Hw) as Hs.
  assert (Hn : (length (enc t (zero_of t)) <= N.to_nat (size_of t))%nat) by lia.
  exists (length (enc t (zero_of t))). split; [exact Hn|].
  rewrite marshal_fits by (try assumption; lia). cbn [fst snd]. split; [reflexivity|].
  rewrite firstn_overwrite, unm_enc by assumption. rewrite Hc. reflexivity.
Qed.

(** It is zeros on the wire if the type has no union (entries of lists do not
    count: there are none) ... *)
Theorem c75_zero_bytes t buf buf' n :
  wf_ty t = true -> no_union t = true ->
  marshal t (zero_of t) buf = (buf', Ok n) -> Forall (eq x00) (firstn n buf').
Proof.
  intros Ht Hn E. destruct (proj1 zero_ok t Ht (proj1 no_union_inhabited t Hn)) as (Hw & _).
  apply marshal_ok_inv in E; [|exact Hw]. destruct E as (_ & -> & ->). rewrite firstn_overwrite.
  apply (proj1 zero_zeros t Ht Hn).
Qed.
(** ... so that reading zeros gives it. *)
Theorem c75_from_zeros t buf buf' n rest :
  wf_ty t = true -> no_union t = true -> marshal t (zero_of t) buf = (buf', Ok n) ->
  unmarshal t (repeat x00 n ++ rest) = (Ok (zero_of t), rest).
Proof.
  intros Ht Hn M. destruct (proj1 zero_ok t Ht (proj1 no_union_inhabited t Hn)) as (Hw & Hc).
  apply marshal_ok_inv in M; [|exact Hw]. destruct M as (_ & -> & _).
  assert (E : repeat x00 (length (enc t (zero_of t))) = enc t (zero_of t)).
  { pose proof (proj1 zero_zeros t Ht Hn) as Z. unfold zeros in Z.
    induction Z as [|x l <- Z IH]; cbn; [reflexivity|]. now rewrite IH. }
  rewrite E, unm_enc by assumption. rewrite Hc. reflexivity.
Qed.

(** A sized buffer is empty, a list is empty: the same as made from nothing. *)
Theorem c75_empty :
  (forall max, Ok (zero_of (TTpm2b max)) = from_bytes max [])
  /\ (forall name cap t, In (name, cap, t) tpml_types ->
       exists x, tpml_new (N.to_nat cap) (zero_of t) [] = Ok x
         /\ zero_of (tpml name cap t) = val_of_tpml x
         /\ tpml_count x = 0%nat /\ tpml_elements (N.to_nat cap) x = Ok []).
Proof.
  split.
  - intros max. unfold from_bytes. cbn [length]. destruct (N.ltb_spec (N.min 65535 max) (N.of_nat 0)); [lia|]. reflexivity.
  - intros name cap t _. unfold tpml_new. cbn [length]. destruct (Nat.ltb_spec (N.to_nat cap) 0); [lia|].
    eexists. split; [reflexivity|]. split; [reflexivity|]. split; [reflexivity|].
    unfold tpml_elements. cbn [tpml_count count_ list_ Nat.min]. reflexivity.
Qed.

(** The default of TPMT_HA, the only union with one, is SHA-1 and twenty zeros
    (base/src/lib.rs:584-588). *)
Theorem c75_hash : zero_of TpmtHa = VEnum alg_SHA1 [VBytes (repeat x00 20)].
Proof. reflexivity. Qed.

(** *** The hypotheses can be met *)
Example c75_example :
  In TpmlAlgProperty base_types /\ no_union TpmlAlgProperty = true /\ no_union TpmsAuthCommand = true
  /\ no_union TpmlTaggedPolicy = true /\ no_union TpmtPublic = false
  /\ marshal TpmsAuthCommand (zero_of TpmsAuthCommand) (repeat xff 10)
     = (repeat x00 9 ++ [xff], Ok 9%nat)
  /\ zero_of TpmsTaggedPolicy = VStruct [VStruct [VInt 0]; VEnum 4 [VBytes (repeat x00 20)]].
Proof. split; [in_base|]. vm_compute. auto 10. Qed.
