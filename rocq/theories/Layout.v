(** [core::mem::size_of] and [align_of] of the described types, and the bound
    of encodings by it. *)
From Coq Require Import String ZArith NArith List Lia Bool.
From Coq Require Import Init.Byte.
From Verif Require Import Prelude Types WireSpec MarshalProofs.
Import ListNotations.
Open Scope N_scope.

(** Rounding up to a multiple of the alignment (Rust reference, "The C
    representation"). *)
Definition align_up (x a : N) : N := let a := N.max 1 a in (x + a - 1) / a * a.

(** Layout of [repr(C)] types on a 64-bit target: fields in declaration order,
    each at the next multiple of its alignment; a [repr(C, uN)] enum is a
    [repr(C)] struct of the tag and the union of the variants' structs.
    All structs of base/src/lib.rs with size_of-dependent constants are
    [repr(C)] or [repr(transparent)]; open_enums are transparent newtypes.
    Returned: size and alignment. *)
Definition kmul (kd : kind) (x : N) : N :=
  match kd with KPlain => x | KArr n | KLen n _ _ => n * x end.

Fixpoint layout (t : ty) : N * N :=
  match t with
  | TInt _ k => (N.of_nat k, N.of_nat k)
  | TUnit => (0, 1)
  | TBytes n => (n, 1)
  | TNamed fs => let '(off, al) := layout_fields fs 0 1 in (align_up off al, al)
  | TTuple ts => let '(off, al) := layout_tys ts 0 1 in (align_up off al, al)
  | TEnum k vrs =>
      let '(usz, ual) := layout_variants vrs in
      let al := N.max (N.of_nat k) ual in
      (align_up (align_up (N.of_nat k) ual + align_up usz ual) al, al)
  | TTpm2b max => (align_up (2 + max) 2, 2)
  | TSplit pre k mid vrs =>
      let '(off1, al1) := layout_tys pre 0 1 in
      let '(off2, al2) := layout_tys mid off1 al1 in
      let '(usz, ual) := layout_variants vrs in
      let eal := N.max (N.of_nat k) ual in
      let esz := align_up (align_up (N.of_nat k) ual + align_up usz ual) eal in
      let al := N.max al2 eal in
      (align_up (align_up off2 eal + esz) al, al)
  end
with layout_fields (fs : fields) (off al : N) : N * N :=
  match fs with
  | FNil => (off, al)
  | FCons _ kd t rest =>
      let '(sz, a) := layout t in
      layout_fields rest (align_up off a + kmul kd sz) (N.max al a)
  end
with layout_tys (ts : tys) (off al : N) : N * N :=
  match ts with
  | TNil => (off, al)
  | TCons t rest =>
      let '(sz, a) := layout t in layout_tys rest (align_up off a + sz) (N.max al a)
  end
with layout_variants (vrs : variants) : N * N :=
  match vrs with
  | VNil => (0, 1)
  | VCons _ ts rest =>
      let '(off, al) := layout_tys ts 0 1 in
      let '(sz, al') := layout_variants rest in
      (N.max (align_up off al) sz, N.max al al')
  end.

Definition size_of (t : ty) : N := fst (layout t).

(** Longest wire encoding of a type. *)
Fixpoint max_enc (t : ty) : N :=
  match t with
  | TInt _ k => N.of_nat k
  | TUnit => 0
  | TBytes n => n
  | TNamed fs => max_enc_fields fs
  | TTuple ts => max_enc_tys ts
  | TEnum k vrs => N.of_nat k + max_enc_variants vrs
  | TTpm2b max => 2 + max
  | TSplit pre k mid vrs =>
      max_enc_tys pre + N.of_nat k + max_enc_tys mid + max_enc_variants vrs
  end
with max_enc_fields (fs : fields) : N :=
  match fs with FNil => 0 | FCons _ kd t rest => kmul kd (max_enc t) + max_enc_fields rest end
with max_enc_tys (ts : tys) : N :=
  match ts with TNil => 0 | TCons t rest => max_enc t + max_enc_tys rest end
with max_enc_variants (vrs : variants) : N :=
  match vrs with VNil => 0 | VCons _ ts rest => N.max (max_enc_tys ts) (max_enc_variants rest) end.

Lemma align_up_ge x a : x <= align_up x a.
Proof.
  unfold align_up. set (b := N.max 1 a). assert (0 < b) by lia. clearbody b.
  pose proof (N.div_mod' (x + b - 1) b). pose proof (N.mod_lt (x + b - 1) b). nia.
Qed.

Lemma flat_map_max (e : val -> list byte) m l :
  (forall v, In v l -> N.of_nat (length (e v)) <= m) ->
  N.of_nat (length (flat_map e l)) <= N.of_nat (length l) * m.
Proof.
  induction l as [|v l IH]; intros H; cbn [flat_map length]; [lia|].
  rewrite app_length. pose proof (H v (or_introl eq_refl)).
  assert (N.of_nat (length (flat_map e l)) <= N.of_nat (length l) * m) by (apply IH; intros; apply H; right; assumption).
  nia.
Qed.

Theorem enc_max_all :
  (forall t v, wf t v = true -> N.of_nat (length (enc t v)) <= max_enc t)
  /\ (forall fs env vs, wf_fields env fs vs = true ->
      N.of_nat (length (enc_fields env fs vs)) <= max_enc_fields fs)
  /\ (forall ts vs, wf_tys ts vs = true -> N.of_nat (length (enc_tys ts vs)) <= max_enc_tys ts)
  /\ (forall vrs sel args, wf_variant vrs sel args = true ->
      N.of_nat (length (enc_variant vrs sel args)) <= max_enc_variants vrs).
Proof.
  apply ty_mutind.
  - intros sg k v Hv. destruct v; try discriminate. cbn. rewrite be_bytes_length. lia.
  - intros v Hv. destruct v; try discriminate; cbn; lia.
  - intros n v Hv. destruct v; try discriminate. cbn in *. apply N.eqb_eq in Hv. lia.
  - intros fs IH v Hv. destruct v; try discriminate. apply IH. assumption.
  - intros ts IH v Hv. destruct v; try discriminate. apply IH. assumption.
  - intros k vrs IH v Hv. destruct v; try discriminate. cbn in *.
    rewrite app_length, be_bytes_length. specialize (IH _ _ Hv). lia.
  - intros max v Hv. destruct v; try discriminate. cbn [wf enc max_enc] in *. bsplit.
    rewrite app_length, be_bytes_length, firstn_length.
    apply N.leb_le in H1. lia.
  - intros pre IHp k mid IHm vrs IHv v Hv.
    destruct v; try discriminate.
    destruct vs as [|[] [|[] [|[] [|]]]]; try discriminate.
    cbn in *. bsplit. rewrite !app_length, be_bytes_length.
    specialize (IHp _ H). specialize (IHm _ H1). specialize (IHv _ _ H0). lia.
  - intros env vs Hv. destruct vs; try discriminate; cbn; lia.
  - intros name kd t IHt rest IHr env vs Hv. cbn [max_enc_fields].
    destruct kd as [|n|n len dflt].
    + destruct vs as [|v vs]; [discriminate|]. cbn in *. bsplit.
      rewrite app_length. specialize (IHt _ H). specialize (IHr _ _ H0). lia.
    + destruct vs as [|[] vs]; try discriminate. cbn in *. bsplit.
      rewrite app_length. specialize (IHr _ _ H0). apply N.eqb_eq in H.
      pose proof (flat_map_max (enc t) (max_enc t) vs0) as Hm.
      rewrite H in Hm. rewrite Nat2N.inj_add.
      apply N.add_le_mono; [|assumption]. apply Hm.
      intros. apply IHt. eapply forallb_In; eassumption.
    + destruct vs as [|[] vs]; try discriminate. cbn in *. bsplit.
      rewrite app_length. specialize (IHr _ _ H0). apply N.eqb_eq in H.
      pose proof (flat_map_max (enc t) (max_enc t) (counted len env vs0)) as Hm.
      assert (Hc : N.of_nat (length (counted len env vs0)) <= n).
      { unfold counted. destruct (lookup_len len env); [rewrite firstn_length; lia|cbn; lia]. }
      rewrite Nat2N.inj_add. apply N.add_le_mono; [|assumption].
      etransitivity; [apply Hm|].
      * intros. apply IHt. eapply forallb_In; [eassumption|eapply counted_In; eassumption].
      * apply N.mul_le_mono_r. assumption.
  - intros vs Hv. destruct vs; try discriminate; cbn; lia.
  - intros t IHt rest IHr vs Hv. destruct vs as [|v vs]; [discriminate|]. cbn in *. bsplit.
    rewrite app_length. specialize (IHt _ H). specialize (IHr _ H0). lia.
  - intros sel args Hv. discriminate.
  - intros s ts IHt rest IHr sel args Hv. cbn in *.
    destruct (sel =? s)%Z; [specialize (IHt _ Hv)|specialize (IHr _ _ Hv)]; lia.
Qed.

Theorem max_size_all :
  (forall t, max_enc t <= fst (layout t))
  /\ (forall fs off al, off + max_enc_fields fs <= fst (layout_fields fs off al))
  /\ (forall ts off al, off + max_enc_tys ts <= fst (layout_tys ts off al))
  /\ (forall vrs, max_enc_variants vrs <= fst (layout_variants vrs)).
Proof.
  apply ty_mutind.
  - intros. cbn. lia.
  - cbn. lia.
  - intros. cbn. lia.
  - intros fs IH. cbn. specialize (IH 0 1). destruct (layout_fields fs 0 1) as [off al]. cbn in *.
    pose proof (align_up_ge off al). lia.
  - intros ts IH. cbn. specialize (IH 0 1). destruct (layout_tys ts 0 1) as [off al]. cbn in *.
    pose proof (align_up_ge off al). lia.
  - intros k vrs IH. cbn. destruct (layout_variants vrs) as [usz ual]. cbn in *.
    pose proof (align_up_ge usz ual). pose proof (align_up_ge (N.of_nat k) ual).
    pose proof (align_up_ge (align_up (N.of_nat k) ual + align_up usz ual) (N.max (N.of_nat k) ual)).
    lia.
  - intros max. cbn [max_enc layout fst]. apply align_up_ge.
  - intros pre IHp k mid IHm vrs IHv. cbn.
    specialize (IHp 0 1). destruct (layout_tys pre 0 1) as [off1 al1].
    specialize (IHm off1 al1). destruct (layout_tys mid off1 al1) as [off2 al2].
    destruct (layout_variants vrs) as [usz ual]. cbn [fst] in *.
    set (eal := N.max (N.of_nat k) ual).
    pose proof (align_up_ge usz ual). pose proof (align_up_ge (N.of_nat k) ual).
    pose proof (align_up_ge (align_up (N.of_nat k) ual + align_up usz ual) eal).
    set (esz := align_up (align_up (N.of_nat k) ual + align_up usz ual) eal) in *.
    pose proof (align_up_ge off2 eal).
    pose proof (align_up_ge (align_up off2 eal + esz) (N.max al2 eal)). lia.
  - intros off al. cbn. lia.
  - intros name kd t IHt rest IHr off al. cbn.
    destruct (layout t) as [sz a]. cbn in IHt.
    specialize (IHr (align_up off a + kmul kd sz) (N.max al a)).
    pose proof (align_up_ge off a).
    assert (kmul kd (max_enc t) <= kmul kd sz) by (destruct kd; cbn; [lia|nia|nia]). lia.
  - intros off al. cbn. lia.
  - intros t IHt rest IHr off al. cbn.
    destruct (layout t) as [sz a]. cbn in IHt.
    specialize (IHr (align_up off a + sz) (N.max al a)).
    pose proof (align_up_ge off a). lia.
  - cbn. lia.
  - intros s ts IHt rest IHr. cbn.
    specialize (IHt 0 1). destruct (layout_tys ts 0 1) as [off al].
    destruct (layout_variants rest) as [sz al']. cbn in *.
    pose proof (align_up_ge off al). lia.
Qed.

Theorem enc_size_of t v : wf t v = true -> N.of_nat (length (enc t v)) <= size_of t.
Proof.
  intros H. etransitivity; [apply enc_max_all; assumption|]. apply max_size_all.
Qed.
