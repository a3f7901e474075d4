(** Marshalling is [write_chunks], and its consequences. *)
From Coq Require Import String ZArith NArith List Lia Bool.
From Coq Require Import Init.Byte.
From Verif Require Import Prelude Types Marshal WireSpec MarshalProofs WriteSpec.
Import ListNotations.
Open Scope Z_scope.

Lemma mar_arr_chunks f g : (forall v b, f v b = write_chunks (g v) b) ->
  forall l cnt w buf, (w <= length buf)%nat ->
  mar_arr f cnt l w buf = write_at (chunks_arr g cnt l) w buf.
Proof.
  intros Hf. induction l as [|v l IH]; intros cnt w buf Hw; unfold chunks_arr; cbn [mar_arr].
  - destruct (N.eqb_spec cnt 0) as [->|Hc].
    + cbn. rewrite write_at_nil by assumption. reflexivity.
    + destruct (N.to_nat cnt) eqn:En; [lia|]. cbn [firstn flat_map app length].
      destruct (N.ltb_spec (N.of_nat 0) cnt); [|lia].
      unfold write_at. cbn. rewrite firstn_skipn. reflexivity.
  - destruct (N.eqb_spec cnt 0) as [->|Hc].
    + cbn. rewrite write_at_nil by assumption. reflexivity.
    + rewrite (mseq_write_at _ (g v)) by auto.
      replace (N.to_nat cnt) with (S (N.to_nat (cnt - 1))) by lia.
      cbn [firstn flat_map]. rewrite <- app_assoc.
      apply mthen_write_at; [assumption|]. intros w' b Hw'.
      rewrite IH by assumption. unfold chunks_arr. do 3 f_equal.
      cbn [length]. destruct (N.ltb_spec (N.of_nat (length l)) (cnt - 1));
        destruct (N.ltb_spec (N.of_nat (S (length l))) cnt); try reflexivity; lia.
Qed.

Lemma write_abort w buf : (w <= length buf)%nat -> (buf, Panic) = write_at [Abort] w buf.
Proof. intros. unfold write_at. cbn. rewrite firstn_skipn. reflexivity. Qed.

Theorem marshal_chunks_all :
  (forall t v buf, marshal t v buf = write_chunks (chunks t v) buf)
  /\ (forall fs env vs w buf, (w <= length buf)%nat ->
      marshal_fields env fs vs w buf = write_at (chunks_fields env fs vs) w buf)
  /\ (forall ts vs w buf, (w <= length buf)%nat ->
      marshal_tys ts vs w buf = write_at (chunks_tys ts vs) w buf)
  /\ (forall vrs sel args buf,
      marshal_variant vrs sel args buf = write_chunks (chunks_variant vrs sel args) buf).
Proof.
  apply ty_mutind.
  - intros sg k v buf. destruct v; try reflexivity. cbn [marshal chunks]. apply mar_int_chunks.
  - intros v buf. destruct v; reflexivity.
  - intros n v buf. destruct v; try reflexivity. cbn [marshal chunks]. apply mar_bytes_chunks.
  - intros fs IH v buf. destruct v; try reflexivity. cbn [marshal chunks].
    rewrite IH by lia. apply write_at_0.
  - intros ts IH v buf. destruct v; try reflexivity. cbn [marshal chunks].
    rewrite IH by lia. apply write_at_0.
  - intros k vrs IH v buf. destruct v; try reflexivity. cbn [marshal chunks].
    rewrite (mseq_write_at _ [Plain (be_bytes k sel)]) by (intros; try apply mar_int_chunks; lia).
    rewrite (mthen_write_at _ (chunks_variant vrs sel args)).
    + apply write_at_0.
    + lia.
    + intros. apply mseq_write_at; auto.
  - intros max v buf. destruct v; try reflexivity. cbn [marshal chunks]. apply mar_tpm2b_chunks.
  - intros pre IHp k mid IHm vrs IHv v buf.
    destruct v; try reflexivity.
    destruct vs as [|[] [|[] [|[] [|]]]]; try reflexivity.
    cbn [marshal chunks].
    rewrite IHp by lia.
    rewrite (mthen_write_at _ (Plain (be_bytes k sel) :: chunks_tys mid vs0 ++ chunks_variant vrs sel args)).
    + apply write_at_0.
    + lia.
    + intros w b Hw.
      rewrite (mseq_write_at _ [Plain (be_bytes k sel)]) by (intros; try apply mar_int_chunks; lia).
      rewrite (mthen_write_at _ (chunks_tys mid vs0 ++ chunks_variant vrs sel args)); [reflexivity|assumption|].
      intros w1 b1 Hw1. rewrite IHm by assumption.
      apply mthen_write_at; [assumption|]. intros. apply mseq_write_at; auto.
  - intros env vs w buf Hw. destruct vs.
    + cbn. rewrite write_at_nil by assumption. reflexivity.
    + apply write_abort. assumption.
  - intros name kd t IHt rest IHr env vs w buf Hw.
    destruct kd as [|n|n len dflt].
    + destruct vs as [|v vs]; [apply write_abort; assumption|]. cbn [marshal_fields chunks_fields].
      rewrite (mseq_write_at _ (chunks t v)) by auto.
      apply mthen_write_at; [assumption|]. intros. apply IHr. assumption.
    + destruct vs as [|[] vs]; try (apply write_abort; assumption).
      cbn [marshal_fields chunks_fields].
      rewrite (mar_arr_chunks _ (chunks t)) by auto.
      apply mthen_write_at; [assumption|]. intros. apply IHr. assumption.
    + destruct vs as [|[] vs]; try (apply write_abort; assumption).
      cbn [marshal_fields chunks_fields].
      destruct (lookup_len len env) as [c|]; [|apply write_abort; assumption].
      rewrite (mar_arr_chunks _ (chunks t)) by auto.
      apply mthen_write_at; [assumption|]. intros. apply IHr. assumption.
  - intros vs w buf Hw. destruct vs.
    + cbn. rewrite write_at_nil by assumption. reflexivity.
    + apply write_abort. assumption.
  - intros t IHt rest IHr vs w buf Hw.
    destruct vs as [|v vs]; [apply write_abort; assumption|]. cbn [marshal_tys chunks_tys].
    rewrite (mseq_write_at _ (chunks t v)) by auto.
    apply mthen_write_at; [assumption|]. intros. apply IHr. assumption.
  - intros sel args buf. reflexivity.
  - intros s ts IHt rest IHr sel args buf. cbn [marshal_variant chunks_variant].
    destruct (sel =? s); [|apply IHr]. rewrite IHt by lia. apply write_at_0.
Qed.

Theorem marshal_chunks t v buf : marshal t v buf = write_chunks (chunks t v) buf.
Proof. apply marshal_chunks_all. Qed.

(** ** Well-formed values have only data chunks, making up the encoding *)

Definition chunk_bytes (c : chunk) : list byte :=
  match c with Plain bs | Payload bs => bs | _ => [] end.
Definition is_data (c : chunk) : bool :=
  match c with Plain _ | Payload _ => true | _ => false end.
Definition is_payload (c : chunk) : bool :=
  match c with Payload _ => true | _ => false end.
Definition bytes_of (l : list chunk) : list byte := flat_map chunk_bytes l.

Lemma bytes_of_app a b : bytes_of (a ++ b) = bytes_of a ++ bytes_of b.
Proof. apply flat_map_app. Qed.

Lemma chunks_arr_enc f (e : val -> list byte) (P : val -> Prop) n l :
  (forall v, In v l -> forallb is_data (f v) = true /\ bytes_of (f v) = e v) ->
  (n <= N.of_nat (length l))%N ->
  forallb is_data (chunks_arr f n l) = true
  /\ bytes_of (chunks_arr f n l) = flat_map e (firstn (N.to_nat n) l).
Proof.
  intros H Hn. unfold chunks_arr.
  destruct (N.ltb_spec (N.of_nat (length l)) n); [lia|]. rewrite app_nil_r.
  assert (H' : forall v, In v (firstn (N.to_nat n) l) ->
             forallb is_data (f v) = true /\ bytes_of (f v) = e v).
  { intros v Hv. apply H. rewrite <- (firstn_skipn (N.to_nat n) l). apply in_or_app. auto. }
  clear H H0 Hn. induction (firstn (N.to_nat n) l) as [|v l' IH]; [auto|].
  cbn [flat_map]. rewrite forallb_app, bytes_of_app.
  destruct (H' v (or_introl eq_refl)) as [-> ->].
  destruct IH as [-> ->]; [|auto]. intros. apply H'. right. assumption.
Qed.

Theorem chunks_enc_all :
  (forall t v, wf t v = true -> forallb is_data (chunks t v) = true /\ bytes_of (chunks t v) = enc t v)
  /\ (forall fs env vs, wf_fields env fs vs = true ->
      forallb is_data (chunks_fields env fs vs) = true
      /\ bytes_of (chunks_fields env fs vs) = enc_fields env fs vs)
  /\ (forall ts vs, wf_tys ts vs = true ->
      forallb is_data (chunks_tys ts vs) = true /\ bytes_of (chunks_tys ts vs) = enc_tys ts vs)
  /\ (forall vrs sel args, wf_variant vrs sel args = true ->
      forallb is_data (chunks_variant vrs sel args) = true
      /\ bytes_of (chunks_variant vrs sel args) = enc_variant vrs sel args).
Proof.
  apply ty_mutind.
  - intros sg k v Hv. destruct v; try discriminate. cbn. rewrite app_nil_r. auto.
  - intros v Hv. destruct v; try discriminate. auto.
  - intros n v Hv. destruct v; try discriminate. cbn. rewrite app_nil_r. auto.
  - intros fs IH v Hv. destruct v; try discriminate. apply IH. assumption.
  - intros ts IH v Hv. destruct v; try discriminate. apply IH. assumption.
  - intros k vrs IH v Hv. destruct v; try discriminate. cbn in *.
    destruct (IH _ _ Hv) as [-> <-]. auto.
  - intros max v Hv. destruct v; try discriminate. cbn [wf chunks enc] in *. bsplit.
    apply in_range_u16 in H. apply N.leb_le in H1. apply N.eqb_eq in H0.
    unfold chunks_tpm2b. rewrite Z.mod_small by lia.
    destruct (N.ltb_spec max (Z.to_N size)); [lia|].
    destruct (N.ltb_spec (N.of_nat (length buf)) (Z.to_N size)); [lia|].
    split; [reflexivity|]. unfold bytes_of. cbn [flat_map chunk_bytes].
    rewrite app_nil_r, Z_N_nat. reflexivity.
  - intros pre IHp k mid IHm vrs IHv v Hv.
    destruct v; try discriminate.
    destruct vs as [|[] [|[] [|[] [|]]]]; try discriminate.
    cbn in *. bsplit.
    destruct (IHp _ H) as [E1 E2], (IHm _ H1) as [E3 E4], (IHv _ _ H0) as [E5 E6].
    rewrite forallb_app. cbn. rewrite forallb_app, E1, E3, E5.
    rewrite bytes_of_app. cbn. rewrite bytes_of_app, E2, E4, E6. auto.
  - intros env vs Hv. destruct vs; try discriminate. auto.
  - intros name kd t IHt rest IHr env vs Hv.
    destruct kd as [|n|n len dflt].
    + destruct vs as [|v vs]; [discriminate|]. cbn in *. bsplit.
      destruct (IHt _ H) as [E1 E2], (IHr _ _ H0) as [E3 E4].
      rewrite forallb_app, bytes_of_app, E1, E2, E3, E4. auto.
    + destruct vs as [|[] vs]; try discriminate. cbn in *. bsplit.
      destruct (IHr _ _ H0) as [E3 E4]. apply N.eqb_eq in H.
      destruct (chunks_arr_enc (chunks t) (enc t) (fun _ => True) n vs0) as [E1 E2].
      { intros. apply IHt. eapply forallb_In; eassumption. } { lia. }
      rewrite forallb_app, bytes_of_app, E1, E2, E3, E4.
      rewrite firstn_all2 by lia. auto.
    + destruct vs as [|[] vs]; try discriminate. cbn in *. bsplit.
      destruct (IHr _ _ H0) as [E3 E4]. apply N.eqb_eq in H.
      unfold len_ok, counted in *. destruct (lookup_len len env) as [c|]; [|discriminate].
      apply N.leb_le in H1.
      destruct (chunks_arr_enc (chunks t) (enc t) (fun _ => True) (usize c) vs0) as [E1 E2].
      { intros. apply IHt. eapply forallb_In; eassumption. } { lia. }
      rewrite forallb_app, bytes_of_app, E1, E2, E3, E4. auto.
  - intros vs Hv. destruct vs; try discriminate. auto.
  - intros t IHt rest IHr vs Hv. destruct vs as [|v vs]; [discriminate|]. cbn in *. bsplit.
    destruct (IHt _ H) as [E1 E2], (IHr _ H0) as [E3 E4].
    rewrite forallb_app, bytes_of_app, E1, E2, E3, E4. auto.
  - intros sel args Hv. discriminate.
  - intros s ts IHt rest IHr sel args Hv. cbn in *.
    destruct (sel =? s); [apply IHt|apply IHr]; assumption.
Qed.

(** ** Consequences *)

(** Enough room. *)
Lemma write_chunks_fits l : forall buf, forallb is_data l = true ->
  (length (bytes_of l) <= length buf)%nat ->
  write_chunks l buf = (overwrite (bytes_of l) buf, Ok (length (bytes_of l))).
Proof.
  induction l as [|c l IH]; intros buf Hd Hl; cbn [write_chunks]; [reflexivity|].
  cbn [forallb] in Hd. bsplit.
  destruct c as [bs|bs|n|]; try discriminate.
  all: unfold bytes_of in *; cbn [flat_map chunk_bytes] in *; rewrite app_length in Hl;
    destruct (Nat.leb_spec (length bs) (length buf)); [|lia];
    rewrite IH by (try rewrite skipn_length; auto; lia); cbn [omap];
    unfold overwrite; rewrite app_length, skipn_skipn', app_assoc; reflexivity.
Qed.

(** Not enough room: the chunks before the first one that does not fit are
    written; an ordinary chunk gives an error, a payload a panic. *)
Lemma write_chunks_short l : forall buf, forallb is_data l = true ->
  (length buf < length (bytes_of l))%nat ->
  exists pre c post, l = pre ++ c :: post
    /\ (length (bytes_of pre) <= length buf < length (bytes_of pre) + length (chunk_bytes c))%nat
    /\ write_chunks l buf
       = (overwrite (bytes_of pre) buf, if is_payload c then Panic else Err UnexpectedEndOfBuffer).
Proof.
  induction l as [|c l IH]; intros buf Hd Hl; [cbn in Hl; lia|].
  cbn [forallb] in Hd. bsplit.
  destruct (le_lt_dec (length (chunk_bytes c)) (length buf)) as [Hc|Hc].
  - destruct (IH (skipn (length (chunk_bytes c)) buf)) as (pre & c' & post & -> & Hb & E).
    + assumption.
    + unfold bytes_of in *. cbn [flat_map] in Hl. rewrite app_length in Hl. rewrite skipn_length. lia.
    + exists (c :: pre), c', post. split; [reflexivity|].
      unfold bytes_of in *. cbn [flat_map]. rewrite app_length, skipn_length in *. split; [lia|].
      destruct c as [bs|bs|n|]; try discriminate; cbn [write_chunks chunk_bytes] in *;
      (destruct (Nat.leb_spec (length bs) (length buf)); [|lia]); rewrite E;
      unfold overwrite; rewrite app_length, skipn_skipn', app_assoc;
      destruct (is_payload c'); reflexivity.
  - exists [], c, l. split; [reflexivity|]. split; [cbn; lia|].
    destruct c as [bs|bs|n|]; try discriminate; cbn [write_chunks chunk_bytes is_payload] in *;
      (destruct (Nat.leb_spec (length bs) (length buf)); [lia|]); reflexivity.
Qed.

Theorem marshal_fits t v buf : wf t v = true -> (length (enc t v) <= length buf)%nat ->
  marshal t v buf = (overwrite (enc t v) buf, Ok (length (enc t v))).
Proof.
  intros Hv Hl. destruct (proj1 chunks_enc_all t v Hv) as [Hd Hb].
  rewrite marshal_chunks, write_chunks_fits by (rewrite ?Hb; assumption).
  rewrite Hb. reflexivity.
Qed.

Theorem marshal_short t v buf : wf t v = true -> (length buf < length (enc t v))%nat ->
  exists pre c post, chunks t v = pre ++ c :: post
    /\ (length (bytes_of pre) <= length buf < length (bytes_of pre) + length (chunk_bytes c))%nat
    /\ marshal t v buf
       = (overwrite (bytes_of pre) buf, if is_payload c then Panic else Err UnexpectedEndOfBuffer).
Proof.
  intros Hv Hl. destruct (proj1 chunks_enc_all t v Hv) as [Hd Hb].
  rewrite marshal_chunks. apply write_chunks_short; [assumption|rewrite Hb; assumption].
Qed.

(** The decomposition of [marshal_short] is unique, so it decides the outcome. *)
Lemma short_unique pre1 c1 post1 pre2 c2 post2 n :
  pre1 ++ c1 :: post1 = pre2 ++ c2 :: post2 ->
  (length (bytes_of pre1) <= n < length (bytes_of pre1) + length (chunk_bytes c1))%nat ->
  (length (bytes_of pre2) <= n < length (bytes_of pre2) + length (chunk_bytes c2))%nat ->
  pre1 = pre2 /\ c1 = c2.
Proof.
  revert pre2 n. induction pre1 as [|d pre1 IH]; intros [|d' pre2] n E H1 H2; cbn in E.
  - injection E as -> _. auto.
  - injection E as -> _. unfold bytes_of in *. cbn [flat_map] in *. rewrite app_length in H2. cbn in H1. lia.
  - injection E as <- _. unfold bytes_of in *. cbn [flat_map] in *. rewrite app_length in H1. cbn in H2. lia.
  - injection E as <- E. unfold bytes_of in *. cbn [flat_map] in *. rewrite app_length in H1, H2.
    destruct (IH pre2 (n - length (chunk_bytes d))%nat E) as [-> ->]; [lia|lia|auto].
Qed.

(** Types without sized buffers. *)
Fixpoint no_sized (t : ty) : bool :=
  match t with
  | TInt _ _ | TUnit | TBytes _ => true
  | TTpm2b _ => false
  | TNamed fs => no_sized_fields fs
  | TTuple ts => no_sized_tys ts
  | TEnum _ vrs => no_sized_variants vrs
  | TSplit pre _ mid vrs => no_sized_tys pre && no_sized_tys mid && no_sized_variants vrs
  end
with no_sized_fields (fs : fields) : bool :=
  match fs with FNil => true | FCons _ _ t rest => no_sized t && no_sized_fields rest end
with no_sized_tys (ts : tys) : bool :=
  match ts with TNil => true | TCons t rest => no_sized t && no_sized_tys rest end
with no_sized_variants (vrs : variants) : bool :=
  match vrs with VNil => true | VCons _ ts rest => no_sized_tys ts && no_sized_variants rest end.

Definition no_payload (l : list chunk) : bool := forallb (fun c => negb (is_payload c)) l.

Lemma no_payload_arr f n l : (forall v, no_payload (f v) = true) -> no_payload (chunks_arr f n l) = true.
Proof.
  intros H. unfold chunks_arr, no_payload. rewrite forallb_app. apply andb_true_iff. split.
  - induction (firstn (N.to_nat n) l); cbn; [reflexivity|]. rewrite forallb_app, IHl0.
    fold (no_payload (f a)). rewrite H. reflexivity.
  - destruct (N.of_nat (length l) <? n)%N; reflexivity.
Qed.

Theorem no_sized_all :
  (forall t, no_sized t = true -> forall v, no_payload (chunks t v) = true)
  /\ (forall fs, no_sized_fields fs = true -> forall env vs, no_payload (chunks_fields env fs vs) = true)
  /\ (forall ts, no_sized_tys ts = true -> forall vs, no_payload (chunks_tys ts vs) = true)
  /\ (forall vrs, no_sized_variants vrs = true -> forall sel args,
      no_payload (chunks_variant vrs sel args) = true).
Proof.
  unfold no_payload. apply ty_mutind.
  - intros sg k _ v. destruct v; reflexivity.
  - intros _ v. destruct v; reflexivity.
  - intros n _ v. destruct v; reflexivity.
  - intros fs IH H v. destruct v; try reflexivity. apply IH. assumption.
  - intros ts IH H v. destruct v; try reflexivity. apply IH. assumption.
  - intros k vrs IH H v. destruct v; try reflexivity. apply IH. assumption.
  - discriminate.
  - intros pre IHp k mid IHm vrs IHv H v. cbn in H. bsplit. destruct v; try reflexivity.
    destruct vs as [|[] [|[] [|[] [|]]]]; try reflexivity. cbn [chunks].
    rewrite forallb_app. cbn. rewrite forallb_app, IHp, IHm, IHv by assumption. reflexivity.
  - intros _ env vs. destruct vs; reflexivity.
  - intros name kd t IHt rest IHr H env vs. cbn in H. bsplit.
    destruct kd as [|n|n len dflt].
    + destruct vs as [|v vs]; [reflexivity|]. cbn. rewrite forallb_app, IHt, IHr by assumption. reflexivity.
    + destruct vs as [|[] vs]; try reflexivity. cbn. rewrite forallb_app, IHr by assumption.
      rewrite andb_true_r. apply no_payload_arr. intros. apply IHt. assumption.
    + destruct vs as [|[] vs]; try reflexivity. cbn. destruct (lookup_len len env); [|reflexivity].
      rewrite forallb_app, IHr by assumption.
      rewrite andb_true_r. apply no_payload_arr. intros. apply IHt. assumption.
  - intros _ vs. destruct vs; reflexivity.
  - intros t IHt rest IHr H vs. cbn in H. bsplit. destruct vs as [|v vs]; [reflexivity|].
    cbn. rewrite forallb_app, IHt, IHr by assumption. reflexivity.
  - reflexivity.
  - intros s ts IHt rest IHr H sel args. cbn in *. bsplit.
    destruct (sel =? s); [apply IHt|apply IHr]; assumption.
Qed.
