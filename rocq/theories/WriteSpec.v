(** Specification of what marshalling does to the destination buffer.

    An encoding is a sequence of chunks.  A chunk is written completely or not
    at all; the first chunk that does not fit ends the call, with
    [UnexpectedEndOfBuffer] for an ordinary chunk and with a panic for the
    payload of a sized buffer (marshalable-derive/src/lib.rs:281-284). *)
From Coq Require Import String ZArith NArith List Lia Bool.
From Coq Require Import Init.Byte.
From Verif Require Import Prelude Types Marshal WireSpec MarshalProofs.
Import ListNotations.
Open Scope Z_scope.

Inductive chunk : Type :=
| Plain (bs : list byte)      (* error when it does not fit *)
| Payload (bs : list byte)    (* panic when it does not fit *)
| Oversized (n : N)           (* sized buffer with size > max: error when it does not fit, else panic *)
| Abort.                      (* index out of range *)

Fixpoint write_chunks (l : list chunk) (buf : list byte) : mres :=
  match l with
  | [] => (buf, Ok 0%nat)
  | Plain bs :: l' =>
      if (length bs <=? length buf)%nat
      then let '(b, r) := write_chunks l' (skipn (length bs) buf) in
           (bs ++ b, omap (fun n => length bs + n)%nat r)
      else (buf, Err UnexpectedEndOfBuffer)
  | Payload bs :: l' =>
      if (length bs <=? length buf)%nat
      then let '(b, r) := write_chunks l' (skipn (length bs) buf) in
           (bs ++ b, omap (fun n => length bs + n)%nat r)
      else (buf, Panic)
  | Oversized n :: _ =>
      (buf, if (N.of_nat (length buf) <? n)%N then Err UnexpectedEndOfBuffer else Panic)
  | Abort :: _ => (buf, Panic)
  end.

Definition chunks_arr (f : val -> list chunk) (cnt : N) (l : list val) : list chunk :=
  flat_map f (firstn (N.to_nat cnt) l)
  ++ (if (N.of_nat (length l) <? cnt)%N then [Abort] else []).

Definition chunks_tpm2b (max : N) (size : Z) (field : list byte) : list chunk :=
  Plain (be_bytes 2 size)
  :: (let n := Z.to_N (size mod 65536) in
      if (max <? n)%N
      then (if (N.of_nat (length field) <? n)%N then [Oversized n]
            else [Plain (firstn (N.to_nat n) field)])   (* not a Rust value: field has max bytes *)
      else if (N.of_nat (length field) <? n)%N then [Abort]
      else [Payload (firstn (N.to_nat n) field)]).

Fixpoint chunks (t : ty) (v : val) {struct t} : list chunk :=
  match t, v with
  | TInt _ k, VInt z => [Plain (be_bytes k z)]
  | TUnit, VUnit => []
  | TBytes _, VBytes l => [Plain l]
  | TNamed fs, VStruct vs => chunks_fields [] fs vs
  | TTuple ts, VStruct vs => chunks_tys ts vs
  | TEnum k vrs, VEnum sel args => Plain (be_bytes k sel) :: chunks_variant vrs sel args
  | TTpm2b max, VTpm2b size field => chunks_tpm2b max size field
  | TSplit pre k mid vrs, VStruct [VStruct a; VStruct b; VEnum sel args] =>
      chunks_tys pre a ++ Plain (be_bytes k sel) :: chunks_tys mid b ++ chunks_variant vrs sel args
  | _, _ => [Abort]
  end
with chunks_fields (env : lenv) (fs : fields) (vs : list val) {struct fs} : list chunk :=
  match fs, vs with
  | FNil, [] => []
  | FCons name KPlain t rest, v :: vs' =>
      chunks t v ++ chunks_fields (bind_len name v env) rest vs'
  | FCons _ (KArr n) t rest, VArr l :: vs' =>
      chunks_arr (chunks t) n l ++ chunks_fields env rest vs'
  | FCons _ (KLen _ len _) t rest, VArr l :: vs' =>
      match lookup_len len env with
      | Some c => chunks_arr (chunks t) (usize c) l ++ chunks_fields env rest vs'
      | None => [Abort]
      end
  | _, _ => [Abort]
  end
with chunks_tys (ts : tys) (vs : list val) {struct ts} : list chunk :=
  match ts, vs with
  | TNil, [] => []
  | TCons t rest, v :: vs' => chunks t v ++ chunks_tys rest vs'
  | _, _ => [Abort]
  end
with chunks_variant (vrs : variants) (sel : Z) (args : list val) {struct vrs} : list chunk :=
  match vrs with
  | VNil => [Abort]
  | VCons s ts rest => if sel =? s then chunks_tys ts args else chunks_variant rest sel args
  end.

(** ** Facts about [write_chunks] *)

Lemma write_chunks_length l : forall buf, length (fst (write_chunks l buf)) = length buf.
Proof.
  induction l as [|[bs|bs|n|] l IH]; intros buf; cbn [write_chunks]; try reflexivity.
  all: destruct (Nat.leb_spec (length bs) (length buf)); [|reflexivity].
  all: specialize (IH (skipn (length bs) buf)).
  all: destruct (write_chunks l (skipn (length bs) buf)) as [b r]; cbn in *.
  all: rewrite app_length, IH, skipn_length; lia.
Qed.

Lemma write_chunks_ok_le l : forall buf n, snd (write_chunks l buf) = Ok n -> (n <= length buf)%nat.
Proof.
  induction l as [|[bs|bs|m|] l IH]; intros buf n; cbn [write_chunks].
  - cbn. intros E. injection E as <-. lia.
  - destruct (Nat.leb_spec (length bs) (length buf)); [|discriminate].
    specialize (IH (skipn (length bs) buf)).
    destruct (write_chunks l (skipn (length bs) buf)) as [b r]; cbn in *.
    destruct r; cbn; try discriminate. intros E. injection E as <-.
    specialize (IH _ eq_refl). rewrite skipn_length in IH. lia.
  - destruct (Nat.leb_spec (length bs) (length buf)); [|discriminate].
    specialize (IH (skipn (length bs) buf)).
    destruct (write_chunks l (skipn (length bs) buf)) as [b r]; cbn in *.
    destruct r; cbn; try discriminate. intros E. injection E as <-.
    specialize (IH _ eq_refl). rewrite skipn_length in IH. lia.
  - cbn. destruct (N.of_nat (length buf) <? m)%N; discriminate.
  - discriminate.
Qed.

Lemma omap_omap {E A B C} (f : A -> B) (g : B -> C) (o : outcome E A) :
  omap g (omap f o) = omap (fun x => g (f x)) o.
Proof. destruct o; reflexivity. Qed.

Lemma omap_ext {E A B} (f g : A -> B) (o : outcome E A) :
  (forall x, f x = g x) -> omap f o = omap g o.
Proof. intros H. destruct o; cbn; congruence. Qed.

(** Writing at an offset. *)
Definition write_at (l : list chunk) (w : nat) (buf : list byte) : mres :=
  (firstn w buf ++ fst (write_chunks l (skipn w buf)),
   omap (fun n => w + n)%nat (snd (write_chunks l (skipn w buf)))).

Lemma mseq_write_at f l w buf :
  (forall b, f b = write_chunks l b) -> (w <= length buf)%nat -> mseq f w buf = write_at l w buf.
Proof.
  intros Hf Hw. unfold mseq. destruct (Nat.ltb_spec (length buf) w); [lia|].
  rewrite Hf. unfold write_at. destruct (write_chunks l (skipn w buf)). reflexivity.
Qed.

Lemma write_at_length l w buf : (w <= length buf)%nat -> length (fst (write_at l w buf)) = length buf.
Proof.
  intros. cbn. rewrite app_length, write_chunks_length, firstn_length, skipn_length. lia.
Qed.

Lemma write_at_ok_le l w buf w' :
  (w <= length buf)%nat -> snd (write_at l w buf) = Ok w' -> (w' <= length buf)%nat.
Proof.
  intros Hw. cbn. destruct (snd (write_chunks l (skipn w buf))) eqn:E; try discriminate.
  cbn. intros E'. injection E' as <-. apply write_chunks_ok_le in E.
  rewrite skipn_length in E. lia.
Qed.

Lemma write_at_nil w buf : (w <= length buf)%nat -> write_at [] w buf = (buf, Ok w).
Proof.
  intros. unfold write_at. cbn. rewrite firstn_skipn, Nat.add_0_r. reflexivity.
Qed.

Lemma write_at_0 l buf : write_at l 0 buf = write_chunks l buf.
Proof.
  unfold write_at. cbn. destruct (write_chunks l buf) as [b []]; reflexivity.
Qed.

(** Continuing after a prefix of the chunks. *)
Lemma write_chunks_app l1 l2 : forall buf,
  write_chunks (l1 ++ l2) buf = mthen (write_chunks l1 buf) (write_at l2).
Proof.
  assert (Hstep : forall (bs buf : list byte) (r : mres), (length bs <= length buf)%nat ->
     length (fst r) = length (skipn (length bs) buf) ->
     (forall n, snd r = Ok n -> (n <= length (fst r))%nat) ->
     (let '(b, o) := mthen r (write_at l2) in ((bs ++ b, omap (fun n => length bs + n)%nat o) : mres))
     = mthen (let '(b, o) := r in (bs ++ b, omap (fun n => length bs + n)%nat o)) (write_at l2)).
  { intros bs buf [b [n|e|]] Hb Hl Hn; cbn [mthen omap fst snd] in *; try reflexivity.
    specialize (Hn n eq_refl). unfold write_at.
    rewrite skipn_app, firstn_app.
    replace (length bs + n - length bs)%nat with n by lia.
    rewrite (skipn_all2 bs), (firstn_all2 bs) by lia. cbn [app].
    rewrite omap_omap, app_assoc. f_equal. apply omap_ext. intros. lia. }
  induction l1 as [|[bs|bs|m|] l1 IH]; intros buf; cbn [write_chunks app].
  - cbn. symmetry. apply write_at_0.
  - destruct (Nat.leb_spec (length bs) (length buf)); [|reflexivity].
    rewrite IH. apply (Hstep bs buf); [assumption|apply write_chunks_length|].
    intros n E. apply write_chunks_ok_le in E. rewrite write_chunks_length. exact E.
  - destruct (Nat.leb_spec (length bs) (length buf)); [|reflexivity].
    rewrite IH. apply (Hstep bs buf); [assumption|apply write_chunks_length|].
    intros n E. apply write_chunks_ok_le in E. rewrite write_chunks_length. exact E.
  - cbn. destruct (N.of_nat (length buf) <? m)%N; reflexivity.
  - reflexivity.
Qed.

Lemma write_at_app l1 l2 w buf : (w <= length buf)%nat ->
  write_at (l1 ++ l2) w buf = mthen (write_at l1 w buf) (write_at l2).
Proof.
  intros Hw. unfold write_at at 1. rewrite write_chunks_app.
  replace (write_at l1 w buf) with
    (firstn w buf ++ fst (write_chunks l1 (skipn w buf)),
     omap (fun n => w + n)%nat (snd (write_chunks l1 (skipn w buf)))) by reflexivity.
  pose proof (write_chunks_length l1 (skipn w buf)) as Hl.
  pose proof (write_chunks_ok_le l1 (skipn w buf)) as Hn.
  destruct (write_chunks l1 (skipn w buf)) as [b [n|e|]]; cbn [mthen omap fst snd] in *; try reflexivity.
  specialize (Hn n eq_refl). rewrite skipn_length in *.
  assert (Hfw : length (firstn w buf) = w) by (rewrite firstn_length; lia).
  unfold write_at. cbn [fst snd].
  rewrite skipn_app, firstn_app, Hfw.
  replace (w + n - w)%nat with n by lia.
  rewrite (skipn_all2 (firstn w buf)), (firstn_all2 (firstn w buf)) by lia. cbn [app].
  rewrite omap_omap, app_assoc. f_equal. apply omap_ext. intros. lia.
Qed.

Lemma mthen_write_at l1 l2 w buf (k : nat -> list byte -> mres) :
  (w <= length buf)%nat ->
  (forall w b, (w <= length b)%nat -> k w b = write_at l2 w b) ->
  mthen (write_at l1 w buf) k = write_at (l1 ++ l2) w buf.
Proof.
  intros Hw Hk. rewrite write_at_app by assumption.
  pose proof (write_at_length l1 w buf Hw) as Hl.
  pose proof (write_at_ok_le l1 w buf) as Hn.
  destruct (write_at l1 w buf) as [b [n|e|]]; cbn [mthen fst snd] in *; try reflexivity.
  apply Hk. rewrite Hl. apply Hn; auto.
Qed.

Lemma mar_bytes_chunks bs buf : mar_bytes bs buf = write_chunks [Plain bs] buf.
Proof.
  unfold mar_bytes. cbn. destruct (Nat.leb_spec (length bs) (length buf)); [|reflexivity].
  unfold overwrite. rewrite Nat.add_0_r. reflexivity.
Qed.

Lemma mar_int_chunks k z buf : mar_int k z buf = write_chunks [Plain (be_bytes k z)] buf.
Proof. apply mar_bytes_chunks. Qed.

Lemma mar_tpm2b_chunks max size field buf :
  mar_tpm2b max size field buf = write_chunks (chunks_tpm2b max size field) buf.
Proof.
  unfold mar_tpm2b, chunks_tpm2b, mar_int, mar_bytes. cbn [write_chunks].
  rewrite be_bytes_length.
  destruct (Nat.leb_spec 2 (length buf)); [|reflexivity].
  assert (Hs : skipn 2 (overwrite (be_bytes 2 size) buf) = skipn 2 buf)
    by (rewrite <- (be_bytes_length 2 size) at 1; rewrite skipn_overwrite, be_bytes_length; reflexivity).
  assert (Hf : firstn 2 (overwrite (be_bytes 2 size) buf) = be_bytes 2 size)
    by (rewrite <- (be_bytes_length 2 size) at 1; apply firstn_overwrite).
  assert (Ho : overwrite (be_bytes 2 size) buf = be_bytes 2 size ++ skipn 2 buf)
    by (unfold overwrite; rewrite be_bytes_length; reflexivity).
  rewrite Hs, Hf. set (n := Z.to_N (size mod 65536)).
  set (rest := skipn 2 buf) in *.
  destruct (N.ltb_spec (N.of_nat (length field)) n) as [Hfl|Hfl].
  - rewrite orb_true_r. destruct (N.ltb_spec max n) as [Hm|Hm]; cbn [write_chunks omap].
    + rewrite Ho.
      destruct (N.ltb_spec (N.max max (N.of_nat (length rest))) n);
        destruct (N.ltb_spec (N.of_nat (length rest)) n); try lia; reflexivity.
    + destruct (N.ltb_spec (N.max max (N.of_nat (length rest))) n); [lia|].
      rewrite Ho. reflexivity.
  - rewrite orb_false_r.
    assert (Hfn : length (firstn (N.to_nat n) field) = N.to_nat n) by (rewrite firstn_length; lia).
    destruct (N.ltb_spec max n) as [Hm|Hm]; cbn [write_chunks]; rewrite Hfn;
      destruct (N.ltb_spec (N.max max (N.of_nat (length rest))) n);
      destruct (N.ltb_spec (N.of_nat (length rest)) n);
        destruct (Nat.leb_spec (N.to_nat n) (length rest)); try lia;
      cbn [omap]; rewrite ?Ho; try reflexivity;
      unfold overwrite; rewrite Hfn, Nat.add_0_r; reflexivity.
Qed.
