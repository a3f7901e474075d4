(** What marshalling does when the destination is too short, byte for byte
    (C05, C06). *)
From Coq Require Import String ZArith NArith List Lia Bool.
From Coq Require Import Init.Byte.
From Verif Require Import Prelude Types Marshal WireSpec MarshalProofs WriteSpec MarshalWrite
  Layout Catalogue Samples MarshalFacts.
Import ListNotations.
Open Scope Z_scope.

(** The encoding in the pieces that are written at once: an integer, a byte
    array, the contents of a sized buffer.  The latter are marked. *)
Inductive piece : Type :=
| Field (bs : list byte)
| Contents (bs : list byte).
Definition piece_bytes (p : piece) : list byte := match p with Field bs | Contents bs => bs end.

Fixpoint pieces (t : ty) (v : val) {struct t} : list piece :=
  match t, v with
  | TInt _ k, VInt z => [Field (be_bytes k z)]
  | TBytes _, VBytes l => [Field l]
  | TNamed fs, VStruct vs => pieces_fields [] fs vs
  | TTuple ts, VStruct vs => pieces_tys ts vs
  | TEnum k vrs, VEnum sel args => Field (be_bytes k sel) :: pieces_variant vrs sel args
  | TTpm2b _, VTpm2b size field => [Field (be_bytes 2 size); Contents (firstn (Z.to_nat size) field)]
  | TSplit pre k mid vrs, VStruct [VStruct a; VStruct b; VEnum sel args] =>
      pieces_tys pre a ++ Field (be_bytes k sel) :: pieces_tys mid b ++ pieces_variant vrs sel args
  | _, _ => []
  end
with pieces_fields (env : lenv) (fs : fields) (vs : list val) {struct fs} : list piece :=
  match fs, vs with
  | FCons name KPlain t rest, v :: vs' => pieces t v ++ pieces_fields (bind_len name v env) rest vs'
  | FCons _ (KArr n) t rest, VArr l :: vs' => flat_map (pieces t) l ++ pieces_fields env rest vs'
  | FCons _ (KLen n len _) t rest, VArr l :: vs' =>
      flat_map (pieces t) (counted len env l) ++ pieces_fields env rest vs'
  | _, _ => []
  end
with pieces_tys (ts : tys) (vs : list val) {struct ts} : list piece :=
  match ts, vs with
  | TCons t rest, v :: vs' => pieces t v ++ pieces_tys rest vs'
  | _, _ => []
  end
with pieces_variant (vrs : variants) (sel : Z) (args : list val) {struct vrs} : list piece :=
  match vrs with
  | VNil => []
  | VCons s ts rest => if sel =? s then pieces_tys ts args else pieces_variant rest sel args
  end.

(** ** Auxiliary facts *)

Definition as_chunk (p : piece) : chunk := match p with Field bs => Plain bs | Contents bs => Payload bs end.

Lemma as_chunk_bytes l : bytes_of (map as_chunk l) = flat_map piece_bytes l.
Proof. induction l as [|[bs|bs] l IH]; unfold bytes_of in *; cbn; congruence. Qed.

Lemma pieces_arr f g n l :
  (forall v, In v l -> f v = map as_chunk (g v)) -> (n <= N.of_nat (length l))%N ->
  chunks_arr f n l = map as_chunk (flat_map g (firstn (N.to_nat n) l)).
Proof.
  intros H Hn. unfold chunks_arr. destruct (N.ltb_spec (N.of_nat (length l)) n); [lia|]. rewrite app_nil_r.
  assert (H' : forall v, In v (firstn (N.to_nat n) l) -> f v = map as_chunk (g v)).
  { intros v Hv. apply H. rewrite <- (firstn_skipn (N.to_nat n) l). apply in_or_app. auto. }
  clear H H0 Hn. induction (firstn (N.to_nat n) l) as [|v l' IH]; [reflexivity|].
  cbn [flat_map]. rewrite map_app, (H' v (or_introl eq_refl)), IH; [reflexivity|]. intros. apply H'. now right.
Qed.

Lemma pieces_chunks :
  (forall t v, wf t v = true -> chunks t v = map as_chunk (pieces t v))
  /\ (forall fs env vs, wf_fields env fs vs = true ->
      chunks_fields env fs vs = map as_chunk (pieces_fields env fs vs))
  /\ (forall ts vs, wf_tys ts vs = true -> chunks_tys ts vs = map as_chunk (pieces_tys ts vs))
  /\ (forall vrs sel args, wf_variant vrs sel args = true ->
      chunks_variant vrs sel args = map as_chunk (pieces_variant vrs sel args)).
Proof.
  apply ty_mutind.
  - intros sg k v Hv. destruct v; try discriminate. reflexivity.
  - intros v Hv. destruct v; try discriminate. reflexivity.
  - intros n v Hv. destruct v; try discriminate. reflexivity.
  - intros fs IH v Hv. destruct v; try discriminate. apply IH. assumption.
  - intros ts IH v Hv. destruct v; try discriminate. apply IH. assumption.
  - intros k vrs IH v Hv. destruct v; try discriminate. cbn in *. now rewrite IH.
  - intros max v Hv. destruct v; try discriminate. cbn [wf chunks pieces map as_chunk] in *. bsplit.
    apply in_range_u16 in H. apply N.leb_le in H1. apply N.eqb_eq in H0.
    unfold chunks_tpm2b. rewrite Z.mod_small by lia.
    destruct (N.ltb_spec max (Z.to_N size)); [lia|].
    destruct (N.ltb_spec (N.of_nat (length buf)) (Z.to_N size)); [lia|].
    now rewrite Z_N_nat.
  - intros pre IHp k mid IHm vrs IHv v Hv.
    destruct v; try discriminate.
    destruct vs as [|[] [|[] [|[] [|]]]]; try discriminate.
    cbn in *. bsplit. rewrite map_app. cbn [map as_chunk]. rewrite map_app, IHp, IHm, IHv by assumption. reflexivity.
  - intros env vs Hv. destruct vs; try discriminate. reflexivity.
  - intros name kd t IHt rest IHr env vs Hv.
    destruct kd as [|n|n len dflt].
    + destruct vs as [|v vs]; [discriminate|]. cbn in *. bsplit. now rewrite map_app, IHt, IHr.
    + destruct vs as [|[] vs]; try discriminate. cbn in *. bsplit. apply N.eqb_eq in H.
      rewrite map_app, IHr, (pieces_arr _ (pieces t)) by (try lia; try assumption; intros; apply IHt; eapply forallb_In; eassumption).
      rewrite firstn_all2 by lia. reflexivity.
    + destruct vs as [|[] vs]; try discriminate. cbn in *. bsplit. apply N.eqb_eq in H.
      unfold len_ok, counted in *. destruct (lookup_len len env) as [c|]; [|discriminate].
      apply N.leb_le in H1.
      rewrite map_app, IHr, (pieces_arr _ (pieces t)) by (try lia; try assumption; intros; apply IHt; eapply forallb_In; eassumption).
      reflexivity.
  - intros vs Hv. destruct vs; try discriminate. reflexivity.
  - intros t IHt rest IHr vs Hv. destruct vs as [|v vs]; [discriminate|]. cbn in *. bsplit.
    now rewrite map_app, IHt, IHr.
  - intros sel args Hv. discriminate.
  - intros s ts IHt rest IHr sel args Hv. cbn in *.
    destruct (sel =? s); [apply IHt|apply IHr]; assumption.
Qed.

(** ** C05 *)
(** Exactly what happens, for every type and value: if the first byte without
    room belongs to the contents of a sized buffer the call panics, otherwise
    it returns the error. *)
Theorem c05_panics_exactly t v buf before p after :
  wf t v = true -> pieces t v = before ++ p :: after ->
  (length (flat_map piece_bytes before) <= length buf
   < length (flat_map piece_bytes before) + length (piece_bytes p))%nat ->
  snd (marshal t v buf) = match p with Contents _ => Panic | Field _ => Err UnexpectedEndOfBuffer end.
Proof.
  intros Hv Hp Hl. destruct (proj1 chunks_enc_all t v Hv) as [_ He].
  pose proof (proj1 pieces_chunks t v Hv) as Hc. rewrite Hp, map_app in Hc. cbn [map] in Hc.
  assert (Hs : (length buf < length (enc t v))%nat).
  { rewrite <- He, Hc, bytes_of_app, as_chunk_bytes. unfold bytes_of. cbn [flat_map].
    rewrite !app_length. destruct p; cbn [as_chunk chunk_bytes piece_bytes] in *; lia. }
  destruct (marshal_short t v buf Hv Hs) as (pre & c & post & Ec & Hb & ->).
  rewrite Hc in Ec. apply (short_unique _ _ _ _ _ _ (length buf)) in Ec as (_ & <-); [|rewrite as_chunk_bytes; destruct p; exact Hl|exact Hb].
  destruct p; reflexivity.
Qed.

(** The pieces make up the encoding, so one of them is the first without room. *)
Theorem c05_pieces t v :
  wf t v = true -> flat_map piece_bytes (pieces t v) = enc t v
  /\ forall n, (n < length (enc t v))%nat ->
     exists before p after, pieces t v = before ++ p :: after
       /\ (length (flat_map piece_bytes before) <= n
           < length (flat_map piece_bytes before) + length (piece_bytes p))%nat.
Proof.
  intros Hv. destruct (proj1 chunks_enc_all t v Hv) as [_ He].
  rewrite (proj1 pieces_chunks t v Hv), as_chunk_bytes in He. split; [exact He|].
  rewrite <- He. clear. induction (pieces t v) as [|p l IH]; cbn [flat_map length]; intros n Hn; [lia|].
  rewrite app_length in Hn. destruct (le_lt_dec (length (piece_bytes p)) n) as [H|H].
  - destruct (IH (n - length (piece_bytes p))%nat) as (b & q & a & -> & Hb); [lia|].
    exists (p :: b), q, a. split; [reflexivity|]. cbn [flat_map]. rewrite app_length. lia.
  - exists [], p, l. split; [reflexivity|]. cbn. lia.
Qed.

(** So a value with an empty sized buffer, or cut in front of the contents,
    still gives the error. *)
Example c05_pieces_example :
  let v := VStruct [v2b 128 [x01; x02]; v2b 128 [x03]] in
  pieces TpmsEccPoint v = [Field [x00; x02]; Contents [x01; x02]; Field [x00; x01]; Contents [x03]]
  /\ map (fun n => snd (marshal TpmsEccPoint v (repeat x00 n))) [0; 1; 2; 3; 4; 5; 6; 7]%nat
     = [Err UnexpectedEndOfBuffer; Err UnexpectedEndOfBuffer; Panic; Panic;
        Err UnexpectedEndOfBuffer; Err UnexpectedEndOfBuffer; Panic; Ok 7%nat].
Proof. vm_compute. auto. Qed.

(** ** C06 *)
(** Exactly what is in the buffer afterwards: the pieces in front of the first
    one without room, then the old contents. *)
Theorem c06_written_exactly t v buf before p after :
  wf t v = true -> pieces t v = before ++ p :: after ->
  (length (flat_map piece_bytes before) <= length buf
   < length (flat_map piece_bytes before) + length (piece_bytes p))%nat ->
  fst (marshal t v buf) = flat_map piece_bytes before ++ skipn (length (flat_map piece_bytes before)) buf.
Proof.
  intros Hv Hp Hl. destruct (proj1 chunks_enc_all t v Hv) as [_ He].
  pose proof (proj1 pieces_chunks t v Hv) as Hc. rewrite Hp, map_app in Hc. cbn [map] in Hc.
  assert (Hs : (length buf < length (enc t v))%nat).
  { rewrite <- He, Hc, bytes_of_app, as_chunk_bytes. unfold bytes_of. cbn [flat_map].
    rewrite !app_length. destruct p; cbn [as_chunk chunk_bytes piece_bytes] in *; lia. }
  destruct (marshal_short t v buf Hv Hs) as (pre & c & post & Ec & Hb & ->).
  rewrite Hc in Ec. apply (short_unique _ _ _ _ _ _ (length buf)) in Ec as (<- & _); [|rewrite as_chunk_bytes; destruct p; exact Hl|exact Hb].
  cbn [fst]. unfold overwrite. now rewrite as_chunk_bytes.
Qed.

Example c06_pieces_example :
  let v := VStruct [v2b 128 [x01; x02]; v2b 128 [x03]] in
  map (fun n => fst (marshal TpmsEccPoint v (repeat xee n))) [1; 3; 5; 7]%nat
  = [[xee]; [x00; x02; xee]; [x00; x02; x01; x02; xee]; [x00; x02; x01; x02; x00; x01; x03]].
Proof. vm_compute. auto. Qed.
