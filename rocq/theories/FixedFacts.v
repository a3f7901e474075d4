(** Types of a fixed size accept every byte string (C74).  [wire_size] is the
    specification: the number of bytes of a type without unions, lists and
    sized buffers; it does not mention the values. *)
From Coq Require Import String ZArith NArith List Lia Bool.
From Coq Require Import Init.Byte.
From Verif Require Import Prelude Types Marshal WireSpec MarshalProofs WriteSpec MarshalWrite MarshalFacts Catalogue.
Import ListNotations.
Open Scope Z_scope.

Definition oplus (a b : option nat) : option nat :=
  match a, b with Some x, Some y => Some (x + y)%nat | _, _ => None end.
Definition otimes (n : nat) (a : option nat) : option nat := option_map (Nat.mul n) a.

(** The number of bytes on the wire of a type without unions, lists and sized
    buffers. *)
Fixpoint wire_size (t : ty) : option nat :=
  match t with
  | TInt _ k => Some k
  | TUnit => Some 0%nat
  | TBytes n => Some (N.to_nat n)
  | TNamed fs => wire_size_fields fs
  | TTuple ts => wire_size_tys ts
  | TEnum _ _ | TTpm2b _ | TSplit _ _ _ _ => None
  end
with wire_size_fields (fs : fields) : option nat :=
  match fs with
  | FNil => Some 0%nat
  | FCons _ KPlain t rest => oplus (wire_size t) (wire_size_fields rest)
  | FCons _ (KArr n) t rest => oplus (otimes (N.to_nat n) (wire_size t)) (wire_size_fields rest)
  | FCons _ (KLen _ _ _) _ _ => None
  end
with wire_size_tys (ts : tys) : option nat :=
  match ts with
  | TNil => Some 0%nat
  | TCons t rest => oplus (wire_size t) (wire_size_tys rest)
  end.

Lemma oplus_some a b n : oplus a b = Some n -> exists x y, a = Some x /\ b = Some y /\ n = (x + y)%nat.
Proof. destruct a, b; cbn; intros E; try discriminate. injection E as <-. eauto. Qed.

Lemma buf_get_exact k (b rest : list byte) : length b = k -> buf_get (N.of_nat k) (b ++ rest) = Some (b, rest).
Proof.
  intros <-. unfold buf_get.
  destruct (N.ltb_spec (N.of_nat (length (b ++ rest))) (N.of_nat (length b))) as [L|_].
  { rewrite app_length in L. lia. }
  rewrite Nat2N.id, firstn_app_exact', skipn_app_exact' by reflexivity. reflexivity.
Qed.

Lemma split_at (b : list byte) x y : length b = (x + y)%nat ->
  exists b1 b2, b = b1 ++ b2 /\ length b1 = x /\ length b2 = y.
Proof.
  intros L. exists (firstn x b), (skipn x b). rewrite firstn_skipn, firstn_length, skipn_length.
  split; [reflexivity|lia].
Qed.

Lemma unm_arr_total f k :
  (forall b rest, length b = k -> exists v, f (b ++ rest) = (Ok v, rest)) ->
  forall m b rest, length b = (m * k)%nat -> exists l, unm_arr f m (b ++ rest) = (Ok l, rest).
Proof.
  intros F. induction m as [|m IH]; intros b rest L.
  - apply length_zero_iff_nil in L as ->. now exists [].
  - cbn [Nat.mul] in L. destruct (split_at b k (m * k) L) as (b1 & b2 & -> & L1 & L2).
    rewrite <- app_assoc. destruct (F b1 (b2 ++ rest) L1) as (v & E). destruct (IH b2 rest L2) as (l & E').
    exists (v :: l). cbn [unm_arr]. rewrite E. cbn [uthen]. rewrite E'. reflexivity.
Qed.

Lemma accepts_all :
  (forall t n b rest, wire_size t = Some n -> length b = n -> exists v, unmarshal t (b ++ rest) = (Ok v, rest))
  /\ (forall fs n env b rest, wire_size_fields fs = Some n -> length b = n ->
        exists l, unmarshal_fields env fs (b ++ rest) = (Ok l, rest))
  /\ (forall ts n b rest, wire_size_tys ts = Some n -> length b = n ->
        exists l, unmarshal_tys ts (b ++ rest) = (Ok l, rest))
  /\ (forall vs : variants, True).
Proof.
  apply ty_mutind.
  - intros sg k n b rest E L. injection E as <-. cbn [unmarshal]. unfold unm_int, unm_bytes.
    rewrite buf_get_exact by exact L. eexists. reflexivity.
  - intros n b rest E L. injection E as <-. apply length_zero_iff_nil in L as ->. eexists. reflexivity.
  - intros n0 n b rest E L. injection E as <-. cbn [unmarshal]. unfold unm_bytes.
    replace n0 with (N.of_nat (N.to_nat n0)) by apply N2Nat.id. rewrite buf_get_exact by exact L.
    eexists. reflexivity.
  - intros fs IH n b rest E L. cbn [unmarshal]. destruct (IH n [] b rest E L) as (l & ->). eexists. reflexivity.
  - intros ts IH n b rest E L. cbn [unmarshal]. destruct (IH n b rest E L) as (l & ->). eexists. reflexivity.
  - discriminate.
  - discriminate.
  - discriminate.
  - intros n env b rest E L. injection E as <-. apply length_zero_iff_nil in L as ->. eexists. reflexivity.
  - intros name kd t IHt fs IHfs n env b rest E L. cbn [wire_size_fields] in E. destruct kd as [|m|m len d]; [| |discriminate].
    + destruct (oplus_some _ _ _ E) as (x & y & Ex & Ey & ->).
      destruct (split_at b x y L) as (b1 & b2 & -> & L1 & L2). rewrite <- app_assoc. cbn [unmarshal_fields].
      destruct (IHt x b1 (b2 ++ rest) Ex L1) as (v & ->). cbn [uthen].
      destruct (IHfs y (bind_len name v env) b2 rest Ey L2) as (l & ->). eexists. reflexivity.
    + destruct (oplus_some _ _ _ E) as (x & y & Ex & Ey & ->).
      unfold otimes in Ex. destruct (wire_size t) as [k|] eqn:Ek; [|discriminate]. injection Ex as <-.
      destruct (split_at b _ y L) as (b1 & b2 & -> & L1 & L2). rewrite <- app_assoc. cbn [unmarshal_fields].
      destruct (unm_arr_total (unmarshal t) k (fun b r Hb => IHt k b r eq_refl Hb) (N.to_nat m) b1 (b2 ++ rest) L1)
        as (v & ->). cbn [uthen].
      destruct (IHfs y env b2 rest Ey L2) as (l & ->). eexists. reflexivity.
  - intros n b rest E L. injection E as <-. apply length_zero_iff_nil in L as ->. eexists. reflexivity.
  - intros t IHt ts IHts n b rest E L. cbn [wire_size_tys] in E.
    destruct (oplus_some _ _ _ E) as (x & y & Ex & Ey & ->).
    destruct (split_at b x y L) as (b1 & b2 & -> & L1 & L2). rewrite <- app_assoc. cbn [unmarshal_tys].
    destruct (IHt x b1 (b2 ++ rest) Ex L1) as (v & ->). cbn [uthen].
    destruct (IHts y b2 rest Ey L2) as (l & ->). eexists. reflexivity.
  - exact I.
  - intros; exact I.
Qed.

(** ** C74 *)
(** A type without unions, lists and sized buffers reads exactly its size,
    whatever the bytes are, and writes back the bytes it read; it fails if, and
    only if, there are fewer. *)
Theorem c74_every_byte_string t n b buf :
  wf_ty t = true -> wire_size t = Some n ->
  ((n <= length b)%nat ->
     exists v, unmarshal t b = (Ok v, skipn n b)
       /\ ((n <= length buf)%nat -> marshal t v buf = (firstn n b ++ skipn n buf, Ok n)))
  /\ ((length b < n)%nat -> fst (unmarshal t b) = Err UnexpectedEndOfBuffer).
Proof.
  intros Ht Hn. split.
  - intros L. assert (Lf : length (firstn n b) = n) by (rewrite firstn_length; lia).
    destruct (proj1 accepts_all t n (firstn n b) (skipn n b) Hn Lf) as (v & E). exists v.
    split; [rewrite <- E, firstn_skipn; reflexivity|]. intros Lb.
    destruct (c02_canonical t _ v _ buf Ht E) as (c & Ec & M).
    apply app_inv_tail in Ec. subst c. rewrite Lf in M. exact (M Lb).
  - intros L. set (pad := repeat x00 (n - length b)).
    assert (Lf : length (b ++ pad) = n) by (unfold pad; rewrite app_length, repeat_length; lia).
    destruct (proj1 accepts_all t n (b ++ pad) [] Hn Lf) as (v & E).
    pose proof (unm_inv t _ v _ Ht E) as (Hv & _ & Eb). rewrite !app_nil_r in Eb.
    apply (c07_truncated t v b pad Ht Hv); [now symmetry|].
    intros H. apply (f_equal (@length byte)) in H. unfold pad in H. rewrite repeat_length in H. cbn in H. lia.
Qed.

(** A newtype around an unsigned integer, or around such a newtype; the value
    that holds the number [z]. *)
Inductive identifier (k : nat) : ty -> (Z -> val) -> Prop :=
| Id_int : identifier k (TInt false k) VInt
| Id_newtype t f : identifier k t f -> identifier k (newtype t) (fun z => VStruct [f z]).

(** An identifier holds every number of its width, known or not: it is read as
    that number and written as that number.  So neither the identifiers nor the
    interface types (TPMI_...) are checked against the values that the
    specification lists. *)
Theorem c74_identifiers k t f z rest buf :
  identifier k t f -> 0 <= z < 256 ^ Z.of_nat k ->
  unmarshal t (be_bytes k z ++ rest) = (Ok (f z), rest)
  /\ ((k <= length buf)%nat -> marshal t (f z) buf = (be_bytes k z ++ skipn k buf, Ok k)).
Proof.
  intros H Hz. assert (R : in_range false k z = true) by (apply in_range_iff; exact Hz).
  induction H as [|t f H (IHu & IHm)].
  - split.
    + cbn [unmarshal]. rewrite unm_int_app by exact R. reflexivity.
    + intros L. cbn [marshal]. unfold mar_int, mar_bytes, overwrite. rewrite be_bytes_length.
      destruct (Nat.leb_spec k (length buf)); [reflexivity|lia].
  - unfold newtype, tuple. cbn [mk_tys unmarshal unmarshal_tys marshal marshal_tys]. rewrite IHu. split; [reflexivity|].
    intros L. specialize (IHm L). unfold mseq. cbn [firstn skipn]. rewrite IHm. cbn. reflexivity.
Qed.

(** The library's identifiers, interface types and attributes. *)
Definition library_identifiers : list (ty * nat) := [
  (TpmAlgId, 2); (TpmEccCurve, 2); (TpmCc, 4); (TpmSt, 2); (TpmSu, 2); (TpmCap, 4); (TpmPt, 4);
  (TpmPtPcr, 4); (TpmHandle, 4); (TpmHc, 4); (TpmGenerated, 4); (TpmaLocality, 1); (TpmaNv, 4);
  (TpmiAlgHash, 2); (TpmiAlgKdf, 2); (TpmiAlgPublic, 2); (TpmiAlgSymMode, 2); (TpmiAlgSymObject, 2);
  (TpmiAlgKeyedhashScheme, 2); (TpmiAlgRsaScheme, 2); (TpmiAlgSigScheme, 2); (TpmiAlgEccScheme, 2);
  (TpmiAlgAsymScheme, 2); (TpmiRhNvIndex, 4); (TpmiShAuthSession, 4); (TpmiEccCurve, 2);
  (TpmiYesNo, 1); (TpmiStAttest, 2); (TpmiAesKeyBits, 2); (TpmiSm4KeyBits, 2);
  (TpmiCamelliaKeyBits, 2); (TpmiRsaKeyBits, 2); (TpmaObject, 4); (TpmaAlgorithm, 4);
  (TpmaSession, 1); (TpmaCc, 4); (TpmiStCommandTag, 2)]%nat.
Theorem c74_library t k :
  In (t, k) library_identifiers -> In t base_types /\ exists f, identifier k t f.
Proof.
  intros H.
  assert (B : Forall (fun p => In (fst p) base_types) library_identifiers).
  { unfold library_identifiers. repeat (apply Forall_cons; [cbn [fst]; in_base|]). apply Forall_nil. }
  rewrite Forall_forall in B. split; [exact (B _ H)|]. clear B.
  unfold library_identifiers in H.
  repeat (destruct H as [E|H]; [injection E as <- <-; eexists; repeat constructor|]). destruct H.
Qed.

(** *** The hypotheses can be met *)
Example c74_example :
  wire_size TpmsTimeInfo = Some 25%nat /\ wf_ty TpmsTimeInfo = true
  /\ wire_size CmdHeader = Some 10%nat /\ wire_size TpmsAlgProperty = Some 6%nat
  /\ wire_size TpmtPublic = None /\ wire_size Tpm2bDigest = None /\ wire_size TpmlHandle = None
  /\ unmarshal TpmiYesNo [x02] = (Ok (VStruct [VInt 2]), [])
  /\ identifier 2 TpmiEccCurve (fun z => VStruct [VStruct [VInt z]]).
Proof. repeat split; try (vm_compute; reflexivity). repeat constructor. Qed.
