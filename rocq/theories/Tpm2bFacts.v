(** Properties of the [Tpm2bSimple] and [Tpm2bStruct] interfaces (C13-C15). *)
From Coq Require Import String ZArith NArith List Lia Bool.
From Coq Require Import Init.Byte.
From Verif Require Import Prelude Types Marshal WireSpec MarshalProofs WriteSpec MarshalWrite
  Layout Catalogue Samples Errors Tpm2b MarshalFacts.
Import ListNotations.
Open Scope Z_scope.

(** The struct types the library wraps, with their wrappers. *)
Definition wrapped : list (ty * ty) :=
  [(TpmsSensitiveCreate, Tpm2bSensitiveCreate); (TpmtPublic, Tpm2bPublic);
   (TpmsCreationData, Tpm2bCreationData)].

Lemma from_struct_spec t v : wf t v = true -> (size_of t < 65536)%N ->
  from_struct t v = Ok (VTpm2b (Z.of_nat (length (enc t v)))
     (enc t v ++ repeat x00 (N.to_nat (size_of t) - length (enc t v)))).
Proof.
  intros Hv Hs. pose proof (enc_size_of t v Hv) as Hl. unfold from_struct.
  rewrite marshal_fits by (try assumption; rewrite repeat_length; lia).
  cbn [obind]. rewrite Z.mod_small by lia. unfold overwrite. f_equal. f_equal. f_equal.
  rewrite <- (repeat_length x00 (length (enc t v))) at 1.
  replace (N.to_nat (size_of t)) with (length (enc t v) + (N.to_nat (size_of t) - length (enc t v)))%nat at 1 by lia.
  rewrite repeat_app, skipn_app_exact. reflexivity.
Qed.

Lemma to_struct_bytes t data pad :
  Z.of_nat (length data) < 65536 ->
  to_struct t (VTpm2b (Z.of_nat (length data)) (data ++ pad)) = fst (unmarshal t data).
Proof.
  intros Hl. unfold to_struct, as_ref, get_buffer.
  assert (Hu : usize (Z.of_nat (length data)) = N.of_nat (length data)).
  { unfold usize. rewrite Z.mod_small by lia. lia. }
  rewrite Hu, app_length. destruct (N.ltb_spec (N.of_nat (length data + length pad)) (N.of_nat (length data))); [lia|].
  rewrite Nat2N.id, firstn_app_exact. reflexivity.
Qed.

(** ** C13 *)
(** Wrapping succeeds for every value of the struct type: the wrapper's size
    is the encoded length, its bytes are the encoding, and unwrapping gives
    the value back; where the value had bytes beyond the size of one of its
    own TPM2B fields, these come back as zeros. *)
Theorem c13_round_trip t v :
  wf_ty t = true -> (size_of t < 65536)%N -> wf t v = true ->
  exists b, from_struct t v = Ok b
    /\ wf (TTpm2b (size_of t)) b = true
    /\ get_size b = Z.of_nat (length (enc t v))
    /\ as_ref b = Ok (enc t v)
    /\ to_struct t b = Ok (canon t v)
    /\ (canonical t v -> to_struct t b = Ok v).
Proof.
  intros Ht Hs Hv. pose proof (enc_size_of t v Hv) as Hl.
  rewrite from_struct_spec by assumption. eexists. split; [reflexivity|].
  split; [|split; [reflexivity|split]].
  - cbn [wf]. rewrite app_length, repeat_length.
    rewrite !andb_true_iff. repeat split.
    + apply in_range_iff. change (pow256 2) with 65536. lia.
    + apply N.leb_le. lia.
    + apply N.eqb_eq. lia.
  - unfold as_ref, get_buffer.
    assert (Hu : usize (Z.of_nat (length (enc t v))) = N.of_nat (length (enc t v))).
    { unfold usize. rewrite Z.mod_small by lia. lia. }
    rewrite Hu, app_length.
    match goal with |- context [(?a <? ?b)%N] => destruct (N.ltb_spec a b); [lia|] end.
    rewrite Nat2N.id, firstn_app_exact. reflexivity.
  - assert (T : to_struct t (VTpm2b (Z.of_nat (length (enc t v)))
                  (enc t v ++ repeat x00 (N.to_nat (size_of t) - length (enc t v)))) = Ok (canon t v)).
    { rewrite to_struct_bytes by lia.
      pose proof (unm_enc t v [] Ht Hv) as H. rewrite app_nil_r in H. rewrite H. reflexivity. }
    split; [exact T|]. unfold canonical. intros Hc. rewrite T, Hc. reflexivity.
Qed.

(** The three wrapped structs of the library meet its side conditions. *)
Theorem c13_round_trip_base t tb v :
  In (t, tb) wrapped -> wf t v = true ->
  tb = TTpm2b (size_of t)
  /\ exists b, from_struct t v = Ok b /\ wf tb b = true
    /\ get_size b = Z.of_nat (length (enc t v)) /\ as_ref b = Ok (enc t v)
    /\ to_struct t b = Ok (canon t v) /\ (canonical t v -> to_struct t b = Ok v).
Proof.
  intros Hin Hv.
  assert (H : wf_ty t = true /\ (size_of t < 65536)%N /\ tb = TTpm2b (size_of t)).
  { cbn in Hin. destruct Hin as [E|[E|[E|[]]]]; injection E as <- <-; vm_compute; auto. }
  destruct H as (Ht & Hs & ->). split; [reflexivity|]. apply c13_round_trip; assumption.
Qed.

Example c13_example :
  In (TpmtPublic, Tpm2bPublic) wrapped
  /\ wf TpmtPublic sample_public = true /\ canonical TpmtPublic sample_public
  /\ omap get_size (from_struct TpmtPublic sample_public) = Ok 88.
Proof. split; [cbn; auto|]. vm_compute. auto. Qed.

(** ** C14 *)
(** What unwrapping accepts: any buffer that starts with an encoding. *)
Theorem c14_to_struct_accepts t data pad v :
  wf_ty t = true -> Z.of_nat (length data) < 65536 ->
  (to_struct t (VTpm2b (Z.of_nat (length data)) (data ++ pad)) = Ok v
   <-> wf t v = true /\ canonical t v /\ exists extra, data = enc t v ++ extra).
Proof.
  intros Ht Hl. rewrite to_struct_bytes by assumption. split.
  - intros E. destruct (unmarshal t data) as [r rest] eqn:Eu. cbn [fst] in E. subst r.
    apply unm_inv in Eu; [|assumption]. destruct Eu as (? & ? & ->). eauto.
  - intros (Hv & Hc & extra & ->). rewrite unm_enc by assumption. rewrite Hc. reflexivity.
Qed.

(** Unwrapping never panics on a well-formed wrapper. *)
Theorem c14_to_struct_total t max b :
  wf_ty t = true -> wf (TTpm2b max) b = true -> is_panic (to_struct t b) = false.
Proof.
  intros Ht Hb. destruct b as [| | | | | |size data]; try discriminate. cbn [wf] in Hb. bsplit.
  apply in_range_u16 in H. apply N.leb_le in H1. apply N.eqb_eq in H0.
  unfold to_struct, as_ref, get_buffer.
  assert (Hu : usize size = Z.to_N size) by (unfold usize; rewrite Z.mod_small by lia; reflexivity).
  rewrite Hu. destruct (N.ltb_spec (N.of_nat (length data)) (Z.to_N size)); [lia|].
  cbn [obind]. apply (proj1 unm_total_all); assumption.
Qed.

(** Strictness fails: bytes behind the structure are ignored. *)
Theorem c14_strict_refuted :
  exists b v, wf Tpm2bSensitiveCreate b = true
    /\ canonical Tpm2bSensitiveCreate b
    /\ to_struct TpmsSensitiveCreate b = Ok v
    /\ from_struct TpmsSensitiveCreate v <> Ok b.
Proof.
  exists (v2b (size_of TpmsSensitiveCreate) (enc TpmsSensitiveCreate sample_sensitive ++ [xff])),
    sample_sensitive.
  split; [vm_compute; reflexivity|]. split; [vm_compute; reflexivity|].
  split; [vm_compute; reflexivity|]. vm_compute. discriminate.
Qed.

(** It holds when no byte is left over. *)
Theorem c14_strict_partial t data v :
  wf_ty t = true -> (size_of t < 65536)%N ->
  to_struct t (v2b (size_of t) data) = Ok v -> (N.of_nat (length data) <= size_of t)%N ->
  length data = length (enc t v) ->
  from_struct t v = Ok (v2b (size_of t) data).
Proof.
  intros Ht Hs E Hl He. unfold v2b, overwrite in E.
  apply c14_to_struct_accepts in E; [|assumption|lia]. destruct E as (Hv & Hc & extra & ->).
  assert (extra = []) as -> by (rewrite app_length in He; destruct extra; cbn in He; [reflexivity|lia]).
  rewrite app_nil_r in *. rewrite from_struct_spec by assumption.
  unfold v2b, overwrite. f_equal. f_equal. f_equal.
  replace (N.to_nat (size_of t)) with (length (enc t v) + (N.to_nat (size_of t) - length (enc t v)))%nat at 2 by lia.
  rewrite repeat_app, skipn_app_exact' by (rewrite repeat_length; reflexivity). reflexivity.
Qed.

(** ... and only then, so strictness fails exactly for wrappers with bytes left
    over. *)
Theorem c14_strict_iff t data v :
  wf_ty t = true -> (size_of t < 65536)%N -> (N.of_nat (length data) <= size_of t)%N ->
  to_struct t (v2b (size_of t) data) = Ok v ->
  (from_struct t v = Ok (v2b (size_of t) data) <-> length data = length (enc t v)).
Proof.
  intros Ht Hs Hl E. split; [|intros H; now apply c14_strict_partial].
  intros F. pose proof E as E'. unfold v2b, overwrite in E'.
  apply c14_to_struct_accepts in E'; [|assumption|lia]. destruct E' as (Hv & Hc & _).
  destruct (c13_round_trip t v Ht Hs Hv) as (b & Eb & _ & Gs & _). rewrite F in Eb. injection Eb as <-.
  unfold v2b in Gs. cbn [get_size] in Gs. lia.
Qed.

Example c14_example :
  let data := [x00; x02; x01; x02; x00; x03; x03; x04; x05] in
  wf_ty TpmsSensitiveCreate = true
  /\ enc TpmsSensitiveCreate sample_sensitive = data
  /\ to_struct TpmsSensitiveCreate (v2b (size_of TpmsSensitiveCreate) data) = Ok sample_sensitive
  /\ from_struct TpmsSensitiveCreate sample_sensitive = Ok (v2b (size_of TpmsSensitiveCreate) data)
  /\ to_struct TpmsSensitiveCreate (v2b (size_of TpmsSensitiveCreate) (data ++ [xff])) = Ok sample_sensitive
  /\ is_ok (to_struct TpmsSensitiveCreate (v2b (size_of TpmsSensitiveCreate) (removelast data))) = false.
Proof. vm_compute. auto 10. Qed.

(** ** C15 *)
Theorem c15_from_bytes max data :
  if (N.of_nat (length data) <=? N.min 65535 max)%N
  then exists b, from_bytes max data = Ok b
         /\ wf (TTpm2b max) b = true /\ canonical (TTpm2b max) b
         /\ get_size b = Z.of_nat (length data)
         /\ get_buffer b = Ok data /\ as_ref b = Ok data
  else from_bytes max data = Err ArrayLengthExceeded.
Proof.
  unfold from_bytes.
  destruct (N.leb_spec (N.of_nat (length data)) (N.min 65535 max)), (N.ltb_spec (N.min 65535 max) (N.of_nat (length data)));
    try lia; [|reflexivity].
  eexists. split; [reflexivity|]. rewrite Z.mod_small by lia.
  assert (Hb : get_buffer (VTpm2b (Z.of_nat (length data)) (overwrite data (repeat x00 (N.to_nat max)))) = Ok data).
  { unfold get_buffer. rewrite overwrite_length by (rewrite repeat_length; lia).
    rewrite repeat_length. unfold usize. rewrite Z.mod_small by lia.
    match goal with |- context [(?a <? ?b)%N] => destruct (N.ltb_spec a b); [lia|] end.
    replace (N.to_nat (Z.to_N (Z.of_nat (length data)))) with (length data) by lia.
    rewrite firstn_overwrite. reflexivity. }
  split; [|split; [|split; [reflexivity|split; exact Hb]]].
  - cbn [wf]. rewrite overwrite_length by (rewrite repeat_length; lia).
    rewrite repeat_length, !andb_true_iff. repeat split.
    + apply in_range_iff. change (pow256 2) with 65536. lia.
    + apply N.leb_le. lia.
    + apply N.eqb_eq. lia.
  - unfold canonical. cbn [canon]. f_equal. rewrite Nat2Z.id, firstn_overwrite.
    unfold overwrite. f_equal.
    replace (N.to_nat max) with (length data + (N.to_nat max - length data))%nat at 2 by lia.
    rewrite repeat_app, skipn_app_exact' by (rewrite repeat_length; reflexivity). reflexivity.
Qed.

(** Two values made by [from_bytes] are equal (field by field, as the derived
    [PartialEq] compares) iff their bytes are. *)
Theorem c15_equality max d1 d2 b1 b2 :
  from_bytes max d1 = Ok b1 -> from_bytes max d2 = Ok b2 -> (b1 = b2 <-> d1 = d2).
Proof.
  intros E1 E2. pose proof (c15_from_bytes max d1) as H1. pose proof (c15_from_bytes max d2) as H2.
  destruct (N.of_nat (length d1) <=? N.min 65535 max)%N; [|congruence].
  destruct (N.of_nat (length d2) <=? N.min 65535 max)%N; [|congruence].
  destruct H1 as (? & F1 & _ & _ & _ & G1 & _), H2 as (? & F2 & _ & _ & _ & G2 & _).
  rewrite E1 in F1. rewrite E2 in F2. injection F1 as <-. injection F2 as <-.
  split; intros ->; congruence.
Qed.

(** The default value holds no bytes. *)
Theorem c15_default max :
  wf (TTpm2b max) (tpm2b_default max) = true /\ get_buffer (tpm2b_default max) = Ok []
  /\ from_bytes max [] = Ok (tpm2b_default max).
Proof.
  unfold tpm2b_default. cbn [wf]. rewrite repeat_length, N2Nat.id, N.eqb_refl.
  split; [|split].
  - rewrite andb_true_r. apply N.leb_le. cbn. lia.
  - unfold get_buffer. destruct (N.ltb_spec (N.of_nat (length (repeat x00 (N.to_nat max)))) (usize 0)).
    + unfold usize in *. rewrite Z.mod_0_l in * by lia. lia.
    + reflexivity.
  - unfold from_bytes. destruct (N.ltb_spec (N.min 65535 max) (N.of_nat (@length byte []))); [cbn in *; lia|].
    reflexivity.
Qed.

Example c15_example :
  is_ok (from_bytes 64 (repeat x07 64)) = true
  /\ from_bytes 64 (repeat x07 65) = Err ArrayLengthExceeded
  /\ from_bytes 64 [x01; x02] = Ok (v2b 64 [x01; x02]).
Proof. vm_compute. auto. Qed.
