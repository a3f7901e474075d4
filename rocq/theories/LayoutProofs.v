(** Encodings of the catalogue's types are those of Part2.v. *)
From Coq Require Import String ZArith NArith List Lia Bool.
From Coq Require Import Init.Byte.
From Verif Require Import Prelude Types Marshal WireSpec MarshalProofs Layout Catalogue MarshalFacts Part2 Handwritten.
Import ListNotations.
Local Open Scope string_scope.
Local Open Scope list_scope.
Open Scope Z_scope.

Definition fits (t : ty) (f : format) : Prop :=
  forall v, wf t v = true -> enc t v = f (view t v).

Lemma fits_u8 sg : fits (TInt sg 1) BYTE. Proof. intros [] H; try discriminate. reflexivity. Qed.
Lemma fits_u16 sg : fits (TInt sg 2) UINT16. Proof. intros [] H; try discriminate. reflexivity. Qed.
Lemma fits_u32 sg : fits (TInt sg 4) UINT32. Proof. intros [] H; try discriminate. reflexivity. Qed.
Lemma fits_u64 sg : fits (TInt sg 8) UINT64. Proof. intros [] H; try discriminate. reflexivity. Qed.
Lemma fits_unit : fits TUnit EMPTY. Proof. intros [] H; try discriminate. reflexivity. Qed.
Lemma fits_empty : fits TpmsEmpty EMPTY.
Proof. intros [| | |[|]| | |] H; try discriminate. reflexivity. Qed.

Lemma fits_newtype t f : fits t f -> fits (newtype t) f.
Proof.
  intros Ht [| | |vs| | |] H; try discriminate. cbn in *.
  destruct vs as [|v [|]]; try discriminate.
  - cbn in *. rewrite andb_true_r in H. rewrite app_nil_r. apply Ht, H.
  - rewrite andb_false_r in H. discriminate.
Qed.

Lemma fits_octets n m : n = N.of_nat m -> fits (TBytes n) (OCTETS m).
Proof.
  intros -> [] H; try discriminate. cbn in *. apply N.eqb_eq, Nat2N.inj in H.
  rewrite H, Nat.eqb_refl. reflexivity.
Qed.

Lemma fits_tpm2b n m : n = m -> fits (TTpm2b n) (TPM2B m).
Proof.
  intros <- [] H; try discriminate. cbn [wf enc view] in *. bsplit.
  apply in_range_u16 in H. apply N.leb_le in H1. apply N.eqb_eq in H0. unfold TPM2B.
  assert (Hl : length (firstn (Z.to_nat size) buf) = Z.to_nat size)
    by (rewrite firstn_length; lia).
  rewrite Hl. destruct (N.leb_spec (N.of_nat (Z.to_nat size)) n); [|lia].
  rewrite Z2Nat.id by lia. reflexivity.
Qed.

(** ** Structures *)
Definition plain (l : list (string * ty * format)) : list (string * kind * ty) :=
  map (fun '(n, t, _) => fld n t) l.
Definition formats (l : list (string * ty * format)) : list format :=
  map (fun '(n, _, f) => of_member n f) l.
Definition name_of (x : string * ty * format) : string := fst (fst x).
Definition entry_fits (x : string * ty * format) : Prop := fits (snd (fst x)) (snd x).

Lemma structure_cons f fs d : structure (f :: fs) d = f d ++ structure fs d.
Proof. reflexivity. Qed.
Lemma members_skip n d ms l : ~ In n (map name_of l) ->
  structure (formats l) (Rec ((n, d) :: ms)) = structure (formats l) (Rec ms).
Proof.
  induction l as [|[[m t] f] l IH]; intros Hn; [reflexivity|].
  cbn in Hn. unfold formats in *. cbn [map]. rewrite !structure_cons, IH by tauto. f_equal.
  cbn. destruct (String.eqb_spec n m); [subst; tauto|reflexivity].
Qed.

Lemma fields_fit l : NoDup (map name_of l) -> Forall entry_fits l ->
  forall env vs, wf_fields env (mk_fields (plain l)) vs = true ->
  enc_fields env (mk_fields (plain l)) vs
  = structure (formats l) (Rec (view_fields (mk_fields (plain l)) vs)).
Proof.
  induction l as [|[[n t] f] l IH]; intros Hn Hf env vs Hv.
  - destruct vs; reflexivity.
  - cbn in Hv. destruct vs as [|v vs]; [discriminate|]. bsplit.
    inversion Hn as [|? ? Hn1 Hn2]. inversion Hf as [|? ? Hf1 Hf2]. subst.
    cbn [plain map mk_fields fld enc_fields view_fields].
    fold (plain l). rewrite IH by assumption.
    rewrite <- (members_skip n (view t v)) by assumption.
    unfold formats. cbn [map]. rewrite structure_cons. f_equal.
    cbn. rewrite String.eqb_refl. apply Hf1, H.
Qed.

Lemma nodup_names l : nodup string_dec l = l -> NoDup l.
Proof. intros <-. apply NoDup_nodup. Qed.

Lemma fits_struct l : NoDup (map name_of l) -> Forall entry_fits l ->
  fits (struct (plain l)) (structure (formats l)).
Proof.
  intros Hn Hf [| | |vs| | |] H; try discriminate. cbn in *. apply fields_fit; assumption.
Qed.

(** ** Lists *)
Lemma flat_map_fit t f l : fits t f -> forallb (wf t) l = true ->
  flat_map (enc t) l = flat_map f (map (view t) l).
Proof.
  intros Hf. induction l as [|v l IH]; intros H; [reflexivity|]. cbn in *. bsplit.
  rewrite IH, Hf by assumption. reflexivity.
Qed.
Lemma forallb_firstn {A} (p : A -> bool) n : forall l, forallb p l = true -> forallb p (firstn n l) = true.
Proof.
  induction n; intros [|a l] H; cbn in *; try reflexivity. bsplit. rewrite H. cbn. apply IHn. assumption.
Qed.

Lemma fits_tpml name n m t f : n = m -> name <> "count" -> fits t f ->
  fits (tpml name n t) (TPML name m f).
Proof.
  intros <- Hname Hf v Hv. pose proof Hv as Hw. apply wf_tpml in Hv.
  destruct Hv as (c & l & -> & Hc & Hle & Hlen & Hl).
  rewrite enc_tpml by assumption. unfold tpml, struct, fld, larr.
  cbn [mk_fields view view_fields u32]. unfold u32, TPML, counted_list. cbn [view member].
  rewrite String.eqb_refl.
  destruct (String.eqb_spec "count" name) as [e|_]; [congruence|].
  rewrite String.eqb_refl.
  destruct (N.leb_spec (Z.to_N c) n); [|lia].
  rewrite firstn_map, (flat_map_fit t f) by (auto using forallb_firstn). reflexivity.
Qed.

(** A selection: a tag, a byte count, that many bytes. *)
Lemma fits_selection tag cnt name t ft n :
  NoDup [tag; cnt; name] -> (forall z, wf t (VInt z) = false) -> fits t ft ->
  fits (struct [fld tag t; fld cnt u8; larr name cnt n u8])
       (structure [of_member tag ft; counted_list BYTE cnt name n BYTE]).
Proof.
  intros Hd Hni Hf [| | |vs| | |] H; try discriminate.
  unfold struct, fld, larr in *. cbn [mk_fields wf wf_fields] in H.
  destruct vs as [|v vs]; [discriminate|]. bsplit.
  destruct vs as [|[c| | | | | |] vs]; try (destruct H1; discriminate); try discriminate. bsplit.
  destruct vs as [|[| | | |l| |] vs]; try discriminate. bsplit.
  destruct vs; [|discriminate].
  assert (Hb : bind_len tag v [] = []) by (destruct v; try reflexivity; rewrite Hni in H; discriminate).
  cbn [mk_fields enc enc_fields view view_fields structure flat_map].
  rewrite Hb in *. unfold counted_list. cbn [bind_len] in *.
  unfold counted, len_ok in *. cbn [lookup_len] in *. rewrite String.eqb_refl in *.
  inversion Hd as [|? ? Hd1 Hd2]. inversion Hd2 as [|? ? Hd3 Hd4]. subst. cbn in Hd1, Hd3.
  unfold of_member. cbn [member]. rewrite !String.eqb_refl.
  destruct (String.eqb_spec tag cnt); [exfalso; intuition congruence|]. destruct (String.eqb_spec tag name); [exfalso; intuition congruence|].
  destruct (String.eqb_spec cnt name); [exfalso; intuition congruence|]. change (view u8 (VInt c)) with (Num c).
  apply N.leb_le in H3. unfold u8 in H0. cbn [wf] in H0. apply in_range_iff in H0. change (pow256 1) with 256 in H0.
  assert (Hu : usize c = Z.to_N c) by (unfold usize; rewrite Z.mod_small by lia; reflexivity).
  rewrite Hu in *. destruct (N.leb_spec (Z.to_N c) n); [|lia].
  rewrite !app_nil_r. rewrite Hf by assumption. f_equal.
  rewrite firstn_map, <- (flat_map_fit u8 BYTE) by (try exact (fits_u8 false); apply forallb_firstn; assumption).
  rewrite Z_N_nat. reflexivity.
Qed.

(** ** Unions *)
Definition args_fit (ts : list ty) (fs : list format) : Prop := Forall2 fits ts fs.
Definition variant_fits (x : Z * list ty) (y : Z * list format) : Prop :=
  fst x = fst y /\ args_fit (snd x) (snd y).

Lemma args_each ts fs : args_fit ts fs -> forall vs, wf_tys (mk_tys ts) vs = true ->
  enc_tys (mk_tys ts) vs = each fs (view_tys (mk_tys ts) vs).
Proof.
  induction 1 as [|t f ts fs Hf Hfs IH]; intros [|v vs] H; try discriminate; try reflexivity.
  cbn in *. bsplit. rewrite Hf, IH by assumption. reflexivity.
Qed.

Lemma variants_fit l l' : Forall2 variant_fits l l' -> forall sel args,
  wf_variant (mk_variants l) sel args = true ->
  enc_variant (mk_variants l) sel args
  = each (selected sel l') (view_variant (mk_variants l) sel args).
Proof.
  induction 1 as [|[s ts] [s' fs] l l' [Hs Hf] Hl IH]; intros sel args H; [discriminate|].
  cbn in Hs, Hf, H |- *. subst s'. destruct (sel =? s); [|apply IH, H].
  apply args_each; assumption.
Qed.

Lemma fits_union k l l' : Forall2 variant_fits l l' -> fits (enum k l) (UNION k l').
Proof.
  intros Hl [| | | | |sel args|] H; try discriminate. cbn [wf enc view enum] in *.
  unfold enum in *. cbn [wf enc view] in *.
  rewrite (variants_fit l l') by assumption. reflexivity.
Qed.

(** ** Every structure *)
Create HintDb fit.
Lemma fit_u8 : fits u8 BYTE. Proof. exact (fits_u8 false). Qed.
Lemma fit_u16 : fits u16 UINT16. Proof. exact (fits_u16 false). Qed.
Lemma fit_u32 : fits u32 UINT32. Proof. exact (fits_u32 false). Qed.
Lemma fit_u64 : fits u64 UINT64. Proof. exact (fits_u64 false). Qed.
#[export] Hint Resolve fit_u8 fit_u16 fit_u32 fit_u64 fits_unit fits_empty : fit.
Ltac newtypes := repeat (first [apply fits_newtype | solve [auto with fit]]).

Ltac fit_struct l := refine (fits_struct l _ _);
  [ apply nodup_names; vm_compute; reflexivity
  | repeat (apply Forall_cons; [unfold entry_fits; cbn [fst snd]; solve [auto with fit | newtypes]|]); apply Forall_nil ].
Ltac fit_union := refine (fits_union _ _ _ _);
  repeat (apply Forall2_cons;
    [ split; [reflexivity|cbn [fst snd map scheme];
      repeat (apply Forall2_cons; [solve [auto with fit | newtypes]|]); apply Forall2_nil]
    |]); apply Forall2_nil.
Ltac fit_sized := apply fits_tpm2b; vm_compute; reflexivity.
Ltac fit_list := apply fits_tpml; [vm_compute; reflexivity|discriminate|solve [auto with fit | newtypes]].

Lemma fit_ha : fits TpmtHa TPMT_HA.
Proof.
  refine (fits_union _ _ _ _). repeat (apply Forall2_cons;
    [split; [reflexivity|cbn [fst snd]; repeat constructor; apply fits_octets; reflexivity]|]). apply Forall2_nil.
Qed.
#[export] Hint Resolve fit_ha : fit.
Lemma fit_digest : fits Tpm2bDigest TPM2B_DIGEST. Proof. fit_sized. Qed.
Lemma fit_data : fits Tpm2bData TPM2B_DATA. Proof. fit_sized. Qed.
Lemma fit_name : fits Tpm2bName TPM2B_NAME. Proof. fit_sized. Qed.
Lemma fit_nv_buffer : fits Tpm2bMaxNvBuffer TPM2B_MAX_NV_BUFFER. Proof. fit_sized. Qed.
Lemma fit_sym_key : fits Tpm2bSymKey TPM2B_SYM_KEY. Proof. fit_sized. Qed.
Lemma fit_label : fits Tpm2bLabel TPM2B_LABEL. Proof. fit_sized. Qed.
Lemma fit_sensitive_data : fits Tpm2bSensitiveData TPM2B_SENSITIVE_DATA. Proof. fit_sized. Qed.
Lemma fit_public_key : fits Tpm2bPublicKeyRsa TPM2B_PUBLIC_KEY_RSA. Proof. fit_sized. Qed.
Lemma fit_private_key : fits Tpm2bPrivateKeyRsa TPM2B_PRIVATE_KEY_RSA. Proof. fit_sized. Qed.
Lemma fit_ecc_parameter : fits Tpm2bEccParameter TPM2B_ECC_PARAMETER. Proof. fit_sized. Qed.
Lemma fit_context_sensitive : fits Tpm2bContextSensitive TPM2B_CONTEXT_SENSITIVE. Proof. fit_sized. Qed.
Lemma fit_vendor : fits Tpm2bPrivateVendorSpecific (TPM2B 1280). Proof. fit_sized. Qed.
#[export] Hint Resolve fit_digest fit_data fit_name fit_nv_buffer fit_sym_key fit_label
  fit_sensitive_data fit_public_key fit_private_key fit_ecc_parameter fit_context_sensitive fit_vendor : fit.

Lemma fit_clock_info : fits TpmsClockInfo TPMS_CLOCK_INFO.
Proof. fit_struct [("clock", u64, UINT64); ("reset_count", u32, UINT32); ("restart_count", u32, UINT32); ("safe", TpmiYesNo, BYTE)]. Qed.
Lemma fit_pcr_selection : fits TpmsPcrSelection TPMS_PCR_SELECTION.
Proof.
  apply fits_selection; [|reflexivity|newtypes]. apply nodup_names; vm_compute; reflexivity.
Qed.
Lemma fit_tagged_pcr : fits TpmsTaggedPcrSelect TPMS_TAGGED_PCR_SELECT.
Proof.
  apply fits_selection; [|reflexivity|newtypes]. apply nodup_names; vm_compute; reflexivity.
Qed.
#[export] Hint Resolve fit_clock_info fit_pcr_selection fit_tagged_pcr : fit.
Lemma fit_pcr_selections : fits TpmlPcrSelection TPML_PCR_SELECTION. Proof. fit_list. Qed.
#[export] Hint Resolve fit_pcr_selections : fit.
Lemma fit_quote : fits TpmsQuoteInfo TPMS_QUOTE_INFO.
Proof. fit_struct [("pcr_select", TpmlPcrSelection, TPML_PCR_SELECTION); ("pcr_digest", Tpm2bDigest, TPM2B_DIGEST)]. Qed.
Lemma fit_creation : fits TpmsCreationInfo TPMS_CREATION_INFO.
Proof. fit_struct [("object_name", Tpm2bName, TPM2B_NAME); ("creation_hash", Tpm2bDigest, TPM2B_DIGEST)]. Qed.
Lemma fit_certify : fits TpmsCertifyInfo TPMS_CERTIFY_INFO.
Proof. fit_struct [("name", Tpm2bName, TPM2B_NAME); ("qualified_name", Tpm2bName, TPM2B_NAME)]. Qed.
Lemma fit_command_audit : fits TpmsCommandAuditInfo TPMS_COMMAND_AUDIT_INFO.
Proof. fit_struct [("audit_counter", u64, UINT64); ("digest_alg", u16, UINT16); ("audit_digest", Tpm2bDigest, TPM2B_DIGEST); ("command_digest", Tpm2bDigest, TPM2B_DIGEST)]. Qed.
Lemma fit_session_audit : fits TpmsSessionAuditInfo TPMS_SESSION_AUDIT_INFO.
Proof. fit_struct [("exclusive_session", TpmiYesNo, BYTE); ("session_digest", Tpm2bDigest, TPM2B_DIGEST)]. Qed.
Lemma fit_time_info : fits TpmsTimeInfo TPMS_TIME_INFO.
Proof. fit_struct [("time", u64, UINT64); ("clock_info", TpmsClockInfo, TPMS_CLOCK_INFO)]. Qed.
#[export] Hint Resolve fit_quote fit_creation fit_certify fit_command_audit fit_session_audit fit_time_info : fit.
Lemma fit_time_attest : fits TpmsTimeAttestInfo TPMS_TIME_ATTEST_INFO.
Proof. fit_struct [("time", TpmsTimeInfo, TPMS_TIME_INFO); ("firmware_version", u64, UINT64)]. Qed.
Lemma fit_nv_certify : fits TpmsNvCertifyInfo TPMS_NV_CERTIFY_INFO.
Proof. fit_struct [("index_name", Tpm2bName, TPM2B_NAME); ("offset", u16, UINT16); ("nv_contents", Tpm2bMaxNvBuffer, TPM2B_MAX_NV_BUFFER)]. Qed.
#[export] Hint Resolve fit_time_attest fit_nv_certify : fit.
Lemma fit_attest_union : fits TpmuAttest TPMU_ATTEST. Proof. fit_union. Qed.
Lemma fit_derive : fits TpmsDerive TPMS_DERIVE.
Proof. fit_struct [("label", Tpm2bLabel, TPM2B_LABEL); ("context", Tpm2bLabel, TPM2B_LABEL)]. Qed.
Lemma fit_sensitive_create : fits TpmsSensitiveCreate TPMS_SENSITIVE_CREATE.
Proof. fit_struct [("user_auth", Tpm2bDigest, TPM2B_DIGEST); ("data", Tpm2bSensitiveData, TPM2B_SENSITIVE_DATA)]. Qed.
Lemma fit_ecc_point : fits TpmsEccPoint TPMS_ECC_POINT.
Proof. fit_struct [("x", Tpm2bEccParameter, TPM2B_ECC_PARAMETER); ("y", Tpm2bEccParameter, TPM2B_ECC_PARAMETER)]. Qed.
Lemma fit_scheme_xor : fits TpmsSchemeXor TPMS_SCHEME_XOR.
Proof. fit_struct [("hash_alg", TpmiAlgHash, UINT16); ("kdf", TpmiAlgKdf, UINT16)]. Qed.
Lemma fit_scheme_hash : fits TpmsSchemeHash TPMS_SCHEME_HASH.
Proof. fit_struct [("hash_alg", TpmiAlgHash, UINT16)]. Qed.
Lemma fit_scheme_ecdaa : fits TpmsSchemeEcdaa TPMS_SCHEME_ECDAA.
Proof. fit_struct [("hash_alg", TpmiAlgHash, UINT16); ("count", u16, UINT16)]. Qed.
#[export] Hint Resolve fit_ecc_point fit_scheme_xor fit_scheme_hash fit_scheme_ecdaa : fit.
Lemma fit_keyedhash_scheme : fits TpmtKeyedHashScheme TPMT_KEYEDHASH_SCHEME. Proof. fit_union. Qed.
#[export] Hint Resolve fit_keyedhash_scheme : fit.
Lemma fit_keyedhash_parms : fits TpmsKeyedHashParms TPMS_KEYEDHASH_PARMS.
Proof. fit_struct [("scheme", TpmtKeyedHashScheme, TPMT_KEYEDHASH_SCHEME)]. Qed.
Lemma fit_sym_def : fits TpmtSymDefObject TPMT_SYM_DEF. Proof. fit_union. Qed.
#[export] Hint Resolve fit_keyedhash_parms fit_sym_def : fit.
Lemma fit_symcipher_parms : fits TpmsSymCipherParms TPMS_SYMCIPHER_PARMS.
Proof. fit_struct [("sym", TpmtSymDefObject, TPMT_SYM_DEF)]. Qed.
Lemma fit_signature_rsa : fits TpmsSignatureRsa TPMS_SIGNATURE_RSA.
Proof. fit_struct [("hash", TpmiAlgHash, UINT16); ("sig", Tpm2bPublicKeyRsa, TPM2B_PUBLIC_KEY_RSA)]. Qed.
Lemma fit_signature_ecc : fits TpmsSignatureEcc TPMS_SIGNATURE_ECC.
Proof. fit_struct [("hash", TpmiAlgHash, UINT16); ("signature_r", Tpm2bEccParameter, TPM2B_ECC_PARAMETER); ("signature_s", Tpm2bEccParameter, TPM2B_ECC_PARAMETER)]. Qed.
#[export] Hint Resolve fit_symcipher_parms fit_signature_rsa fit_signature_ecc : fit.
Lemma fit_signature : fits TpmtSignature TPMT_SIGNATURE. Proof. fit_union. Qed.
Lemma fit_sig_scheme : fits TpmtSigScheme TPMT_SIG_SCHEME. Proof. fit_union. Qed.
Lemma fit_rsa_scheme : fits TpmtRsaScheme TPMT_RSA_SCHEME. Proof. fit_union. Qed.
Lemma fit_ecc_scheme : fits TpmtEccScheme TPMT_ECC_SCHEME. Proof. fit_union. Qed.
Lemma fit_asym_scheme : fits TpmtAsymScheme TPMT_ASYM_SCHEME. Proof. fit_union. Qed.
Lemma fit_kdf_scheme : fits TpmtKdfScheme TPMT_KDF_SCHEME. Proof. fit_union. Qed.
#[export] Hint Resolve fit_rsa_scheme fit_ecc_scheme fit_asym_scheme fit_kdf_scheme : fit.
Lemma fit_rsa_parms : fits TpmsRsaParms TPMS_RSA_PARMS.
Proof. fit_struct [("symmetric", TpmtSymDefObject, TPMT_SYM_DEF); ("scheme", TpmtRsaScheme, TPMT_RSA_SCHEME); ("key_bits", TpmiRsaKeyBits, UINT16); ("exponent", u32, UINT32)]. Qed.
Lemma fit_ecc_parms : fits TpmsEccParms TPMS_ECC_PARMS.
Proof. fit_struct [("symmetric", TpmtSymDefObject, TPMT_SYM_DEF); ("scheme", TpmtEccScheme, TPMT_ECC_SCHEME); ("curve_id", TpmiEccCurve, UINT16); ("kdf", TpmtKdfScheme, TPMT_KDF_SCHEME)]. Qed.
Lemma fit_asym_parms : fits TpmsAsymParms TPMS_ASYM_PARMS.
Proof. fit_struct [("symmetric", TpmtSymDefObject, TPMT_SYM_DEF); ("scheme", TpmtAsymScheme, TPMT_ASYM_SCHEME)]. Qed.
#[export] Hint Resolve fit_rsa_parms fit_ecc_parms : fit.
Lemma fit_public_union : fits PublicParmsAndId (UNION 2 public_members). Proof. fit_union. Qed.
Lemma fit_sensitive_union : fits TpmuSensitiveComposite (UNION 2 sensitive_members). Proof. fit_union. Qed.
Lemma fit_alg_property : fits TpmsAlgProperty TPMS_ALG_PROPERTY.
Proof. fit_struct [("alg", TpmAlgId, UINT16); ("alg_properties", TpmaAlgorithm, UINT32)]. Qed.
Lemma fit_tagged_property : fits TpmsTaggedProperty TPMS_TAGGED_PROPERTY.
Proof. fit_struct [("property", TpmPt, UINT32); ("value", u32, UINT32)]. Qed.
Lemma fit_tagged_policy : fits TpmsTaggedPolicy TPMS_TAGGED_POLICY.
Proof. fit_struct [("handle", TpmHandle, UINT32); ("policy_hash", TpmtHa, TPMT_HA)]. Qed.
#[export] Hint Resolve fit_alg_property fit_tagged_property fit_tagged_policy : fit.
Lemma fit_alg_properties : fits TpmlAlgProperty TPML_ALG_PROPERTY. Proof. fit_list. Qed.
Lemma fit_handles : fits TpmlHandle TPML_HANDLE. Proof. fit_list. Qed.
Lemma fit_ccas : fits TpmlCca TPML_CCA. Proof. fit_list. Qed.
Lemma fit_ccs : fits TpmlCc TPML_CC. Proof. fit_list. Qed.
Lemma fit_tpm_properties : fits TpmlTaggedTpmProperty TPML_TAGGED_TPM_PROPERTY. Proof. fit_list. Qed.
Lemma fit_pcr_properties : fits TpmlTaggedPcrProperty TPML_TAGGED_PCR_PROPERTY. Proof. fit_list. Qed.
Lemma fit_curves : fits TpmlEccCurve TPML_ECC_CURVE. Proof. fit_list. Qed.
Lemma fit_policies : fits TpmlTaggedPolicy TPML_TAGGED_POLICY. Proof. fit_list. Qed.
Lemma fit_digests : fits TpmlDigest TPML_DIGEST. Proof. fit_list. Qed.
#[export] Hint Resolve fit_alg_properties fit_handles fit_ccas fit_ccs fit_tpm_properties
  fit_pcr_properties fit_curves fit_policies fit_digests : fit.
Lemma fit_capability_data : fits TpmsCapabilityData TPMS_CAPABILITY_DATA. Proof. fit_union. Qed.
#[export] Hint Resolve fit_capability_data : fit.
Lemma fit_auth_command : fits TpmsAuthCommand TPMS_AUTH_COMMAND.
Proof. fit_struct [("session_handle", TpmiShAuthSession, UINT32); ("nonce", Tpm2bDigest, TPM2B_DIGEST); ("session_attributes", TpmaSession, BYTE); ("hmac", Tpm2bDigest, TPM2B_DIGEST)]. Qed.
Lemma fit_auth_response : fits TpmsAuthResponse TPMS_AUTH_RESPONSE.
Proof. fit_struct [("nonce", Tpm2bDigest, TPM2B_DIGEST); ("session_attributes", TpmaSession, BYTE); ("hmac", Tpm2bData, TPM2B_DATA)]. Qed.
Lemma fit_id_object : fits TpmsIdObject TPMS_ID_OBJECT.
Proof. fit_struct [("integrity_hmac", Tpm2bDigest, TPM2B_DIGEST); ("enc_identity", Tpm2bDigest, TPM2B_DIGEST)]. Qed.
Lemma fit_nv_public : fits TpmsNvPublic TPMS_NV_PUBLIC.
Proof. fit_struct [("nv_index", TpmiRhNvIndex, UINT32); ("name_alg", TpmiAlgHash, UINT16); ("attributes", TpmaNv, UINT32); ("auth_policy", Tpm2bDigest, TPM2B_DIGEST); ("data_size", u16, UINT16)]. Qed.
Lemma fit_context_data : fits TpmsContextData TPMS_CONTEXT_DATA.
Proof. fit_struct [("integrity", Tpm2bDigest, TPM2B_DIGEST); ("encrypted", Tpm2bContextSensitive, TPM2B_CONTEXT_SENSITIVE)]. Qed.
Lemma fit_creation_data : fits TpmsCreationData TPMS_CREATION_DATA.
Proof. fit_struct [("pcr_select", TpmlPcrSelection, TPML_PCR_SELECTION); ("pcr_digest", Tpm2bDigest, TPM2B_DIGEST); ("locality", TpmaLocality, BYTE); ("parent_name_alg", TpmAlgId, UINT16); ("parent_name", Tpm2bName, TPM2B_NAME); ("parent_qualified_name", Tpm2bName, TPM2B_NAME); ("outside_info", Tpm2bData, TPM2B_DATA)]. Qed.
Lemma fit_get_capability_cmd : fits GetCapabilityCmd TPM2_GetCapability_In.
Proof. fit_struct [("capability", TpmCap, UINT32); ("property", TpmPt, UINT32); ("property_count", u32, UINT32)]. Qed.
Lemma fit_get_capability_resp : fits GetCapabilityResp TPM2_GetCapability_Out.
Proof. fit_struct [("more_data", TpmiYesNo, BYTE); ("capability_data", TpmsCapabilityData, TPMS_CAPABILITY_DATA)]. Qed.
Lemma fit_pcr_read_cmd : fits PcrReadCmd TPM2_PCR_Read_In.
Proof. fit_struct [("pcr_selection_in", TpmlPcrSelection, TPML_PCR_SELECTION)]. Qed.
Lemma fit_pcr_read_resp : fits PcrReadResp TPM2_PCR_Read_Out.
Proof. fit_struct [("pcr_update_counter", u32, UINT32); ("pcr_selection_out", TpmlPcrSelection, TPML_PCR_SELECTION); ("pcr_values", TpmlDigest, TPML_DIGEST)]. Qed.
Lemma fit_get_random_cmd : fits GetRandomCmd TPM2_GetRandom_In.
Proof. fit_struct [("bytes_requested", u16, UINT16)]. Qed.
Lemma fit_get_random_resp : fits GetRandomResp TPM2_GetRandom_Out.
Proof. fit_struct [("random_bytes", Tpm2bDigest, TPM2B_DIGEST)]. Qed.
Lemma fit_startup_cmd : fits StartupCmd TPM2_Startup_In.
Proof. fit_struct [("startup_type", TpmSu, UINT16)]. Qed.
Lemma fit_cmd_header : fits CmdHeader command_header.
Proof. fit_struct [("tag", TpmiStCommandTag, UINT16); ("size", u32, UINT32); ("code", TpmCc, UINT32)]. Qed.
Lemma fit_resp_header : fits RespHeader response_header.
Proof. fit_struct [("tag", TpmSt, UINT16); ("size", u32, UINT32); ("rc", u32, UINT32)]. Qed.
