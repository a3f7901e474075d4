(** Layout of the structures against TPM 2.0 Part 2 (C54). *)
From Coq Require Import String ZArith NArith List Lia Bool.
From Coq Require Import Init.Byte.
From Verif Require Import Prelude Types Marshal WireSpec MarshalProofs MarshalWrite Layout Catalogue Samples MarshalFacts Part2 Handwritten LayoutProofs.
Import ListNotations.
Local Open Scope string_scope.
Local Open Scope list_scope.
Open Scope Z_scope.

(** The specified format of each type. *)
Definition part2 : list (ty * format) := [
  (u8, BYTE); (u16, UINT16); (u32, UINT32); (u64, UINT64);
  (TInt true 1, BYTE); (TInt true 2, UINT16); (TInt true 4, UINT32); (TInt true 8, UINT64);
  (TUnit, EMPTY);
  (TpmAlgId, UINT16); (TpmEccCurve, UINT16); (TpmCc, UINT32); (TpmSt, UINT16); (TpmSu, UINT16);
  (TpmCap, UINT32); (TpmPt, UINT32); (TpmPtPcr, UINT32); (TpmHandle, UINT32); (TpmHc, UINT32);
  (TpmGenerated, UINT32); (TpmaLocality, BYTE); (TpmaNv, UINT32); (TpmiAlgHash, UINT16);
  (TpmiAlgKdf, UINT16); (TpmiAlgPublic, UINT16); (TpmiAlgSymMode, UINT16);
  (TpmiAlgSymObject, UINT16); (TpmiAlgKeyedhashScheme, UINT16); (TpmiAlgRsaScheme, UINT16);
  (TpmiAlgSigScheme, UINT16); (TpmiAlgEccScheme, UINT16); (TpmiAlgAsymScheme, UINT16);
  (TpmiRhNvIndex, UINT32); (TpmiShAuthSession, UINT32); (TpmiEccCurve, UINT16);
  (TpmiYesNo, BYTE); (TpmiStAttest, UINT16); (TpmiAesKeyBits, UINT16); (TpmiSm4KeyBits, UINT16);
  (TpmiCamelliaKeyBits, UINT16); (TpmiRsaKeyBits, UINT16); (TpmaObject, UINT32);
  (TpmaAlgorithm, UINT32); (TpmaSession, BYTE); (TpmaCc, UINT32); (TpmiStCommandTag, UINT16);
  (TpmsEmpty, EMPTY); (TpmtHa, TPMT_HA); (Tpm2bDigest, TPM2B_DIGEST); (Tpm2bData, TPM2B_DATA);
  (Tpm2bEvent, TPM2B 1024); (Tpm2bMaxBuffer, TPM2B 1024); (Tpm2bMaxNvBuffer, TPM2B_MAX_NV_BUFFER);
  (Tpm2bIv, TPM2B 16); (Tpm2bName, TPM2B_NAME); (TpmsClockInfo, TPMS_CLOCK_INFO);
  (TpmsPcrSelection, TPMS_PCR_SELECTION); (TpmlPcrSelection, TPML_PCR_SELECTION);
  (TpmsQuoteInfo, TPMS_QUOTE_INFO); (TpmsCreationInfo, TPMS_CREATION_INFO);
  (TpmsCertifyInfo, TPMS_CERTIFY_INFO); (TpmsCommandAuditInfo, TPMS_COMMAND_AUDIT_INFO);
  (TpmsSessionAuditInfo, TPMS_SESSION_AUDIT_INFO); (TpmsTimeInfo, TPMS_TIME_INFO);
  (TpmsTimeAttestInfo, TPMS_TIME_ATTEST_INFO); (TpmsNvCertifyInfo, TPMS_NV_CERTIFY_INFO);
  (TpmuAttest, TPMU_ATTEST); (Tpm2bAttest, TPM2B 2304); (Tpm2bSymKey, TPM2B_SYM_KEY);
  (Tpm2bLabel, TPM2B_LABEL); (TpmsDerive, TPMS_DERIVE); (Tpm2bSensitiveData, TPM2B_SENSITIVE_DATA);
  (TpmsSensitiveCreate, TPMS_SENSITIVE_CREATE); (Tpm2bSensitiveCreate, TPM2B 324);
  (Tpm2bPublicKeyRsa, TPM2B_PUBLIC_KEY_RSA); (Tpm2bPrivateKeyRsa, TPM2B_PRIVATE_KEY_RSA);
  (Tpm2bEccParameter, TPM2B_ECC_PARAMETER); (TpmsEccPoint, TPMS_ECC_POINT);
  (Tpm2bEncryptedSecret, TPM2B 512); (TpmsSchemeXor, TPMS_SCHEME_XOR);
  (TpmsSchemeHash, TPMS_SCHEME_HASH); (TpmsSchemeEcdaa, TPMS_SCHEME_ECDAA);
  (TpmtKeyedHashScheme, TPMT_KEYEDHASH_SCHEME); (TpmsKeyedHashParms, TPMS_KEYEDHASH_PARMS);
  (TpmtSymDefObject, TPMT_SYM_DEF); (TpmsSymCipherParms, TPMS_SYMCIPHER_PARMS);
  (TpmsSignatureRsa, TPMS_SIGNATURE_RSA); (TpmsSignatureEcc, TPMS_SIGNATURE_ECC);
  (TpmtSignature, TPMT_SIGNATURE); (TpmtSigScheme, TPMT_SIG_SCHEME); (TpmtRsaScheme, TPMT_RSA_SCHEME);
  (TpmsRsaParms, TPMS_RSA_PARMS); (TpmtEccScheme, TPMT_ECC_SCHEME); (TpmtKdfScheme, TPMT_KDF_SCHEME);
  (TpmsEccParms, TPMS_ECC_PARMS); (TpmtAsymScheme, TPMT_ASYM_SCHEME); (TpmsAsymParms, TPMS_ASYM_PARMS);
  (PublicParmsAndId, UNION 2 public_members); (Tpm2bPublic, TPM2B 616); (Tpm2bTemplate, TPM2B 616);
  (Tpm2bPrivateVendorSpecific, TPM2B 1280); (TpmuSensitiveComposite, UNION 2 sensitive_members);
  (TpmsAlgProperty, TPMS_ALG_PROPERTY); (TpmsTaggedProperty, TPMS_TAGGED_PROPERTY);
  (TpmsTaggedPcrSelect, TPMS_TAGGED_PCR_SELECT); (TpmsTaggedPolicy, TPMS_TAGGED_POLICY);
  (TpmlAlgProperty, TPML_ALG_PROPERTY); (TpmlHandle, TPML_HANDLE); (TpmlCca, TPML_CCA);
  (TpmlCc, TPML_CC); (TpmlTaggedTpmProperty, TPML_TAGGED_TPM_PROPERTY);
  (TpmlTaggedPcrProperty, TPML_TAGGED_PCR_PROPERTY); (TpmlEccCurve, TPML_ECC_CURVE);
  (TpmlTaggedPolicy, TPML_TAGGED_POLICY); (TpmlDigest, TPML_DIGEST);
  (TpmsCapabilityData, TPMS_CAPABILITY_DATA); (TpmsAuthCommand, TPMS_AUTH_COMMAND);
  (TpmsAuthResponse, TPMS_AUTH_RESPONSE); (Tpm2bPrivate, TPM2B 1550); (TpmsIdObject, TPMS_ID_OBJECT);
  (Tpm2bIdObject, TPM2B 132); (TpmsNvPublic, TPMS_NV_PUBLIC);
  (Tpm2bContextSensitive, TPM2B_CONTEXT_SENSITIVE); (TpmsContextData, TPMS_CONTEXT_DATA);
  (Tpm2bContextData, TPM2B 5188); (TpmsCreationData, TPMS_CREATION_DATA); (Tpm2bCreationData, TPM2B 404);
  (GetCapabilityCmd, TPM2_GetCapability_In); (GetCapabilityResp, TPM2_GetCapability_Out);
  (PcrReadCmd, TPM2_PCR_Read_In); (PcrReadResp, TPM2_PCR_Read_Out);
  (GetRandomCmd, TPM2_GetRandom_In); (GetRandomResp, TPM2_GetRandom_Out);
  (StartupCmd, TPM2_Startup_In); (CmdHeader, command_header); (RespHeader, response_header)].

#[export] Hint Resolve fits_u8 fits_u16 fits_u32 fits_u64 fit_attest_union fit_derive fit_sensitive_create
  fit_signature fit_sig_scheme fit_asym_parms fit_public_union fit_sensitive_union fit_auth_command
  fit_auth_response fit_id_object fit_nv_public fit_context_data fit_creation_data
  fit_get_capability_cmd fit_get_capability_resp fit_pcr_read_cmd fit_pcr_read_resp
  fit_get_random_cmd fit_get_random_resp fit_startup_cmd fit_cmd_header fit_resp_header : fit.

Lemma part2_fits : Forall (fun x => fits (fst x) (snd x)) part2.
Proof.
  unfold part2.
  repeat (apply Forall_cons; [cbn [fst snd]; first [solve [auto with fit] | solve [newtypes] | fit_sized] |]).
  apply Forall_nil.
Qed.

(** Sized buffers and their capacities, lists and their bounds, unions, the
    width of their selector and the selectors. *)
Definition sized_buffers : list (ty * N) := [
  (Tpm2bDigest, 64); (Tpm2bData, 64); (Tpm2bEvent, 1024); (Tpm2bMaxBuffer, 1024);
  (Tpm2bMaxNvBuffer, 2048); (Tpm2bIv, 16); (Tpm2bName, 66); (Tpm2bAttest, 2304); (Tpm2bSymKey, 32);
  (Tpm2bLabel, 32); (Tpm2bSensitiveData, 256); (Tpm2bSensitiveCreate, 324); (Tpm2bPublicKeyRsa, 512);
  (Tpm2bPrivateKeyRsa, 256); (Tpm2bEccParameter, 128); (Tpm2bEncryptedSecret, 512);
  (Tpm2bPublic, 616); (Tpm2bTemplate, 616); (Tpm2bPrivateVendorSpecific, 1280); (Tpm2bPrivate, 1550);
  (Tpm2bIdObject, 132); (Tpm2bContextSensitive, 5120); (Tpm2bContextData, 5188);
  (Tpm2bCreationData, 404)]%N.
Definition lists : list (ty * ty * Z) := [
  (TpmlPcrSelection, TpmsPcrSelection, 16); (TpmlAlgProperty, TpmsAlgProperty, 127); (TpmlHandle, TpmHandle, 254);
  (TpmlCca, TpmaCc, 254); (TpmlCc, TpmCc, 254); (TpmlTaggedTpmProperty, TpmsTaggedProperty, 127);
  (TpmlTaggedPcrProperty, TpmsTaggedPcrSelect, 84); (TpmlEccCurve, TpmEccCurve, 508);
  (TpmlTaggedPolicy, TpmsTaggedPolicy, 14); (TpmlDigest, Tpm2bDigest, 8)].
Definition unions : list (ty * nat * list Z) := [
  (TpmtHa, 2%nat, [TPM_ALG_SHA1; TPM_ALG_SHA256; TPM_ALG_SHA384; TPM_ALG_SHA512; TPM_ALG_SM3_256]);
  (TpmuAttest, 2%nat, [TPM_ST_ATTEST_CERTIFY; TPM_ST_ATTEST_CREATION; TPM_ST_ATTEST_QUOTE;
     TPM_ST_ATTEST_COMMAND_AUDIT; TPM_ST_ATTEST_SESSION_AUDIT; TPM_ST_ATTEST_TIME; TPM_ST_ATTEST_NV]);
  (TpmtKeyedHashScheme, 2%nat, [TPM_ALG_HMAC; TPM_ALG_XOR; TPM_ALG_NULL]);
  (TpmtSymDefObject, 2%nat, [TPM_ALG_AES; TPM_ALG_SM4; TPM_ALG_CAMELLIA; TPM_ALG_XOR; TPM_ALG_NULL]);
  (TpmtSignature, 2%nat, [TPM_ALG_RSASSA; TPM_ALG_RSAPSS; TPM_ALG_ECDSA; TPM_ALG_ECDAA; TPM_ALG_SM2;
     TPM_ALG_ECSCHNORR; TPM_ALG_HMAC; TPM_ALG_NULL]);
  (TpmtSigScheme, 2%nat, [TPM_ALG_RSASSA; TPM_ALG_RSAPSS; TPM_ALG_ECDSA; TPM_ALG_ECDAA; TPM_ALG_SM2;
     TPM_ALG_ECSCHNORR; TPM_ALG_HMAC; TPM_ALG_NULL]);
  (TpmtRsaScheme, 2%nat, [TPM_ALG_RSAPSS; TPM_ALG_RSASSA; TPM_ALG_ECDSA; TPM_ALG_ECDAA; TPM_ALG_SM2;
     TPM_ALG_ECSCHNORR; TPM_ALG_RSAES; TPM_ALG_OAEP; TPM_ALG_NULL]);
  (TpmtEccScheme, 2%nat, [TPM_ALG_RSAPSS; TPM_ALG_RSASSA; TPM_ALG_ECDSA; TPM_ALG_ECDAA; TPM_ALG_SM2;
     TPM_ALG_ECSCHNORR; TPM_ALG_ECDH; TPM_ALG_ECMQV; TPM_ALG_NULL]);
  (TpmtKdfScheme, 2%nat, [TPM_ALG_MGF1; TPM_ALG_KDF1_SP800_56A; TPM_ALG_KDF2; TPM_ALG_KDF1_SP800_108;
     TPM_ALG_NULL]);
  (TpmtAsymScheme, 2%nat, [TPM_ALG_ECDH; TPM_ALG_ECMQV; TPM_ALG_SM2; TPM_ALG_RSAPSS; TPM_ALG_RSASSA;
     TPM_ALG_ECDSA; TPM_ALG_ECDAA; TPM_ALG_ECSCHNORR; TPM_ALG_RSAES; TPM_ALG_OAEP; TPM_ALG_NULL]);
  (PublicParmsAndId, 2%nat, [TPM_ALG_KEYEDHASH; TPM_ALG_SYMCIPHER; TPM_ALG_RSA; TPM_ALG_ECC]);
  (TpmuSensitiveComposite, 2%nat, [TPM_ALG_RSA; TPM_ALG_ECC; TPM_ALG_KEYEDHASH; TPM_ALG_SYMCIPHER;
     TPM_ALG_NULL]);
  (TpmsCapabilityData, 4%nat, [0; 1; 2; 3; 4; 5; 6; 7; 8; 9])].

(** Values of the hand-written structures under the names of the declaration. *)
Definition view_union (vrs : variants) (u : union) : data :=
  Chosen (discriminant u) (view_variant vrs (discriminant u) (variant_fields u)).
Definition attest_view (x : TpmsAttest_t) : data := Rec [
  ("magic", view TpmGenerated (magic x)); ("qualified_signer", view Tpm2bName (qualified_signer x));
  ("extra_data", view Tpm2bData (extra_data x)); ("clock_info", view TpmsClockInfo (clock_info x));
  ("firmware_version", view u64 (firmware_version x));
  ("attested", view_union attest_variants (attested x))].
Definition public_view (x : TpmtPublic_t) : data := Rec [
  ("name_alg", view TpmiAlgHash (name_alg x)); ("object_attributes", view TpmaObject (object_attributes x));
  ("auth_policy", view Tpm2bDigest (auth_policy x));
  ("parms_and_id", view_union public_variants (parms_and_id x))].
Definition sensitive_view (x : TpmtSensitive_t) : data := Rec [
  ("auth_value", view Tpm2bDigest (auth_value x)); ("seed_value", view Tpm2bDigest (seed_value x));
  ("sensitive", view_union sensitive_variants (sensitive x))].
(** What the type checker guarantees of their fields. *)
Definition attest_wf (x : TpmsAttest_t) : Prop := wf TpmsAttest (attest_val x) = true.
Definition public_wf (x : TpmtPublic_t) : Prop := wf TpmtPublic (public_val x) = true.
Definition sensitive_wf (x : TpmtSensitive_t) : Prop := wf TpmtSensitive (sensitive_val x) = true.

Lemma attest_union_fits : Forall2 variant_fits
  [(st_AttestCertify, [TpmsCertifyInfo]); (st_AttestCreation, [TpmsCreationInfo]);
   (st_AttestQuote, [TpmsQuoteInfo]); (st_AttestCommandAudit, [TpmsCommandAuditInfo]);
   (st_AttestSessionAudit, [TpmsSessionAuditInfo]); (st_AttestTime, [TpmsTimeAttestInfo]);
   (st_AttestNV, [TpmsNvCertifyInfo])] attest_members.
Proof.
  repeat (apply Forall2_cons;
    [ split; [reflexivity|cbn [fst snd];
      repeat (apply Forall2_cons; [solve [auto with fit]|]); apply Forall2_nil]
    |]); apply Forall2_nil.
Qed.
Lemma public_union_fits : Forall2 variant_fits
  [(alg_KeyedHash, [TpmsKeyedHashParms; Tpm2bDigest]);
   (alg_SymCipher, [TpmsSymCipherParms; Tpm2bDigest]);
   (alg_RSA, [TpmsRsaParms; Tpm2bPublicKeyRsa]); (alg_ECC, [TpmsEccParms; TpmsEccPoint])] public_members.
Proof.
  repeat (apply Forall2_cons;
    [ split; [reflexivity|cbn [fst snd];
      repeat (apply Forall2_cons; [solve [auto with fit]|]); apply Forall2_nil]
    |]); apply Forall2_nil.
Qed.
Lemma sensitive_union_fits : Forall2 variant_fits
  [(alg_RSA, [Tpm2bPrivateKeyRsa]); (alg_ECC, [Tpm2bEccParameter]);
   (alg_KeyedHash, [Tpm2bSensitiveData]); (alg_SymCipher, [Tpm2bSymKey]);
   (alg_Null, [Tpm2bPrivateVendorSpecific])] sensitive_members.
Proof.
  repeat (apply Forall2_cons;
    [ split; [reflexivity|cbn [fst snd];
      repeat (apply Forall2_cons; [solve [auto with fit]|]); apply Forall2_nil]
    |]); apply Forall2_nil.
Qed.

Lemma fit_attest x : attest_wf x -> enc TpmsAttest (attest_val x) = TPMS_ATTEST (attest_view x).
Proof.
  unfold attest_wf. intros H. unfold attest_val, union_val in *. rewrite c22_attest_layout.
  unfold TpmsAttest in H. cbn [wf wf_tys mk_tys] in H. bsplit.
  change (TPMS_ATTEST (attest_view x)) with
    (UINT32 (view TpmGenerated (magic x)) ++ SELECTOR 2 (view_union attest_variants (attested x))
     ++ TPM2B_NAME (view Tpm2bName (qualified_signer x)) ++ TPM2B_DATA (view Tpm2bData (extra_data x))
     ++ TPMS_CLOCK_INFO (view TpmsClockInfo (clock_info x)) ++ UINT64 (view u64 (firmware_version x))
     ++ SELECTED attest_members (view_union attest_variants (attested x)) ++ []).
  rewrite <- fit_name, <- fit_data, <- fit_clock_info, <- fit_u64,
    <- (fits_newtype _ _ fit_u32 : fits TpmGenerated UINT32) by assumption.
  rewrite app_nil_r. unfold view_union. cbn [SELECTOR SELECTED].
  rewrite <- (variants_fit _ attest_members attest_union_fits); [reflexivity|assumption].
Qed.

Lemma fit_public x : public_wf x -> enc TpmtPublic (public_val x) = TPMT_PUBLIC (public_view x).
Proof.
  unfold public_wf. intros H. unfold public_val, union_val in *. rewrite c22_public_layout.
  unfold TpmtPublic in H. cbn [wf wf_tys mk_tys] in H. bsplit.
  change (TPMT_PUBLIC (public_view x)) with
    (SELECTOR 2 (view_union public_variants (parms_and_id x))
     ++ UINT16 (view TpmiAlgHash (name_alg x)) ++ UINT32 (view TpmaObject (object_attributes x))
     ++ TPM2B_DIGEST (view Tpm2bDigest (auth_policy x))
     ++ SELECTED public_members (view_union public_variants (parms_and_id x)) ++ []).
  rewrite <- fit_digest, <- (fits_newtype _ _ fit_u32 : fits TpmaObject UINT32),
    <- (fits_newtype _ _ fit_u16 : fits TpmiAlgHash UINT16) by assumption.
  rewrite app_nil_r. unfold view_union. cbn [SELECTOR SELECTED].
  rewrite <- (variants_fit _ public_members public_union_fits); [reflexivity|assumption].
Qed.

Lemma fit_sensitive x : sensitive_wf x -> enc TpmtSensitive (sensitive_val x) = TPMT_SENSITIVE (sensitive_view x).
Proof.
  unfold sensitive_wf. intros H. unfold sensitive_val, union_val in *. rewrite c22_sensitive_layout.
  unfold TpmtSensitive in H. cbn [wf wf_tys mk_tys] in H. bsplit.
  change (TPMT_SENSITIVE (sensitive_view x)) with
    (SELECTOR 2 (view_union sensitive_variants (sensitive x))
     ++ TPM2B_DIGEST (view Tpm2bDigest (auth_value x)) ++ TPM2B_DIGEST (view Tpm2bDigest (seed_value x))
     ++ SELECTED sensitive_members (view_union sensitive_variants (sensitive x)) ++ []).
  rewrite <- !fit_digest by assumption.
  rewrite app_nil_r. unfold view_union. cbn [SELECTOR SELECTED].
  rewrite <- (variants_fit _ sensitive_members sensitive_union_fits); [reflexivity|assumption].
Qed.

Lemma part2_types_wf : forallb (fun x => wf_ty (fst x)) part2 = true.
Proof. vm_compute. reflexivity. Qed.

(** ** C54 *)

(** Marshalling writes the specified bytes and nothing else, and reports their number. *)
Theorem c54_layout t f v buf :
  In (t, f) part2 -> wf t v = true -> (length (f (view t v)) <= length buf)%nat ->
  marshal t v buf = (f (view t v) ++ skipn (length (f (view t v))) buf, Ok (length (f (view t v)))).
Proof.
  intros Hin Hv Hl. pose proof part2_fits as Hp. rewrite Forall_forall in Hp.
  specialize (Hp _ Hin v Hv). cbn [fst snd] in Hp. rewrite <- Hp in *.
  rewrite marshal_fits by assumption. reflexivity.
Qed.

(** Unmarshalling the specified bytes gives the value. *)
Theorem c54_decoding t f v rest :
  In (t, f) part2 -> wf t v = true -> canonical t v ->
  unmarshal t (f (view t v) ++ rest) = (Ok v, rest).
Proof.
  intros Hin Hv Hc. pose proof part2_fits as Hp. rewrite Forall_forall in Hp.
  specialize (Hp _ Hin v Hv). cbn [fst snd] in Hp. rewrite <- Hp.
  pose proof part2_types_wf as Ht. rewrite forallb_forall in Ht. specialize (Ht _ Hin).
  rewrite unm_enc by assumption. rewrite Hc. reflexivity.
Qed.

(** No type is left out. *)
Theorem c54_complete t :
  In t base_types -> In t (map fst part2) \/ t = TpmsAttest \/ t = TpmtPublic \/ t = TpmtSensitive.
Proof.
  set (l := map fst part2).
  assert (E : base_types = firstn 67 l ++ TpmsAttest :: firstn 31 (skipn 67 l)
    ++ TpmtPublic :: firstn 4 (skipn 98 l) ++ TpmtSensitive :: skipn 102 l) by reflexivity.
  rewrite E. clear E. clearbody l.
  assert (Hf : forall n, incl (firstn n l) l)
    by (intros n x Hx; rewrite <- (firstn_skipn n l); apply in_or_app; auto).
  assert (Hs : forall n, incl (skipn n l) l)
    by (intros n x Hx; rewrite <- (firstn_skipn n l); apply in_or_app; auto).
  assert (Hfs : forall m n, incl (firstn m (skipn n l)) l).
  { intros m n x Hx. apply (Hs n). rewrite <- (firstn_skipn m (skipn n l)). apply in_or_app; auto. }
  intros H. repeat (apply in_app_or in H; destruct H as [H|H]; [left; first [exact (Hf _ _ H) | exact (Hfs _ _ _ H)]|];
    destruct H as [H|H]; [subst; auto|]). left. exact (Hs _ _ H).
Qed.

(** The hand-written implementations. *)
Theorem c54_attest x buf :
  attest_wf x -> (length (TPMS_ATTEST (attest_view x)) <= length buf)%nat ->
  attest_try_marshal x buf
  = (TPMS_ATTEST (attest_view x) ++ skipn (length (TPMS_ATTEST (attest_view x))) buf,
     Ok (length (TPMS_ATTEST (attest_view x)))).
Proof.
  intros Hx. rewrite <- fit_attest by assumption. intros Hl.
  rewrite attest_try_marshal_ok, marshal_fits by assumption. reflexivity.
Qed.

Theorem c54_public x buf :
  public_wf x -> (length (TPMT_PUBLIC (public_view x)) <= length buf)%nat ->
  public_try_marshal x buf
  = (TPMT_PUBLIC (public_view x) ++ skipn (length (TPMT_PUBLIC (public_view x))) buf,
     Ok (length (TPMT_PUBLIC (public_view x)))).
Proof.
  intros Hx. rewrite <- fit_public by assumption. intros Hl.
  rewrite public_try_marshal_ok, marshal_fits by assumption. reflexivity.
Qed.

Theorem c54_sensitive x buf :
  sensitive_wf x -> (length (TPMT_SENSITIVE (sensitive_view x)) <= length buf)%nat ->
  sensitive_try_marshal x buf
  = (TPMT_SENSITIVE (sensitive_view x) ++ skipn (length (TPMT_SENSITIVE (sensitive_view x))) buf,
     Ok (length (TPMT_SENSITIVE (sensitive_view x)))).
Proof.
  intros Hx. rewrite <- fit_sensitive by assumption. intros Hl.
  rewrite sensitive_try_marshal_ok, marshal_fits by assumption. reflexivity.
Qed.

(** What they decode is encoded, by the specification, as the bytes consumed. *)
Theorem c54_attest_decoding b x rest :
  attest_try_unmarshal b = (Ok x, rest) -> attest_wf x /\ b = TPMS_ATTEST (attest_view x) ++ rest.
Proof.
  intros E. assert (E' : unmarshal TpmsAttest b = (Ok (attest_val x), rest))
    by (rewrite <- attest_try_unmarshal_ok, E; reflexivity).
  apply unm_inv in E'; [|reflexivity]. destruct E' as (Hv & _ & ->).
  split; [exact Hv|]. rewrite fit_attest by exact Hv. reflexivity.
Qed.

Theorem c54_public_decoding b x rest :
  public_try_unmarshal b = (Ok x, rest) -> public_wf x /\ b = TPMT_PUBLIC (public_view x) ++ rest.
Proof.
  intros E. assert (E' : unmarshal TpmtPublic b = (Ok (public_val x), rest))
    by (rewrite <- public_try_unmarshal_ok, E; reflexivity).
  apply unm_inv in E'; [|reflexivity]. destruct E' as (Hv & _ & ->).
  split; [exact Hv|]. rewrite fit_public by exact Hv. reflexivity.
Qed.

Theorem c54_sensitive_decoding b x rest :
  sensitive_try_unmarshal b = (Ok x, rest) -> sensitive_wf x /\ b = TPMT_SENSITIVE (sensitive_view x) ++ rest.
Proof.
  intros E. assert (E' : unmarshal TpmtSensitive b = (Ok (sensitive_val x), rest))
    by (rewrite <- sensitive_try_unmarshal_ok, E; reflexivity).
  apply unm_inv in E'; [|reflexivity]. destruct E' as (Hv & _ & ->).
  split; [exact Hv|]. rewrite fit_sensitive by exact Hv. reflexivity.
Qed.

(** Capacities: a sized buffer takes its capacity and no byte more. *)
Theorem c54_capacity_partial t max l rest :
  In (t, max) sized_buffers -> Z.of_nat (length l) < 65536 ->
  if (N.of_nat (length l) <=? max)%N
  then exists v, unmarshal t (be_bytes 2 (Z.of_nat (length l)) ++ l ++ rest) = (Ok v, rest)
                 /\ view t v = Sized l
  else unmarshal t (be_bytes 2 (Z.of_nat (length l)) ++ l ++ rest) = (Err UnexpectedEndOfBuffer, rest).
Proof.
  intros Hin Hl.
  assert (Ht : t = TTpm2b max).
  { assert (F : Forall (fun x => fst x = TTpm2b (snd x)) sized_buffers).
    { unfold sized_buffers. repeat (apply Forall_cons; [vm_compute; reflexivity|]). apply Forall_nil. }
    rewrite Forall_forall in F. exact (F _ Hin). }
  clear Hin. subst t. cbn [unmarshal]. unfold unm_tpm2b.
  rewrite unm_int_app by (apply in_range_iff; change (pow256 2) with 65536; lia).
  unfold buf_get. rewrite app_length.
  replace (Z.to_N (Z.of_nat (length l))) with (N.of_nat (length l)) by lia.
  destruct (N.ltb_spec (N.of_nat (length l + length rest)) (N.of_nat (length l))); [lia|].
  rewrite Nat2N.id, firstn_app, firstn_all, Nat.sub_diag, skipn_app, skipn_all, Nat.sub_diag.
  cbn [firstn skipn app]. rewrite app_nil_r.
  destruct (N.ltb_spec max (N.of_nat (length l))); destruct (N.leb_spec (N.of_nat (length l)) max); try lia.
  - reflexivity.
  - eexists. split; [reflexivity|]. cbn [view]. rewrite Nat2Z.id, firstn_overwrite. reflexivity.
Qed.

(** Bounds: a count up to the bound is followed by that many entries, whatever
    they are, and no count above it is taken. *)
Theorem c54_list_bounds t item max c :
  In (t, item, max) lists -> 0 <= c < 2 ^ 32 ->
  if c <=? max
  then forall entries rest, Z.of_nat (length entries) = c -> Forall (fun e => wf item e = true) entries ->
       exists padding,
         unmarshal t (be_bytes 4 c ++ flat_map (enc item) entries ++ rest)
         = (Ok (VStruct [VInt c; VArr (map (canon item) entries ++ padding)]), rest)
  else forall rest, unmarshal t (be_bytes 4 c ++ rest) = (Err ArrayLengthExceeded, rest).
Proof.
  intros Hin Hc.
  assert (Ht : exists name n, t = tpml name n item /\ Z.of_N n = max
                 /\ wf_ty t = true /\ wf item (zero_of item) = true).
  { assert (F : Forall (fun x => exists name n, fst (fst x) = tpml name n (snd (fst x)) /\ Z.of_N n = snd x
                  /\ wf_ty (fst (fst x)) = true /\ wf (snd (fst x)) (zero_of (snd (fst x))) = true) lists).
    { unfold lists. repeat (apply Forall_cons;
        [do 2 eexists; split; [reflexivity|repeat split; vm_compute; reflexivity]|]). apply Forall_nil. }
    rewrite Forall_forall in F. exact (F _ Hin). }
  clear Hin. destruct Ht as (name & n & -> & Hn & Ht & Hz).
  destruct (Z.leb_spec c max).
  - intros entries rest Le Fe.
    set (l := entries ++ repeat (zero_of item) (N.to_nat n - length entries)).
    assert (Ll : N.of_nat (length l) = n) by (unfold l; rewrite app_length, repeat_length; lia).
    assert (Fl : firstn (Z.to_nat c) l = entries) by (unfold l; apply firstn_app_exact'; lia).
    pose (v := VStruct [VInt c; VArr l]).
    assert (Hv : wf (tpml name n item) v = true).
    { unfold v, tpml, struct, fld, larr. cbn [mk_fields wf wf_fields bind_len].
      unfold u32, len_ok. cbn [wf lookup_len]. rewrite String.eqb_refl.
      rewrite !andb_true_iff. repeat split.
      - apply in_range_iff. change (pow256 4) with (2 ^ 32). lia.
      - apply N.eqb_eq. exact Ll.
      - apply forallb_forall. intros x Hx. unfold l in Hx. apply in_app_or in Hx. destruct Hx as [Hx|Hx].
        + rewrite Forall_forall in Fe. auto.
        + apply repeat_spec in Hx. subst x. exact Hz.
      - apply N.leb_le. unfold usize. rewrite Z.mod_small by lia. lia. }
    pose proof (unm_enc (tpml name n item) v rest Ht Hv) as U. unfold v in U. clear v Hv. clearbody l.
    rewrite enc_tpml, canon_tpml, Fl in U by assumption. rewrite <- app_assoc in U. eexists. exact U.
  - intros rest. unfold tpml, struct, fld, larr. cbn [mk_fields unmarshal unmarshal_fields u32].
    unfold u32. cbn [unmarshal].
    rewrite unm_int_app by (apply in_range_iff; change (pow256 4) with (2 ^ 32); lia).
    cbn [umap fst snd omap uthen bind_len lookup_len]. rewrite String.eqb_refl.
    unfold usize. rewrite Z.mod_small by lia.
    destruct (N.ltb_spec n (Z.to_N c)); [reflexivity|lia].
Qed.

(** Unions: every declared selector can be decoded, at its width; any other is refused. *)
Theorem c54_selectors_partial t k sels sel :
  In (t, k, sels) unions -> in_range false k sel = true ->
  (In sel sels -> exists body args, unmarshal t (be_bytes k sel ++ body) = (Ok (VEnum sel args), []))
  /\ (~ In sel sels -> forall rest, unmarshal t (be_bytes k sel ++ rest) = (Err UnknownSelector, rest)).
Proof.
  intros Hin Hs.
  assert (Ht : exists vrs, t = TEnum k vrs /\ selectors vrs = sels /\ wf_ty t = true
     /\ forall z, In z sels -> exists args, wf_variant vrs z args = true).
  { assert (F : Forall (fun x => exists vrs, fst (fst x) = TEnum (snd (fst x)) vrs
       /\ selectors vrs = snd x /\ wf_ty (fst (fst x)) = true
       /\ forall z, In z (snd x) -> exists args, wf_variant vrs z args = true) unions).
    { unfold unions. repeat (apply Forall_cons;
        [eexists; split; [reflexivity|split; [reflexivity|split; [vm_compute; reflexivity|]]]|]);
        [..|apply Forall_nil].
      all: cbn [fst snd In]; intros z Hz; repeat (destruct Hz as [<-|Hz]; [|]); [..|destruct Hz].
      all: match goal with |- exists args, wf_variant ?vrs ?z args = true =>
             let rec members v := lazymatch v with
               | mk_variants ?l => let v' := eval cbn [mk_variants] in v in members v'
               | VCons ?s ?ts ?rest =>
                   first [ assert (z = s) by reflexivity; exists (zero_tys ts); vm_compute; reflexivity
                         | members rest ]
               | ?h => let v' := eval unfold h in h in members v'
               end in members vrs end. }
    rewrite Forall_forall in F. exact (F _ Hin). }
  clear Hin. destruct Ht as (vrs & -> & <- & Ht & Hw). split.
  - intros Hi. destruct (Hw _ Hi) as (args & Ha).
    exists (enc_variant vrs sel args), (canon_variant vrs sel args).
    change (be_bytes k sel ++ enc_variant vrs sel args) with (enc (TEnum k vrs) (VEnum sel args)).
    rewrite <- (app_nil_r (enc _ _)). rewrite unm_enc by assumption. reflexivity.
  - intros Hi rest. cbn [unmarshal]. rewrite unm_int_app by assumption. cbn [uthen].
    rewrite unknown_selector by assumption. reflexivity.
Qed.

(** Part 2 gives TPM2B_DATA room for a TPMT_HA; the library's has two bytes less,
    so that a TPM2B_DATA holding a SHA-512 TPMT_HA is refused. *)
Theorem c54_data_capacity_refuted :
  exists v, wf TpmtHa v = true
    /\ fst (unmarshal Tpm2bData (be_bytes 2 (Z.of_nat (length (TPMT_HA (view TpmtHa v)))) ++ TPMT_HA (view TpmtHa v)))
       = Err UnexpectedEndOfBuffer
    /\ is_ok (fst (unmarshal Tpm2bName (be_bytes 2 (Z.of_nat (length (TPMT_HA (view TpmtHa v)))) ++ TPMT_HA (view TpmtHa v))))
       = true.
Proof. exists (VEnum TPM_ALG_SHA512 [VBytes (repeat xab 64)]). vm_compute. auto. Qed.

(** Part 2 allows TPM_ALG_NULL, with no digest, in a TPMT_HA; the library refuses it,
    and with it a list of authorization policies that holds one. *)
Theorem c54_null_digest_refuted :
  exists policies,
    policies = be_bytes 4 0x9 ++ be_bytes 4 1 ++ be_bytes 4 0x40000001 ++ be_bytes 2 TPM_ALG_NULL
    /\ fst (unmarshal TpmsCapabilityData policies) = Err UnknownSelector.
Proof. eexists. split; [reflexivity|]. vm_compute. reflexivity. Qed.

Definition clock_sample : val := VStruct [VInt 0x0102030405060708; VInt 9; VInt 10; vi 1].
Example c54_example :
  In (TpmsClockInfo, TPMS_CLOCK_INFO) part2 /\ wf TpmsClockInfo clock_sample = true
  /\ TPMS_CLOCK_INFO (view TpmsClockInfo clock_sample)
     = [x01;x02;x03;x04;x05;x06;x07;x08; x00;x00;x00;x09; x00;x00;x00;x0a; x01].
Proof.
  split; [|vm_compute; auto]. unfold part2. repeat (first [left; reflexivity | right]).
Qed.
Example c54_public_example :
  exists x, public_val x = sample_public /\ public_wf x
    /\ firstn 10 (TPMT_PUBLIC (public_view x)) = [x00;x23; x00;x0b; x00;x06;x04;x72; x00;x00].
Proof.
  exists {| name_alg := vi 0xB; object_attributes := vi 0x60472; auth_policy := v2b 64 [];
            parms_and_id := Union 0x23
              [VStruct [VEnum 0x10 [VStruct []; VStruct []]; VEnum 0x18 [VStruct [vi 0xB]];
                        VStruct [vi 3]; VEnum 0x10 [VStruct []]];
               VStruct [v2b 128 (repeat x11 32); v2b 128 (repeat x22 32)]] |}.
  vm_compute. auto.
Qed.
Example c54_attest_example :
  exists x rest, attest_try_unmarshal (enc TpmsAttest sample_attest ++ [x77]) = (Ok x, rest) /\ rest = [x77].
Proof. eexists. eexists. split; vm_compute; reflexivity. Qed.
