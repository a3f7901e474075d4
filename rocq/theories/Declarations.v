(** The declarations of the library that derive [Marshalable], transcribed from
    base/src/constants.rs, base/src/lib.rs, base/src/commands/*.rs and
    crates/tpm2-client/src/lib.rs.  Each carries the description of Catalogue.v
    that the other files use for it.  An [#[open_enum]] enum is what that macro
    rewrites it to before [derive] sees it: a tuple struct around its integer.
    Attributes other than [#[marshalable(..)]] are left out. *)
From Coq Require Import String ZArith NArith List.
From Verif Require Import Prelude Types Layout Catalogue Derive.
From Verif Require Constants.
Import ListNotations.
Local Open Scope string_scope.
Local Open Scope list_scope.
Open Scope Z_scope.

(** A type given by its name, and an array. *)
Definition name (n : string) (t : ty) : tyexpr := TyPath [n] t.
Definition arr (n : N) (elem : string) (t : ty) : tyexpr := TyArray n (name elem t) (zero_of t).
Definition value_of (l : list (string * Z)) (n : string) : Z :=
  match find (fun p => String.eqb (fst p) n) l with Some (_, v) => v | None => -1 end.
Definition div_ceil (a b : N) : N := ((a + b - 1) / b)%N.

(** ** Sizes, base/src/constants.rs:6-31 *)
Section Sizes.
Local Open Scope N_scope.
Definition TPM2_SHA_DIGEST_SIZE : N := 20.
Definition TPM2_SHA1_DIGEST_SIZE : N := 20.
Definition TPM2_SHA256_DIGEST_SIZE : N := 32.
Definition TPM2_SHA384_DIGEST_SIZE : N := 48.
Definition TPM2_SHA512_DIGEST_SIZE : N := 64.
Definition TPM2_SM3_256_DIGEST_SIZE : N := 32.
Definition TPM2_MAX_DIGEST_BUFFER : N := 1024.
Definition TPM2_MAX_NV_BUFFER_SIZE : N := 2048.
Definition TPM2_MAX_CAP_BUFFER : N := 1024.
Definition TPM2_NUM_PCR_BANKS : N := 16.
Definition TPM2_MAX_PCRS : N := 32.
Definition TPM2_PCR_SELECT_MAX : N := div_ceil TPM2_MAX_PCRS 8.
Definition TPM2_LABEL_MAX_BUFFER : N := 32.
Definition TPM2_MAX_SYM_BLOCK_SIZE : N := 16.
Definition TPM2_MAX_SYM_DATA : N := 256.
Definition TPM2_MAX_ECC_KEY_BYTES : N := 128.
Definition TPM2_MAX_SYM_KEY_BYTES : N := 32.
Definition TPM2_MAX_RSA_KEY_BYTES : N := 512.
Definition TPM2_PRIVATE_VENDOR_SPECIFIC_BYTES : N := (TPM2_MAX_RSA_KEY_BYTES / 2) * (3 + 2).
Definition TPM2_MAX_CONTEXT_SIZE : N := 5120.
Definition TPM2_MAX_ACTIVE_SESSIONS : N := 64.
(** base/src/lib.rs:554-563 *)
Definition TPM2_MAX_CAP_DATA : N := TPM2_MAX_CAP_BUFFER  - size_of TpmCap - size_of u32.
Definition TPM2_MAX_CAP_ALGS : N := TPM2_MAX_CAP_DATA / size_of TpmsAlgProperty.
Definition TPM2_MAX_CAP_HANDLES : N := TPM2_MAX_CAP_DATA / size_of TpmHandle.
Definition TPM2_MAX_CAP_CC : N := TPM2_MAX_CAP_DATA / size_of TpmCc.
Definition TPM2_MAX_TPM_PROPERTIES : N := TPM2_MAX_CAP_DATA / size_of TpmsTaggedProperty.
Definition TPM2_MAX_PCR_PROPERTIES : N := TPM2_MAX_CAP_DATA / size_of TpmsTaggedPcrSelect.
Definition TPM2_MAX_ECC_CURVES : N := TPM2_MAX_CAP_DATA / size_of TpmEccCurve.
Definition TPM2_MAX_TAGGED_POLICIES : N := TPM2_MAX_CAP_DATA / size_of TpmsTaggedPolicy.
Definition TPML_DIGEST_MAX_DIGESTS : N := 8.
(** base/src/lib.rs:579-582, 596-598, 847-857, 930-948 *)
Definition TpmtHa_UNION_SIZE : N := 64.
Definition TpmuName_UNION_SIZE : N := size_of TpmtHa.
Definition TpmuSensitiveCreate_UNION_SIZE : N :=
  let size_create := TPM2_MAX_SYM_DATA in
  let size_derive := size_of TpmsDerive in
  if size_derive <? size_create then size_create else size_derive.
Definition TpmuEncryptedSecret_UNION_SIZE : N :=
  let ecc := size_of TpmsEccPoint in
  let rsa := TPM2_MAX_RSA_KEY_BYTES in
  let symmetric := size_of Tpm2bDigest in
  let keyedhash := size_of Tpm2bDigest in
  let max := ecc in
  let max := if max <? rsa then rsa else max in
  let max := if max <? symmetric then symmetric else max in
  if max <? keyedhash then keyedhash else max.
End Sizes.

(** ** Declarations: name, declaration, description *)
Definition declarations : list (string * decl * ty) := [
  (* base/src/constants.rs:39 *)
  ("TpmAlgId", Decl [] (Struct (Unnamed [UField [] (name "u16" u16)])), TpmAlgId);
  (* base/src/constants.rs:87 *)
  ("TpmEccCurve", Decl [] (Struct (Unnamed [UField [] (name "u16" u16)])), TpmEccCurve);
  (* base/src/constants.rs:105 *)
  ("TpmCc", Decl [] (Struct (Unnamed [UField [] (name "u32" u32)])), TpmCc);
  (* base/src/constants.rs:365 *)
  ("TpmSt", Decl [] (Struct (Unnamed [UField [] (name "u16" u16)])), TpmSt);
  (* base/src/constants.rs:392 *)
  ("TpmSu", Decl [] (Struct (Unnamed [UField [] (name "u16" u16)])), TpmSu);
  (* base/src/constants.rs:413 *)
  ("TpmCap", Decl [] (Struct (Unnamed [UField [] (name "u32" u32)])), TpmCap);
  (* base/src/constants.rs:433 *)
  ("TpmPt", Decl [] (Struct (Unnamed [UField [] (name "u32" u32)])), TpmPt);
  (* base/src/constants.rs:602 *)
  ("TpmPtPcr", Decl [] (Struct (Unnamed [UField [] (name "u32" u32)])), TpmPtPcr);
  (* base/src/constants.rs:671 *)
  ("TpmHandle", Decl [] (Struct (Unnamed [UField [] (name "u32" u32)])), TpmHandle);
  (* base/src/constants.rs:683 *)
  ("TpmHc", Decl [] (Struct (Unnamed [UField [] (name "u32" u32)])), TpmHc);
  (* base/src/constants.rs:778 *)
  ("TpmGenerated", Decl [] (Struct (Unnamed [UField [] (name "u32" u32)])), TpmGenerated);
  (* base/src/lib.rs:36 *)
  ("TpmaLocality", Decl [] (Struct (Unnamed [UField [] (name "u8" u8)])), TpmaLocality);
  (* base/src/lib.rs:60 *)
  ("TpmaNv", Decl [] (Struct (Unnamed [UField [] (name "u32" u32)])), TpmaNv);
  (* base/src/lib.rs:148 *)
  ("TpmiAlgHash", Decl [] (Struct (Unnamed [UField [] (name "u16" u16)])), TpmiAlgHash);
  (* base/src/lib.rs:165 *)
  ("TpmiAlgKdf", Decl [] (Struct (Unnamed [UField [] (name "u16" u16)])), TpmiAlgKdf);
  (* base/src/lib.rs:179 *)
  ("TpmiAlgPublic", Decl [] (Struct (Unnamed [UField [] (name "u16" u16)])), TpmiAlgPublic);
  (* base/src/lib.rs:193 *)
  ("TpmiAlgSymMode", Decl [] (Struct (Unnamed [UField [] (name "u16" u16)])), TpmiAlgSymMode);
  (* base/src/lib.rs:209 *)
  ("TpmiAlgSymObject", Decl [] (Struct (Unnamed [UField [] (name "u16" u16)])), TpmiAlgSymObject);
  (* base/src/lib.rs:223 *)
  ("TpmiAlgKeyedhashScheme", Decl [] (Struct (Unnamed [UField [] (name "u16" u16)])), TpmiAlgKeyedhashScheme);
  (* base/src/lib.rs:235 *)
  ("TpmiAlgRsaScheme", Decl [] (Struct (Unnamed [UField [] (name "u16" u16)])), TpmiAlgRsaScheme);
  (* base/src/lib.rs:253 *)
  ("TpmiAlgSigScheme", Decl [] (Struct (Unnamed [UField [] (name "u16" u16)])), TpmiAlgSigScheme);
  (* base/src/lib.rs:270 *)
  ("TpmiAlgEccScheme", Decl [] (Struct (Unnamed [UField [] (name "u16" u16)])), TpmiAlgEccScheme);
  (* base/src/lib.rs:288 *)
  ("TpmiAlgAsymScheme", Decl [] (Struct (Unnamed [UField [] (name "u16" u16)])), TpmiAlgAsymScheme);
  (* base/src/lib.rs:305 *)
  ("TpmiRhNvIndex", Decl [] (Struct (Unnamed [UField [] (name "u32" u32)])), TpmiRhNvIndex);
  (* base/src/lib.rs:321 *)
  ("TpmiShAuthSession", Decl [] (Struct (Unnamed [UField [] (name "u32" u32)])), TpmiShAuthSession);
  (* base/src/lib.rs:344 *)
  ("TpmiEccCurve", Decl [] (Struct (Unnamed [UField [] (name "TpmEccCurve" TpmEccCurve)])), TpmiEccCurve);
  (* base/src/lib.rs:352 *)
  ("TpmiYesNo", Decl [] (Struct (Unnamed [UField [] (name "u8" u8)])), TpmiYesNo);
  (* base/src/lib.rs:363 *)
  ("TpmiStAttest", Decl [] (Struct (Unnamed [UField [] (name "u16" u16)])), TpmiStAttest);
  (* base/src/lib.rs:377 *)
  ("TpmiAesKeyBits", Decl [] (Struct (Unnamed [UField [] (name "u16" u16)])), TpmiAesKeyBits);
  (* base/src/lib.rs:381 *)
  ("TpmiSm4KeyBits", Decl [] (Struct (Unnamed [UField [] (name "u16" u16)])), TpmiSm4KeyBits);
  (* base/src/lib.rs:385 *)
  ("TpmiCamelliaKeyBits", Decl [] (Struct (Unnamed [UField [] (name "u16" u16)])), TpmiCamelliaKeyBits);
  (* base/src/lib.rs:389 *)
  ("TpmiRsaKeyBits", Decl [] (Struct (Unnamed [UField [] (name "u16" u16)])), TpmiRsaKeyBits);
  (* base/src/lib.rs:395 *)
  ("TpmaObject", Decl [] (Struct (Unnamed [UField [] (name "u32" u32)])), TpmaObject);
  (* base/src/lib.rs:429 *)
  ("TpmaAlgorithm", Decl [] (Struct (Unnamed [UField [] (name "u32" u32)])), TpmaAlgorithm);
  (* base/src/lib.rs:453 *)
  ("TpmaSession", Decl [] (Struct (Unnamed [UField [] (name "u8" u8)])), TpmaSession);
  (* base/src/lib.rs:475 *)
  ("TpmaCc", Decl [] (Struct (Unnamed [UField [] (name "u32" u32)])), TpmaCc);
  (* base/src/lib.rs:549 *)
  ("TpmiStCommandTag", Decl [] (Struct (Unnamed [UField [] (name "u16" u16)])), TpmiStCommandTag);
  (* base/src/lib.rs:567 *)
  ("TpmsEmpty", Decl [] (Struct Unit), TpmsEmpty);
  (* base/src/lib.rs:571 *)
  ("TpmtHa", Decl [] (Enum 2 [
      Variant "Sha1" (Unnamed [UField [] (arr TPM2_SHA_DIGEST_SIZE "u8" u8)]) (Some (value_of Constants.TpmAlgId "SHA1"));
      Variant "Sha256" (Unnamed [UField [] (arr TPM2_SHA256_DIGEST_SIZE "u8" u8)]) (Some (value_of Constants.TpmAlgId "SHA256"));
      Variant "Sha384" (Unnamed [UField [] (arr TPM2_SHA384_DIGEST_SIZE "u8" u8)]) (Some (value_of Constants.TpmAlgId "SHA384"));
      Variant "Sha512" (Unnamed [UField [] (arr TPM2_SHA512_DIGEST_SIZE "u8" u8)]) (Some (value_of Constants.TpmAlgId "SHA512"));
      Variant "Sm3_256" (Unnamed [UField [] (arr TPM2_SM3_256_DIGEST_SIZE "u8" u8)]) (Some (value_of Constants.TpmAlgId "SM3256"))]), TpmtHa);
  (* base/src/lib.rs:603 *)
  ("Tpm2bDigest", Decl [AMarshalable [TkPath ["tpm2b_simple"]]] (Struct (Named [
      Field "size" [] (name "u16" u16);
      Field "buffer" [] (arr TpmtHa_UNION_SIZE "u8" u8)])), Tpm2bDigest);
  (* base/src/lib.rs:614 *)
  ("Tpm2bData", Decl [AMarshalable [TkPath ["tpm2b_simple"]]] (Struct (Named [
      Field "size" [] (name "u16" u16);
      Field "buffer" [] (arr TpmtHa_UNION_SIZE "u8" u8)])), Tpm2bData);
  (* base/src/lib.rs:622 *)
  ("Tpm2bEvent", Decl [AMarshalable [TkPath ["tpm2b_simple"]]] (Struct (Named [
      Field "size" [] (name "u16" u16);
      Field "buffer" [] (arr 1024 "u8" u8)])), Tpm2bEvent);
  (* base/src/lib.rs:630 *)
  ("Tpm2bMaxBuffer", Decl [AMarshalable [TkPath ["tpm2b_simple"]]] (Struct (Named [
      Field "size" [] (name "u16" u16);
      Field "buffer" [] (arr TPM2_MAX_DIGEST_BUFFER "u8" u8)])), Tpm2bMaxBuffer);
  (* base/src/lib.rs:638 *)
  ("Tpm2bMaxNvBuffer", Decl [AMarshalable [TkPath ["tpm2b_simple"]]] (Struct (Named [
      Field "size" [] (name "u16" u16);
      Field "buffer" [] (arr TPM2_MAX_NV_BUFFER_SIZE "u8" u8)])), Tpm2bMaxNvBuffer);
  (* base/src/lib.rs:646 *)
  ("Tpm2bIv", Decl [AMarshalable [TkPath ["tpm2b_simple"]]] (Struct (Named [
      Field "size" [] (name "u16" u16);
      Field "buffer" [] (arr TPM2_MAX_SYM_BLOCK_SIZE "u8" u8)])), Tpm2bIv);
  (* base/src/lib.rs:654 *)
  ("Tpm2bName", Decl [AMarshalable [TkPath ["tpm2b_simple"]]] (Struct (Named [
      Field "size" [] (name "u16" u16);
      Field "name" [] (arr TpmuName_UNION_SIZE "u8" u8)])), Tpm2bName);
  (* base/src/lib.rs:668 *)
  ("TpmsClockInfo", Decl [] (Struct (Named [
      Field "clock" [] (name "u64" u64);
      Field "reset_count" [] (name "u32" u32);
      Field "restart_count" [] (name "u32" u32);
      Field "safe" [] (name "TpmiYesNo" TpmiYesNo)])), TpmsClockInfo);
  (* base/src/lib.rs:677 *)
  ("TpmsPcrSelection", Decl [] (Struct (Named [
      Field "hash" [] (name "TpmiAlgHash" TpmiAlgHash);
      Field "sizeof_select" [] (name "u8" u8);
      Field "pcr_select" [FNameValue ["length"] (EPath ["sizeof_select"] false false)] (arr TPM2_PCR_SELECT_MAX "u8" u8)])), TpmsPcrSelection);
  (* base/src/lib.rs:686 *)
  ("TpmlPcrSelection", Decl [] (Struct (Named [
      Field "count" [] (name "u32" u32);
      Field "pcr_selections" [FNameValue ["length"] (EPath ["count"] false false)] (arr TPM2_NUM_PCR_BANKS "TpmsPcrSelection" TpmsPcrSelection)])), TpmlPcrSelection);
  (* base/src/lib.rs:694 *)
  ("TpmsQuoteInfo", Decl [] (Struct (Named [
      Field "pcr_select" [] (name "TpmlPcrSelection" TpmlPcrSelection);
      Field "pcr_digest" [] (name "Tpm2bDigest" Tpm2bDigest)])), TpmsQuoteInfo);
  (* base/src/lib.rs:701 *)
  ("TpmsCreationInfo", Decl [] (Struct (Named [
      Field "object_name" [] (name "Tpm2bName" Tpm2bName);
      Field "creation_hash" [] (name "Tpm2bDigest" Tpm2bDigest)])), TpmsCreationInfo);
  (* base/src/lib.rs:708 *)
  ("TpmsCertifyInfo", Decl [] (Struct (Named [
      Field "name" [] (name "Tpm2bName" Tpm2bName);
      Field "qualified_name" [] (name "Tpm2bName" Tpm2bName)])), TpmsCertifyInfo);
  (* base/src/lib.rs:715 *)
  ("TpmsCommandAuditInfo", Decl [] (Struct (Named [
      Field "audit_counter" [] (name "u64" u64);
      Field "digest_alg" [] (name "u16" u16);
      Field "audit_digest" [] (name "Tpm2bDigest" Tpm2bDigest);
      Field "command_digest" [] (name "Tpm2bDigest" Tpm2bDigest)])), TpmsCommandAuditInfo);
  (* base/src/lib.rs:724 *)
  ("TpmsSessionAuditInfo", Decl [] (Struct (Named [
      Field "exclusive_session" [] (name "TpmiYesNo" TpmiYesNo);
      Field "session_digest" [] (name "Tpm2bDigest" Tpm2bDigest)])), TpmsSessionAuditInfo);
  (* base/src/lib.rs:731 *)
  ("TpmsTimeInfo", Decl [] (Struct (Named [
      Field "time" [] (name "u64" u64);
      Field "clock_info" [] (name "TpmsClockInfo" TpmsClockInfo)])), TpmsTimeInfo);
  (* base/src/lib.rs:738 *)
  ("TpmsTimeAttestInfo", Decl [] (Struct (Named [
      Field "time" [] (name "TpmsTimeInfo" TpmsTimeInfo);
      Field "firmware_version" [] (name "u64" u64)])), TpmsTimeAttestInfo);
  (* base/src/lib.rs:745 *)
  ("TpmsNvCertifyInfo", Decl [] (Struct (Named [
      Field "index_name" [] (name "Tpm2bName" Tpm2bName);
      Field "offset" [] (name "u16" u16);
      Field "nv_contents" [] (name "Tpm2bMaxNvBuffer" Tpm2bMaxNvBuffer)])), TpmsNvCertifyInfo);
  (* base/src/lib.rs:753 *)
  ("TpmuAttest", Decl [] (Enum 2 [
      Variant "Certify" (Unnamed [UField [] (name "TpmsCertifyInfo" TpmsCertifyInfo)]) (Some (value_of Constants.TpmSt "AttestCertify"));
      Variant "Creation" (Unnamed [UField [] (name "TpmsCreationInfo" TpmsCreationInfo)]) (Some (value_of Constants.TpmSt "AttestCreation"));
      Variant "Quote" (Unnamed [UField [] (name "TpmsQuoteInfo" TpmsQuoteInfo)]) (Some (value_of Constants.TpmSt "AttestQuote"));
      Variant "CommandAudit" (Unnamed [UField [] (name "TpmsCommandAuditInfo" TpmsCommandAuditInfo)]) (Some (value_of Constants.TpmSt "AttestCommandAudit"));
      Variant "SessionAudit" (Unnamed [UField [] (name "TpmsSessionAuditInfo" TpmsSessionAuditInfo)]) (Some (value_of Constants.TpmSt "AttestSessionAudit"));
      Variant "Time" (Unnamed [UField [] (name "TpmsTimeAttestInfo" TpmsTimeAttestInfo)]) (Some (value_of Constants.TpmSt "AttestTime"));
      Variant "Nv" (Unnamed [UField [] (name "TpmsNvCertifyInfo" TpmsNvCertifyInfo)]) (Some (value_of Constants.TpmSt "AttestNV"))]), TpmuAttest);
  (* base/src/lib.rs:807 *)
  ("Tpm2bAttest", Decl [AMarshalable [TkPath ["tpm2b_simple"]]] (Struct (Named [
      Field "size" [] (name "u16" u16);
      Field "attestation_data" [] (arr (size_of TpmsAttest) "u8" u8)])), Tpm2bAttest);
  (* base/src/lib.rs:815 *)
  ("Tpm2bSymKey", Decl [AMarshalable [TkPath ["tpm2b_simple"]]] (Struct (Named [
      Field "size" [] (name "u16" u16);
      Field "buffer" [] (arr TPM2_MAX_SYM_KEY_BYTES "u8" u8)])), Tpm2bSymKey);
  (* base/src/lib.rs:823 *)
  ("Tpm2bLabel", Decl [AMarshalable [TkPath ["tpm2b_simple"]]] (Struct (Named [
      Field "size" [] (name "u16" u16);
      Field "buffer" [] (arr TPM2_LABEL_MAX_BUFFER "u8" u8)])), Tpm2bLabel);
  (* base/src/lib.rs:830 *)
  ("TpmsDerive", Decl [] (Struct (Named [
      Field "label" [] (name "Tpm2bLabel" Tpm2bLabel);
      Field "context" [] (name "Tpm2bLabel" Tpm2bLabel)])), TpmsDerive);
  (* base/src/lib.rs:862 *)
  ("Tpm2bSensitiveData", Decl [AMarshalable [TkPath ["tpm2b_simple"]]] (Struct (Named [
      Field "size" [] (name "u16" u16);
      Field "buffer" [] (arr TpmuSensitiveCreate_UNION_SIZE "u8" u8)])), Tpm2bSensitiveData);
  (* base/src/lib.rs:871 *)
  ("TpmsSensitiveCreate", Decl [] (Struct (Named [
      Field "user_auth" [] (name "Tpm2bAuth" Tpm2bDigest);
      Field "data" [] (name "Tpm2bSensitiveData" Tpm2bSensitiveData)])), TpmsSensitiveCreate);
  (* base/src/lib.rs:879 *)
  ("Tpm2bSensitiveCreate", Decl [AMarshalable [TkPath ["tpm2b_simple"]]] (Struct (Named [
      Field "size" [] (name "u16" u16);
      Field "sensitive" [] (arr (size_of TpmsSensitiveCreate) "u8" u8)])), Tpm2bSensitiveCreate);
  (* base/src/lib.rs:887 *)
  ("Tpm2bPublicKeyRsa", Decl [AMarshalable [TkPath ["tpm2b_simple"]]] (Struct (Named [
      Field "size" [] (name "u16" u16);
      Field "buffer" [] (arr TPM2_MAX_RSA_KEY_BYTES "u8" u8)])), Tpm2bPublicKeyRsa);
  (* base/src/lib.rs:895 *)
  ("Tpm2bPrivateKeyRsa", Decl [AMarshalable [TkPath ["tpm2b_simple"]]] (Struct (Named [
      Field "size" [] (name "u16" u16);
      Field "buffer" [] (arr (TPM2_MAX_RSA_KEY_BYTES / 2) "u8" u8)])), Tpm2bPrivateKeyRsa);
  (* base/src/lib.rs:903 *)
  ("Tpm2bEccParameter", Decl [AMarshalable [TkPath ["tpm2b_simple"]]] (Struct (Named [
      Field "size" [] (name "u16" u16);
      Field "buffer" [] (arr TPM2_MAX_ECC_KEY_BYTES "u8" u8)])), Tpm2bEccParameter);
  (* base/src/lib.rs:910 *)
  ("TpmsEccPoint", Decl [] (Struct (Named [
      Field "x" [] (name "Tpm2bEccParameter" Tpm2bEccParameter);
      Field "y" [] (name "Tpm2bEccParameter" Tpm2bEccParameter)])), TpmsEccPoint);
  (* base/src/lib.rs:953 *)
  ("Tpm2bEncryptedSecret", Decl [AMarshalable [TkPath ["tpm2b_simple"]]] (Struct (Named [
      Field "size" [] (name "u16" u16);
      Field "secret" [] (arr TpmuEncryptedSecret_UNION_SIZE "u8" u8)])), Tpm2bEncryptedSecret);
  (* base/src/lib.rs:960 *)
  ("TpmsSchemeXor", Decl [] (Struct (Named [
      Field "hash_alg" [] (name "TpmiAlgHash" TpmiAlgHash);
      Field "kdf" [] (name "TpmiAlgKdf" TpmiAlgKdf)])), TpmsSchemeXor);
  (* base/src/lib.rs:969 *)
  ("TpmtKeyedHashScheme", Decl [] (Enum 2 [
      Variant "Hmac" (Unnamed [UField [] (name "TpmsSchemeHmac" TpmsSchemeHash)]) (Some (value_of Constants.TpmAlgId "HMAC"));
      Variant "ExclusiveOr" (Unnamed [UField [] (name "TpmsSchemeXor" TpmsSchemeXor)]) (Some (value_of Constants.TpmAlgId "XOR"));
      Variant "Null" (Unnamed [UField [] (name "TpmsEmpty" TpmsEmpty)]) (Some (value_of Constants.TpmAlgId "Null"))]), TpmtKeyedHashScheme);
  (* base/src/lib.rs:977 *)
  ("TpmsKeyedHashParms", Decl [] (Struct (Named [
      Field "scheme" [] (name "TpmtKeyedHashScheme" TpmtKeyedHashScheme)])), TpmsKeyedHashParms);
  (* base/src/lib.rs:983 *)
  ("TpmtSymDefObject", Decl [] (Enum 2 [
      Variant "Aes" (Unnamed [UField [] (name "TpmiAesKeyBits" TpmiAesKeyBits); UField [] (name "TpmiAlgSymMode" TpmiAlgSymMode)]) (Some (value_of Constants.TpmAlgId "AES"));
      Variant "Sm4" (Unnamed [UField [] (name "TpmiSm4KeyBits" TpmiSm4KeyBits); UField [] (name "TpmiAlgSymMode" TpmiAlgSymMode)]) (Some (value_of Constants.TpmAlgId "SM4"));
      Variant "Camellia" (Unnamed [UField [] (name "TpmiCamelliaKeyBits" TpmiCamelliaKeyBits); UField [] (name "TpmiAlgSymMode" TpmiAlgSymMode)]) (Some (value_of Constants.TpmAlgId "Camellia"));
      Variant "ExclusiveOr" (Unnamed [UField [] (name "TpmiAlgHash" TpmiAlgHash); UField [] (name "TpmsEmpty" TpmsEmpty)]) (Some (value_of Constants.TpmAlgId "XOR"));
      Variant "Null" (Unnamed [UField [] (name "TpmsEmpty" TpmsEmpty); UField [] (name "TpmsEmpty" TpmsEmpty)]) (Some (value_of Constants.TpmAlgId "Null"))]), TpmtSymDefObject);
  (* base/src/lib.rs:993 *)
  ("TpmsSymCipherParms", Decl [] (Struct (Named [
      Field "sym" [] (name "TpmtSymDefObject" TpmtSymDefObject)])), TpmsSymCipherParms);
  (* base/src/lib.rs:999 *)
  ("TpmsSignatureRsa", Decl [] (Struct (Named [
      Field "hash" [] (name "TpmiAlgHash" TpmiAlgHash);
      Field "sig" [] (name "Tpm2bPublicKeyRsa" Tpm2bPublicKeyRsa)])), TpmsSignatureRsa);
  (* base/src/lib.rs:1006 *)
  ("TpmsSignatureEcc", Decl [] (Struct (Named [
      Field "hash" [] (name "TpmiAlgHash" TpmiAlgHash);
      Field "signature_r" [] (name "Tpm2bEccParameter" Tpm2bEccParameter);
      Field "signature_s" [] (name "Tpm2bEccParameter" Tpm2bEccParameter)])), TpmsSignatureEcc);
  (* base/src/lib.rs:1021 *)
  ("TpmtSignature", Decl [] (Enum 2 [
      Variant "Rsassa" (Unnamed [UField [] (name "TpmsSignatureRsassa" TpmsSignatureRsa)]) (Some (value_of Constants.TpmAlgId "RSASSA"));
      Variant "Rsapss" (Unnamed [UField [] (name "TpmsSignatureRsapss" TpmsSignatureRsa)]) (Some (value_of Constants.TpmAlgId "RSAPSS"));
      Variant "Ecdsa" (Unnamed [UField [] (name "TpmsSignatureEcdsa" TpmsSignatureEcc)]) (Some (value_of Constants.TpmAlgId "ECDSA"));
      Variant "Ecdaa" (Unnamed [UField [] (name "TpmsSignatureEcdaa" TpmsSignatureEcc)]) (Some (value_of Constants.TpmAlgId "ECDAA"));
      Variant "Sm2" (Unnamed [UField [] (name "TpmsSignatureSm2" TpmsSignatureEcc)]) (Some (value_of Constants.TpmAlgId "SM2"));
      Variant "Ecschnorr" (Unnamed [UField [] (name "TpmsSignatureEcschnorr" TpmsSignatureEcc)]) (Some (value_of Constants.TpmAlgId "ECSchnorr"));
      Variant "Hmac" (Unnamed [UField [] (name "TpmtHa" TpmtHa)]) (Some (value_of Constants.TpmAlgId "HMAC"));
      Variant "Null" (Unnamed [UField [] (name "TpmsEmpty" TpmsEmpty)]) (Some (value_of Constants.TpmAlgId "Null"))]), TpmtSignature);
  (* base/src/lib.rs:1034 *)
  ("TpmtSigScheme", Decl [] (Enum 2 [
      Variant "Rsassa" (Unnamed [UField [] (name "TpmsSigSchemeRsassa" TpmsSchemeHash)]) (Some (value_of Constants.TpmAlgId "RSASSA"));
      Variant "Rsapss" (Unnamed [UField [] (name "TpmsSigSchemeRsapss" TpmsSchemeHash)]) (Some (value_of Constants.TpmAlgId "RSAPSS"));
      Variant "Ecdsa" (Unnamed [UField [] (name "TpmsSigSchemeEcdsa" TpmsSchemeHash)]) (Some (value_of Constants.TpmAlgId "ECDSA"));
      Variant "Ecdaa" (Unnamed [UField [] (name "TpmsSigSchemeEcdaa" TpmsSchemeEcdaa)]) (Some (value_of Constants.TpmAlgId "ECDAA"));
      Variant "Sm2" (Unnamed [UField [] (name "TpmsSigSchemeSm2" TpmsSchemeHash)]) (Some (value_of Constants.TpmAlgId "SM2"));
      Variant "Ecschnorr" (Unnamed [UField [] (name "TpmsSigSchemeEcschnorr" TpmsSchemeHash)]) (Some (value_of Constants.TpmAlgId "ECSchnorr"));
      Variant "Hmac" (Unnamed [UField [] (name "TpmsSchemeHmac" TpmsSchemeHash)]) (Some (value_of Constants.TpmAlgId "HMAC"));
      Variant "Null" (Unnamed [UField [] (name "TpmsEmpty" TpmsEmpty)]) (Some (value_of Constants.TpmAlgId "Null"))]), TpmtSigScheme);
  (* base/src/lib.rs:1047 *)
  ("TpmsSchemeHash", Decl [] (Struct (Named [
      Field "hash_alg" [] (name "TpmiAlgHash" TpmiAlgHash)])), TpmsSchemeHash);
  (* base/src/lib.rs:1053 *)
  ("TpmsSchemeEcdaa", Decl [] (Struct (Named [
      Field "hash_alg" [] (name "TpmiAlgHash" TpmiAlgHash);
      Field "count" [] (name "u16" u16)])), TpmsSchemeEcdaa);
  (* base/src/lib.rs:1071 *)
  ("TpmtRsaScheme", Decl [] (Enum 2 [
      Variant "Rsapss" (Unnamed [UField [] (name "TpmsSigSchemeRsapss" TpmsSchemeHash)]) (Some (value_of Constants.TpmAlgId "RSAPSS"));
      Variant "Rsassa" (Unnamed [UField [] (name "TpmsSigSchemeRsassa" TpmsSchemeHash)]) (Some (value_of Constants.TpmAlgId "RSASSA"));
      Variant "Ecdsa" (Unnamed [UField [] (name "TpmsSigSchemeEcdsa" TpmsSchemeHash)]) (Some (value_of Constants.TpmAlgId "ECDSA"));
      Variant "Ecdaa" (Unnamed [UField [] (name "TpmsSigSchemeEcdaa" TpmsSchemeEcdaa)]) (Some (value_of Constants.TpmAlgId "ECDAA"));
      Variant "Sm2" (Unnamed [UField [] (name "TpmsSigSchemeSm2" TpmsSchemeHash)]) (Some (value_of Constants.TpmAlgId "SM2"));
      Variant "Ecschnorr" (Unnamed [UField [] (name "TpmsSigSchemeEcschnorr" TpmsSchemeHash)]) (Some (value_of Constants.TpmAlgId "ECSchnorr"));
      Variant "Rsaes" (Unnamed [UField [] (name "TpmsEncSchemeRsaes" TpmsEmpty)]) (Some (value_of Constants.TpmAlgId "RSAES"));
      Variant "Oaep" (Unnamed [UField [] (name "TpmsEncSchemeOaep" TpmsSchemeHash)]) (Some (value_of Constants.TpmAlgId "OAEP"));
      Variant "Null" (Unnamed [UField [] (name "TpmsEmpty" TpmsEmpty)]) (Some (value_of Constants.TpmAlgId "Null"))]), TpmtRsaScheme);
  (* base/src/lib.rs:1085 *)
  ("TpmsRsaParms", Decl [] (Struct (Named [
      Field "symmetric" [] (name "TpmtSymDefObject" TpmtSymDefObject);
      Field "scheme" [] (name "TpmtRsaScheme" TpmtRsaScheme);
      Field "key_bits" [] (name "TpmiRsaKeyBits" TpmiRsaKeyBits);
      Field "exponent" [] (name "u32" u32)])), TpmsRsaParms);
  (* base/src/lib.rs:1094 *)
  ("TpmtEccScheme", Decl [] (Enum 2 [
      Variant "Rsapss" (Unnamed [UField [] (name "TpmsSigSchemeRsapss" TpmsSchemeHash)]) (Some (value_of Constants.TpmAlgId "RSAPSS"));
      Variant "Rsassa" (Unnamed [UField [] (name "TpmsSigSchemeRsassa" TpmsSchemeHash)]) (Some (value_of Constants.TpmAlgId "RSASSA"));
      Variant "Ecdsa" (Unnamed [UField [] (name "TpmsSigSchemeEcdsa" TpmsSchemeHash)]) (Some (value_of Constants.TpmAlgId "ECDSA"));
      Variant "Ecdaa" (Unnamed [UField [] (name "TpmsSigSchemeEcdaa" TpmsSchemeEcdaa)]) (Some (value_of Constants.TpmAlgId "ECDAA"));
      Variant "Sm2" (Unnamed [UField [] (name "TpmsSigSchemeSm2" TpmsSchemeHash)]) (Some (value_of Constants.TpmAlgId "SM2"));
      Variant "Ecschnorr" (Unnamed [UField [] (name "TpmsSigSchemeEcschnorr" TpmsSchemeHash)]) (Some (value_of Constants.TpmAlgId "ECSchnorr"));
      Variant "Ecdh" (Unnamed [UField [] (name "TpmsKeySchemeEcdh" TpmsSchemeHash)]) (Some (value_of Constants.TpmAlgId "ECDH"));
      Variant "Ecmqv" (Unnamed [UField [] (name "TpmsKeySchemeEcmqv" TpmsSchemeHash)]) (Some (value_of Constants.TpmAlgId "ECMQV"));
      Variant "Null" (Unnamed [UField [] (name "TpmsEmpty" TpmsEmpty)]) (Some (value_of Constants.TpmAlgId "Null"))]), TpmtEccScheme);
  (* base/src/lib.rs:1113 *)
  ("TpmtKdfScheme", Decl [] (Enum 2 [
      Variant "Mgf1" (Unnamed [UField [] (name "TpmsSchemeMgf1" TpmsSchemeHash)]) (Some (value_of Constants.TpmAlgId "MGF1"));
      Variant "Kdf1Sp800_56a" (Unnamed [UField [] (name "TpmsSchemeKdf1Sp800_56a" TpmsSchemeHash)]) (Some (value_of Constants.TpmAlgId "KDF1SP80056A"));
      Variant "Kdf2" (Unnamed [UField [] (name "TpmsSchemeKdf2" TpmsSchemeHash)]) (Some (value_of Constants.TpmAlgId "KDF2"));
      Variant "Kdf1Sp800_108" (Unnamed [UField [] (name "TpmsSchemeKdf1Sp800_108" TpmsSchemeHash)]) (Some (value_of Constants.TpmAlgId "KDF1SP800108"));
      Variant "Null" (Unnamed [UField [] (name "TpmsEmpty" TpmsEmpty)]) (Some (value_of Constants.TpmAlgId "Null"))]), TpmtKdfScheme);
  (* base/src/lib.rs:1123 *)
  ("TpmsEccParms", Decl [] (Struct (Named [
      Field "symmetric" [] (name "TpmtSymDefObject" TpmtSymDefObject);
      Field "scheme" [] (name "TpmtEccScheme" TpmtEccScheme);
      Field "curve_id" [] (name "TpmiEccCurve" TpmiEccCurve);
      Field "kdf" [] (name "TpmtKdfScheme" TpmtKdfScheme)])), TpmsEccParms);
  (* base/src/lib.rs:1132 *)
  ("TpmtAsymScheme", Decl [] (Enum 2 [
      Variant "Ecdh" (Unnamed [UField [] (name "TpmsKeySchemeEcdh" TpmsSchemeHash)]) (Some (value_of Constants.TpmAlgId "ECDH"));
      Variant "Ecmqv" (Unnamed [UField [] (name "TpmsKeySchemeEcmqv" TpmsSchemeHash)]) (Some (value_of Constants.TpmAlgId "ECMQV"));
      Variant "Sm2" (Unnamed [UField [] (name "TpmsSigSchemeSm2" TpmsSchemeHash)]) (Some (value_of Constants.TpmAlgId "SM2"));
      Variant "Rsapss" (Unnamed [UField [] (name "TpmsSigSchemeRsapss" TpmsSchemeHash)]) (Some (value_of Constants.TpmAlgId "RSAPSS"));
      Variant "Rsassa" (Unnamed [UField [] (name "TpmsSigSchemeRsassa" TpmsSchemeHash)]) (Some (value_of Constants.TpmAlgId "RSASSA"));
      Variant "Ecdsa" (Unnamed [UField [] (name "TpmsSigSchemeEcdsa" TpmsSchemeHash)]) (Some (value_of Constants.TpmAlgId "ECDSA"));
      Variant "Ecdaa" (Unnamed [UField [] (name "TpmsSigSchemeEcdaa" TpmsSchemeEcdaa)]) (Some (value_of Constants.TpmAlgId "ECDAA"));
      Variant "Ecschnorr" (Unnamed [UField [] (name "TpmsSigSchemeEcschnorr" TpmsSchemeHash)]) (Some (value_of Constants.TpmAlgId "ECSchnorr"));
      Variant "Rsaes" (Unnamed [UField [] (name "TpmsEncSchemeRsaes" TpmsEmpty)]) (Some (value_of Constants.TpmAlgId "RSAES"));
      Variant "Oaep" (Unnamed [UField [] (name "TpmsEncSchemeOaep" TpmsSchemeHash)]) (Some (value_of Constants.TpmAlgId "OAEP"));
      Variant "Null" (Unnamed [UField [] (name "TpmsEmpty" TpmsEmpty)]) (Some (value_of Constants.TpmAlgId "Null"))]), TpmtAsymScheme);
  (* base/src/lib.rs:1148 *)
  ("TpmsAsymParms", Decl [] (Struct (Named [
      Field "symmetric" [] (name "TpmtSymDefObject" TpmtSymDefObject);
      Field "scheme" [] (name "TpmtAsymScheme" TpmtAsymScheme)])), TpmsAsymParms);
  (* base/src/lib.rs:1164 *)
  ("PublicParmsAndId", Decl [] (Enum 2 [
      Variant "KeyedHash" (Unnamed [UField [] (name "TpmsKeyedHashParms" TpmsKeyedHashParms); UField [] (name "Tpm2bDigest" Tpm2bDigest)]) (Some (value_of Constants.TpmAlgId "KeyedHash"));
      Variant "Sym" (Unnamed [UField [] (name "TpmsSymCipherParms" TpmsSymCipherParms); UField [] (name "Tpm2bDigest" Tpm2bDigest)]) (Some (value_of Constants.TpmAlgId "SymCipher"));
      Variant "Rsa" (Unnamed [UField [] (name "TpmsRsaParms" TpmsRsaParms); UField [] (name "Tpm2bPublicKeyRsa" Tpm2bPublicKeyRsa)]) (Some (value_of Constants.TpmAlgId "RSA"));
      Variant "Ecc" (Unnamed [UField [] (name "TpmsEccParms" TpmsEccParms); UField [] (name "TpmsEccPoint" TpmsEccPoint)]) (Some (value_of Constants.TpmAlgId "ECC"))]), PublicParmsAndId);
  (* base/src/lib.rs:1209 *)
  ("Tpm2bPublic", Decl [AMarshalable [TkPath ["tpm2b_simple"]]] (Struct (Named [
      Field "size" [] (name "u16" u16);
      Field "public_area" [] (arr (size_of TpmtPublic) "u8" u8)])), Tpm2bPublic);
  (* base/src/lib.rs:1217 *)
  ("Tpm2bTemplate", Decl [AMarshalable [TkPath ["tpm2b_simple"]]] (Struct (Named [
      Field "size" [] (name "u16" u16);
      Field "buffer" [] (arr (size_of TpmtPublic) "u8" u8)])), Tpm2bTemplate);
  (* base/src/lib.rs:1225 *)
  ("Tpm2bPrivateVendorSpecific", Decl [AMarshalable [TkPath ["tpm2b_simple"]]] (Struct (Named [
      Field "size" [] (name "u16" u16);
      Field "buffer" [] (arr TPM2_PRIVATE_VENDOR_SPECIFIC_BYTES "u8" u8)])), Tpm2bPrivateVendorSpecific);
  (* base/src/lib.rs:1232 *)
  ("TpmuSensitiveComposite", Decl [] (Enum 2 [
      Variant "Rsa" (Unnamed [UField [] (name "Tpm2bPrivateKeyRsa" Tpm2bPrivateKeyRsa)]) (Some (value_of Constants.TpmAlgId "RSA"));
      Variant "Ecc" (Unnamed [UField [] (name "Tpm2bEccParameter" Tpm2bEccParameter)]) (Some (value_of Constants.TpmAlgId "ECC"));
      Variant "Bits" (Unnamed [UField [] (name "Tpm2bSensitiveData" Tpm2bSensitiveData)]) (Some (value_of Constants.TpmAlgId "KeyedHash"));
      Variant "Sym" (Unnamed [UField [] (name "Tpm2bSymKey" Tpm2bSymKey)]) (Some (value_of Constants.TpmAlgId "SymCipher"));
      Variant "Any" (Unnamed [UField [] (name "Tpm2bPrivateVendorSpecific" Tpm2bPrivateVendorSpecific)]) (Some (value_of Constants.TpmAlgId "Null"))]), TpmuSensitiveComposite);
  (* base/src/lib.rs:1274 *)
  ("TpmsCapabilityData", Decl [] (Enum 4 [
      Variant "Algorithms" (Unnamed [UField [] (name "TpmlAlgProperty" TpmlAlgProperty)]) (Some (value_of Constants.TpmCap "Algs"));
      Variant "Handles" (Unnamed [UField [] (name "TpmlHandle" TpmlHandle)]) (Some (value_of Constants.TpmCap "Handles"));
      Variant "Command" (Unnamed [UField [] (name "TpmlCca" TpmlCca)]) (Some (value_of Constants.TpmCap "Commands"));
      Variant "PpCommands" (Unnamed [UField [] (name "TpmlCc" TpmlCc)]) (Some (value_of Constants.TpmCap "PPCommands"));
      Variant "AuditCommands" (Unnamed [UField [] (name "TpmlCc" TpmlCc)]) (Some (value_of Constants.TpmCap "AuditCommands"));
      Variant "AssignedPcr" (Unnamed [UField [] (name "TpmlPcrSelection" TpmlPcrSelection)]) (Some (value_of Constants.TpmCap "PCRs"));
      Variant "TpmProperties" (Unnamed [UField [] (name "TpmlTaggedTpmProperty" TpmlTaggedTpmProperty)]) (Some (value_of Constants.TpmCap "TPMProperties"));
      Variant "PcrProperties" (Unnamed [UField [] (name "TpmlTaggedPcrProperty" TpmlTaggedPcrProperty)]) (Some (value_of Constants.TpmCap "PCRProperties"));
      Variant "EccCurves" (Unnamed [UField [] (name "TpmlEccCurve" TpmlEccCurve)]) (Some (value_of Constants.TpmCap "ECCCurves"));
      Variant "AuthPolicies" (Unnamed [UField [] (name "TpmlTaggedPolicy" TpmlTaggedPolicy)]) (Some (value_of Constants.TpmCap "AuthPolicies"))]), TpmsCapabilityData);
  (* base/src/lib.rs:1289 *)
  ("TpmlAlgProperty", Decl [] (Struct (Named [
      Field "count" [] (name "u32" u32);
      Field "alg_properties" [FNameValue ["length"] (EPath ["count"] false false)] (arr TPM2_MAX_CAP_ALGS "TpmsAlgProperty" TpmsAlgProperty)])), TpmlAlgProperty);
  (* base/src/lib.rs:1297 *)
  ("TpmlHandle", Decl [] (Struct (Named [
      Field "count" [] (name "u32" u32);
      Field "handle" [FNameValue ["length"] (EPath ["count"] false false)] (arr TPM2_MAX_CAP_HANDLES "TpmHandle" TpmHandle)])), TpmlHandle);
  (* base/src/lib.rs:1305 *)
  ("TpmlCca", Decl [] (Struct (Named [
      Field "count" [] (name "u32" u32);
      Field "command_attributes" [FNameValue ["length"] (EPath ["count"] false false)] (arr TPM2_MAX_CAP_CC "TpmaCc" TpmaCc)])), TpmlCca);
  (* base/src/lib.rs:1313 *)
  ("TpmlCc", Decl [] (Struct (Named [
      Field "count" [] (name "u32" u32);
      Field "command_codes" [FNameValue ["length"] (EPath ["count"] false false)] (arr TPM2_MAX_CAP_CC "TpmCc" TpmCc)])), TpmlCc);
  (* base/src/lib.rs:1321 *)
  ("TpmlTaggedTpmProperty", Decl [] (Struct (Named [
      Field "count" [] (name "u32" u32);
      Field "tpm_property" [FNameValue ["length"] (EPath ["count"] false false)] (arr TPM2_MAX_TPM_PROPERTIES "TpmsTaggedProperty" TpmsTaggedProperty)])), TpmlTaggedTpmProperty);
  (* base/src/lib.rs:1329 *)
  ("TpmlTaggedPcrProperty", Decl [] (Struct (Named [
      Field "count" [] (name "u32" u32);
      Field "pcr_property" [FNameValue ["length"] (EPath ["count"] false false)] (arr TPM2_MAX_PCR_PROPERTIES "TpmsTaggedPcrSelect" TpmsTaggedPcrSelect)])), TpmlTaggedPcrProperty);
  (* base/src/lib.rs:1337 *)
  ("TpmlEccCurve", Decl [] (Struct (Named [
      Field "count" [] (name "u32" u32);
      Field "ecc_curves" [FNameValue ["length"] (EPath ["count"] false false)] (arr TPM2_MAX_ECC_CURVES "TpmEccCurve" TpmEccCurve)])), TpmlEccCurve);
  (* base/src/lib.rs:1345 *)
  ("TpmlTaggedPolicy", Decl [] (Struct (Named [
      Field "count" [] (name "u32" u32);
      Field "policies" [FNameValue ["length"] (EPath ["count"] false false)] (arr TPM2_MAX_TAGGED_POLICIES "TpmsTaggedPolicy" TpmsTaggedPolicy)])), TpmlTaggedPolicy);
  (* base/src/lib.rs:1353 *)
  ("TpmsAlgProperty", Decl [] (Struct (Named [
      Field "alg" [] (name "TpmAlgId" TpmAlgId);
      Field "alg_properties" [] (name "TpmaAlgorithm" TpmaAlgorithm)])), TpmsAlgProperty);
  (* base/src/lib.rs:1360 *)
  ("TpmsTaggedProperty", Decl [] (Struct (Named [
      Field "property" [] (name "TpmPt" TpmPt);
      Field "value" [] (name "u32" u32)])), TpmsTaggedProperty);
  (* base/src/lib.rs:1367 *)
  ("TpmsTaggedPcrSelect", Decl [] (Struct (Named [
      Field "tag" [] (name "TpmPtPcr" TpmPtPcr);
      Field "size_of_select" [] (name "u8" u8);
      Field "pcr_select" [FNameValue ["length"] (EPath ["size_of_select"] false false)] (arr TPM2_PCR_SELECT_MAX "u8" u8)])), TpmsTaggedPcrSelect);
  (* base/src/lib.rs:1376 *)
  ("TpmsTaggedPolicy", Decl [] (Struct (Named [
      Field "handle" [] (name "TpmHandle" TpmHandle);
      Field "policy_hash" [] (name "TpmtHa" TpmtHa)])), TpmsTaggedPolicy);
  (* base/src/lib.rs:1383 *)
  ("TpmlDigest", Decl [] (Struct (Named [
      Field "count" [] (name "u32" u32);
      Field "digests" [FNameValue ["length"] (EPath ["count"] false false)] (arr TPML_DIGEST_MAX_DIGESTS "Tpm2bDigest" Tpm2bDigest)])), TpmlDigest);
  (* base/src/lib.rs:1391 *)
  ("TpmsAuthCommand", Decl [] (Struct (Named [
      Field "session_handle" [] (name "TpmiShAuthSession" TpmiShAuthSession);
      Field "nonce" [] (name "Tpm2bNonce" Tpm2bDigest);
      Field "session_attributes" [] (name "TpmaSession" TpmaSession);
      Field "hmac" [] (name "Tpm2bAuth" Tpm2bDigest)])), TpmsAuthCommand);
  (* base/src/lib.rs:1400 *)
  ("TpmsAuthResponse", Decl [] (Struct (Named [
      Field "nonce" [] (name "Tpm2bNonce" Tpm2bDigest);
      Field "session_attributes" [] (name "TpmaSession" TpmaSession);
      Field "hmac" [] (name "Tpm2bData" Tpm2bData)])), TpmsAuthResponse);
  (* base/src/lib.rs:1424 *)
  ("Tpm2bPrivate", Decl [AMarshalable [TkPath ["tpm2b_simple"]]] (Struct (Named [
      Field "size" [] (name "u16" u16);
      Field "buffer" [] (arr (size_of PRIVATE) "u8" u8)])), Tpm2bPrivate);
  (* base/src/lib.rs:1431 *)
  ("TpmsIdObject", Decl [] (Struct (Named [
      Field "integrity_hmac" [] (name "Tpm2bDigest" Tpm2bDigest);
      Field "enc_identity" [] (name "Tpm2bDigest" Tpm2bDigest)])), TpmsIdObject);
  (* base/src/lib.rs:1439 *)
  ("Tpm2bIdObject", Decl [AMarshalable [TkPath ["tpm2b_simple"]]] (Struct (Named [
      Field "size" [] (name "u16" u16);
      Field "credential" [] (arr (size_of TpmsIdObject) "u8" u8)])), Tpm2bIdObject);
  (* base/src/lib.rs:1446 *)
  ("TpmsNvPublic", Decl [] (Struct (Named [
      Field "nv_index" [] (name "TpmiRhNvIndex" TpmiRhNvIndex);
      Field "name_alg" [] (name "TpmiAlgHash" TpmiAlgHash);
      Field "attributes" [] (name "TpmaNv" TpmaNv);
      Field "auth_policy" [] (name "Tpm2bDigest" Tpm2bDigest);
      Field "data_size" [] (name "u16" u16)])), TpmsNvPublic);
  (* base/src/lib.rs:1464 *)
  ("Tpm2bContextSensitive", Decl [AMarshalable [TkPath ["tpm2b_simple"]]] (Struct (Named [
      Field "size" [] (name "u16" u16);
      Field "buffer" [] (arr TPM2_MAX_CONTEXT_SIZE "u8" u8)])), Tpm2bContextSensitive);
  (* base/src/lib.rs:1471 *)
  ("TpmsContextData", Decl [] (Struct (Named [
      Field "integrity" [] (name "Tpm2bDigest" Tpm2bDigest);
      Field "encrypted" [] (name "Tpm2bContextSensitive" Tpm2bContextSensitive)])), TpmsContextData);
  (* base/src/lib.rs:1479 *)
  ("Tpm2bContextData", Decl [AMarshalable [TkPath ["tpm2b_simple"]]] (Struct (Named [
      Field "size" [] (name "u16" u16);
      Field "buffer" [] (arr (size_of TpmsContextData) "u8" u8)])), Tpm2bContextData);
  (* base/src/lib.rs:1486 *)
  ("TpmsCreationData", Decl [] (Struct (Named [
      Field "pcr_select" [] (name "TpmlPcrSelection" TpmlPcrSelection);
      Field "pcr_digest" [] (name "Tpm2bDigest" Tpm2bDigest);
      Field "locality" [] (name "TpmaLocality" TpmaLocality);
      Field "parent_name_alg" [] (name "TpmAlgId" TpmAlgId);
      Field "parent_name" [] (name "Tpm2bName" Tpm2bName);
      Field "parent_qualified_name" [] (name "Tpm2bName" Tpm2bName);
      Field "outside_info" [] (name "Tpm2bData" Tpm2bData)])), TpmsCreationData);
  (* base/src/lib.rs:1499 *)
  ("Tpm2bCreationData", Decl [AMarshalable [TkPath ["tpm2b_simple"]]] (Struct (Named [
      Field "size" [] (name "u16" u16);
      Field "creation_data" [] (arr (size_of TpmsCreationData) "u8" u8)])), Tpm2bCreationData);
  (* base/src/commands/capability.rs:10 *)
  ("GetCapabilityCmd", Decl [] (Struct (Named [
      Field "capability" [] (name "TpmCap" TpmCap);
      Field "property" [] (name "TpmPt" TpmPt);
      Field "property_count" [] (name "u32" u32)])), GetCapabilityCmd);
  (* base/src/commands/capability.rs:25 *)
  ("GetCapabilityResp", Decl [] (Struct (Named [
      Field "more_data" [] (name "TpmiYesNo" TpmiYesNo);
      Field "capability_data" [] (name "TpmsCapabilityData" TpmsCapabilityData)])), GetCapabilityResp);
  (* base/src/commands/pcr.rs:16 *)
  ("PcrReadCmd", Decl [] (Struct (Named [
      Field "pcr_selection_in" [] (name "TpmlPcrSelection" TpmlPcrSelection)])), PcrReadCmd);
  (* base/src/commands/pcr.rs:28 *)
  ("PcrReadResp", Decl [] (Struct (Named [
      Field "pcr_update_counter" [] (name "u32" u32);
      Field "pcr_selection_out" [] (name "TpmlPcrSelection" TpmlPcrSelection);
      Field "pcr_values" [] (name "TpmlDigest" TpmlDigest)])), PcrReadResp);
  (* base/src/commands/random.rs:10 *)
  ("GetRandomCmd", Decl [] (Struct (Named [
      Field "bytes_requested" [] (name "u16" u16)])), GetRandomCmd);
  (* base/src/commands/random.rs:22 *)
  ("GetRandomResp", Decl [] (Struct (Named [
      Field "random_bytes" [] (name "Tpm2bDigest" Tpm2bDigest)])), GetRandomResp);
  (* base/src/commands/startup.rs:11 *)
  ("StartupCmd", Decl [] (Struct (Named [
      Field "startup_type" [] (name "TpmSu" TpmSu)])), StartupCmd);
  (* crates/tpm2-client/src/lib.rs:28 *)
  ("CmdHeader", Decl [] (Struct (Named [
      Field "tag" [] (name "TpmiStCommandTag" TpmiStCommandTag);
      Field "size" [] (name "u32" u32);
      Field "code" [] (name "TpmCc" TpmCc)])), CmdHeader);
  (* crates/tpm2-client/src/lib.rs:46 *)
  ("RespHeader", Decl [] (Struct (Named [
      Field "tag" [] (name "TpmSt" TpmSt);
      Field "size" [] (name "u32" u32);
      Field "rc" [] (name "u32" u32)])), RespHeader)].

(** ** Other names of types, base/src/lib.rs:608, 609, 867, 965, 1012-1017,
    1058-1067, 1106-1109 *)
Definition aliases : list (string * string) := [
  ("Tpm2bNonce", "Tpm2bDigest"); ("Tpm2bOperand", "Tpm2bDigest"); ("Tpm2bAuth", "Tpm2bDigest");
  ("TpmsSchemeHmac", "TpmsSchemeHash"); ("TpmsSignatureRsassa", "TpmsSignatureRsa");
  ("TpmsSignatureRsapss", "TpmsSignatureRsa"); ("TpmsSignatureEcdsa", "TpmsSignatureEcc");
  ("TpmsSignatureEcdaa", "TpmsSignatureEcc"); ("TpmsSignatureSm2", "TpmsSignatureEcc");
  ("TpmsSignatureEcschnorr", "TpmsSignatureEcc"); ("TpmsKeySchemeEcdh", "TpmsSchemeHash");
  ("TpmsKeySchemeEcmqv", "TpmsSchemeHash"); ("TpmsSigSchemeRsassa", "TpmsSchemeHash");
  ("TpmsSigSchemeRsapss", "TpmsSchemeHash"); ("TpmsSigSchemeEcdsa", "TpmsSchemeHash");
  ("TpmsSigSchemeSm2", "TpmsSchemeHash"); ("TpmsSigSchemeEcschnorr", "TpmsSchemeHash");
  ("TpmsSigSchemeEcdaa", "TpmsSchemeEcdaa"); ("TpmsEncSchemeOaep", "TpmsSchemeHash");
  ("TpmsEncSchemeRsaes", "TpmsEmpty"); ("TpmsSchemeMgf1", "TpmsSchemeHash");
  ("TpmsSchemeKdf1Sp800_56a", "TpmsSchemeHash"); ("TpmsSchemeKdf2", "TpmsSchemeHash");
  ("TpmsSchemeKdf1Sp800_108", "TpmsSchemeHash")].
