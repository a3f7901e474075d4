(** Descriptions of every type of the [base] crate (and of the client's
    headers) that implements [Marshalable]. *)
From Coq Require Import String ZArith NArith List Lia Bool.
From Coq Require Import Init.Byte.
From Verif Require Import Prelude Types WireSpec Layout.
Import ListNotations.
Local Open Scope string_scope.
Open Scope Z_scope.

(** ** Notation helpers *)
Fixpoint mk_fields (l : list (string * kind * ty)) : fields :=
  match l with [] => FNil | (n, k, t) :: l' => FCons n k t (mk_fields l') end.
Fixpoint mk_tys (l : list ty) : tys :=
  match l with [] => TNil | t :: l' => TCons t (mk_tys l') end.
Fixpoint mk_variants (l : list (Z * list ty)) : variants :=
  match l with [] => VNil | (s, ts) :: l' => VCons s (mk_tys ts) (mk_variants l') end.
Definition struct (l : list (string * kind * ty)) : ty := TNamed (mk_fields l).
Definition tuple (l : list ty) : ty := TTuple (mk_tys l).
Definition enum (k : nat) (l : list (Z * list ty)) : ty := TEnum k (mk_variants l).
Definition fld (n : string) (t : ty) : string * kind * ty := (n, KPlain, t).

Definition u8 := TInt false 1.
Definition u16 := TInt false 2.
Definition u32 := TInt false 4.
Definition u64 := TInt false 8.
(** Newtype structs and open_enums: a tuple struct with one field
    (open_enum generates [struct T(pub uN)]). *)
Definition newtype (t : ty) : ty := tuple [t].

(** [Default::default()] (derived: all zero; impl_tpml! 1533-1539: count 0 and
    default elements; TpmtHa 584-588: Sha1 with zeros, which is its first
    variant; tpm2b_simple: marshalable-derive/src/lib.rs:239-246). *)
Fixpoint zero_of (t : ty) : val :=
  match t with
  | TInt _ _ => VInt 0
  | TUnit => VUnit
  | TBytes n => VBytes (repeat x00 (N.to_nat n))
  | TNamed fs => VStruct (zero_fields fs)
  | TTuple ts => VStruct (zero_tys ts)
  | TEnum _ vrs =>
      match vrs with VNil => VUnit | VCons s ts _ => VEnum s (zero_tys ts) end
  | TTpm2b max => VTpm2b 0 (repeat x00 (N.to_nat max))
  | TSplit pre _ mid vrs =>
      VStruct [VStruct (zero_tys pre); VStruct (zero_tys mid);
               match vrs with VNil => VUnit | VCons s ts _ => VEnum s (zero_tys ts) end]
  end
with zero_fields (fs : fields) : list val :=
  match fs with
  | FNil => []
  | FCons _ KPlain t rest => zero_of t :: zero_fields rest
  | FCons _ (KArr n) t rest => VArr (repeat (zero_of t) (N.to_nat n)) :: zero_fields rest
  | FCons _ (KLen n _ d) t rest => VArr (repeat d (N.to_nat n)) :: zero_fields rest
  end
with zero_tys (ts : tys) : list val :=
  match ts with TNil => [] | TCons t rest => zero_of t :: zero_tys rest end.

(** An array field with [#[marshalable(length = len)]]. *)
Definition larr (name len : string) (n : N) (t : ty) : string * kind * ty :=
  (name, KLen n len (zero_of t), t).

(** A TPML list: [count: u32] and a counted array. *)
Definition tpml (name : string) (n : N) (t : ty) : ty :=
  struct [fld "count" u32; larr name "count" n t].

(** ** Constants, base/src/constants.rs *)
(* 39-79 *)
Definition alg_RSA := 0x0001.
Definition alg_SHA1 := 0x0004.
Definition alg_HMAC := 0x0005.
Definition alg_AES := 0x0006.
Definition alg_MGF1 := 0x0007.
Definition alg_KeyedHash := 0x0008.
Definition alg_XOR := 0x000A.
Definition alg_SHA256 := 0x000B.
Definition alg_SHA384 := 0x000C.
Definition alg_SHA512 := 0x000D.
Definition alg_Null := 0x0010.
Definition alg_SM3256 := 0x0012.
Definition alg_SM4 := 0x0013.
Definition alg_RSASSA := 0x0014.
Definition alg_RSAES := 0x0015.
Definition alg_RSAPSS := 0x0016.
Definition alg_OAEP := 0x0017.
Definition alg_ECDSA := 0x0018.
Definition alg_ECDH := 0x0019.
Definition alg_ECDAA := 0x001A.
Definition alg_SM2 := 0x001B.
Definition alg_ECSchnorr := 0x001C.
Definition alg_ECMQV := 0x001D.
Definition alg_KDF1SP80056A := 0x0020.
Definition alg_KDF2 := 0x0021.
Definition alg_KDF1SP800108 := 0x0022.
Definition alg_ECC := 0x0023.
Definition alg_SymCipher := 0x0025.
Definition alg_Camellia := 0x0026.
(* 365-384 *)
Definition st_NoSessions := 0x8001.
Definition st_Sessions := 0x8002.
Definition st_AttestNV := 0x8014.
Definition st_AttestCommandAudit := 0x8015.
Definition st_AttestSessionAudit := 0x8016.
Definition st_AttestCertify := 0x8017.
Definition st_AttestQuote := 0x8018.
Definition st_AttestTime := 0x8019.
Definition st_AttestCreation := 0x801A.
Definition st_AttestNVDigest := 0x801C.

(* 6-31 *)
Definition TPM2_MAX_CAP_BUFFER : N := 1024.
Definition TPM2_PCR_SELECT_MAX : N := 4.
Definition TPM2_NUM_PCR_BANKS : N := 16.
Definition TPM2_MAX_SYM_DATA : N := 256.
Definition TPM2_MAX_RSA_KEY_BYTES : N := 512.

(** ** Newtypes and open_enums *)
Definition TpmAlgId := newtype u16.        (* constants.rs:39 *)
Definition TpmEccCurve := newtype u16.     (* constants.rs:87 *)
Definition TpmCc := newtype u32.           (* constants.rs:105 *)
Definition TpmSt := newtype u16.           (* constants.rs:365 *)
Definition TpmSu := newtype u16.           (* constants.rs:392 *)
Definition TpmCap := newtype u32.          (* constants.rs:413 *)
Definition TpmPt := newtype u32.           (* constants.rs:433 *)
Definition TpmPtPcr := newtype u32.        (* constants.rs:602 *)
Definition TpmHandle := newtype u32.       (* constants.rs:671 *)
Definition TpmHc := newtype u32.           (* constants.rs:683 *)
Definition TpmGenerated := newtype u32.    (* constants.rs:778 *)
Definition TpmaLocality := newtype u8.     (* lib.rs:36 *)
Definition TpmaNv := newtype u32.          (* lib.rs:60 *)
Definition TpmiAlgHash := newtype u16.     (* lib.rs:148 *)
Definition TpmiAlgKdf := newtype u16.      (* lib.rs:165 *)
Definition TpmiAlgPublic := newtype u16.   (* lib.rs:179 *)
Definition TpmiAlgSymMode := newtype u16.  (* lib.rs:193 *)
Definition TpmiAlgSymObject := newtype u16.        (* lib.rs:209 *)
Definition TpmiAlgKeyedhashScheme := newtype u16.  (* lib.rs:223 *)
Definition TpmiAlgRsaScheme := newtype u16.        (* lib.rs:235 *)
Definition TpmiAlgSigScheme := newtype u16.        (* lib.rs:253 *)
Definition TpmiAlgEccScheme := newtype u16.        (* lib.rs:270 *)
Definition TpmiAlgAsymScheme := newtype u16.       (* lib.rs:288 *)
Definition TpmiRhNvIndex := newtype u32.   (* lib.rs:305 *)
Definition TpmiShAuthSession := newtype u32.       (* lib.rs:321 *)
Definition TpmiEccCurve := newtype TpmEccCurve.    (* lib.rs:344 *)
Definition TpmiYesNo := newtype u8.        (* lib.rs:352 *)
Definition TpmiStAttest := newtype u16.    (* lib.rs:363 *)
Definition TpmiAesKeyBits := newtype u16.  (* lib.rs:377 *)
Definition TpmiSm4KeyBits := newtype u16.  (* lib.rs:381 *)
Definition TpmiCamelliaKeyBits := newtype u16.     (* lib.rs:385 *)
Definition TpmiRsaKeyBits := newtype u16.  (* lib.rs:389 *)
Definition TpmaObject := newtype u32.      (* lib.rs:395 *)
Definition TpmaAlgorithm := newtype u32.   (* lib.rs:429 *)
Definition TpmaSession := newtype u8.      (* lib.rs:453 *)
Definition TpmaCc := newtype u32.          (* lib.rs:475 *)
Definition TpmiStCommandTag := newtype u16.        (* lib.rs:549 *)

(** ** Structures, base/src/lib.rs *)
Definition TpmsEmpty := tuple [].          (* 567 *)
(* 571-577 *)
Definition TpmtHa := enum 2 [
  (alg_SHA1, [TBytes 20]); (alg_SHA256, [TBytes 32]); (alg_SHA384, [TBytes 48]);
  (alg_SHA512, [TBytes 64]); (alg_SM3256, [TBytes 32])].
Definition Tpm2bDigest := TTpm2b 64.       (* 603; also Tpm2bNonce, Tpm2bOperand, Tpm2bAuth *)
Definition Tpm2bData := TTpm2b 64.         (* 614 *)
Definition Tpm2bEvent := TTpm2b 1024.      (* 622 *)
Definition Tpm2bMaxBuffer := TTpm2b 1024.  (* 630 *)
Definition Tpm2bMaxNvBuffer := TTpm2b 2048.        (* 638 *)
Definition Tpm2bIv := TTpm2b 16.           (* 646 *)
Definition Tpm2bName := TTpm2b (size_of TpmtHa).   (* 654; UNION_SIZE 590-598 *)
(* 668 *)
Definition TpmsClockInfo := struct [
  fld "clock" u64; fld "reset_count" u32; fld "restart_count" u32; fld "safe" TpmiYesNo].
(* 677 *)
Definition TpmsPcrSelection := struct [
  fld "hash" TpmiAlgHash; fld "sizeof_select" u8;
  larr "pcr_select" "sizeof_select" TPM2_PCR_SELECT_MAX u8].
Definition TpmlPcrSelection := tpml "pcr_selections" TPM2_NUM_PCR_BANKS TpmsPcrSelection. (* 686 *)
Definition TpmsQuoteInfo := struct [       (* 694 *)
  fld "pcr_select" TpmlPcrSelection; fld "pcr_digest" Tpm2bDigest].
Definition TpmsCreationInfo := struct [    (* 701 *)
  fld "object_name" Tpm2bName; fld "creation_hash" Tpm2bDigest].
Definition TpmsCertifyInfo := struct [     (* 708 *)
  fld "name" Tpm2bName; fld "qualified_name" Tpm2bName].
Definition TpmsCommandAuditInfo := struct [        (* 715 *)
  fld "audit_counter" u64; fld "digest_alg" u16; fld "audit_digest" Tpm2bDigest;
  fld "command_digest" Tpm2bDigest].
Definition TpmsSessionAuditInfo := struct [        (* 724 *)
  fld "exclusive_session" TpmiYesNo; fld "session_digest" Tpm2bDigest].
Definition TpmsTimeInfo := struct [        (* 731 *)
  fld "time" u64; fld "clock_info" TpmsClockInfo].
Definition TpmsTimeAttestInfo := struct [  (* 738 *)
  fld "time" TpmsTimeInfo; fld "firmware_version" u64].
Definition TpmsNvCertifyInfo := struct [   (* 745 *)
  fld "index_name" Tpm2bName; fld "offset" u16; fld "nv_contents" Tpm2bMaxNvBuffer].
(* 753-761 *)
Definition attest_variants := mk_variants [
  (st_AttestCertify, [TpmsCertifyInfo]); (st_AttestCreation, [TpmsCreationInfo]);
  (st_AttestQuote, [TpmsQuoteInfo]); (st_AttestCommandAudit, [TpmsCommandAuditInfo]);
  (st_AttestSessionAudit, [TpmsSessionAuditInfo]); (st_AttestTime, [TpmsTimeAttestInfo]);
  (st_AttestNV, [TpmsNvCertifyInfo])].
Definition TpmuAttest := TEnum 2 attest_variants.
(* 765-802: magic | selector | qualified_signer, extra_data, clock_info, firmware_version | attested *)
Definition TpmsAttest := TSplit (mk_tys [TpmGenerated]) 2
  (mk_tys [Tpm2bName; Tpm2bData; TpmsClockInfo; u64]) attest_variants.
Definition Tpm2bAttest := TTpm2b (size_of TpmsAttest).     (* 807 *)
Definition Tpm2bSymKey := TTpm2b 32.       (* 815 *)
Definition Tpm2bLabel := TTpm2b 32.        (* 823 *)
Definition TpmsDerive := struct [          (* 830 *)
  fld "label" Tpm2bLabel; fld "context" Tpm2bLabel].
Definition Tpm2bSensitiveData :=           (* 862; UNION_SIZE 847-857 *)
  TTpm2b (N.max TPM2_MAX_SYM_DATA (size_of TpmsDerive)).
Definition TpmsSensitiveCreate := struct [ (* 871 *)
  fld "user_auth" Tpm2bDigest; fld "data" Tpm2bSensitiveData].
Definition Tpm2bSensitiveCreate := TTpm2b (size_of TpmsSensitiveCreate).   (* 879 *)
Definition Tpm2bPublicKeyRsa := TTpm2b TPM2_MAX_RSA_KEY_BYTES.     (* 887 *)
Definition Tpm2bPrivateKeyRsa := TTpm2b (TPM2_MAX_RSA_KEY_BYTES / 2).      (* 895 *)
Definition Tpm2bEccParameter := TTpm2b 128.        (* 903 *)
Definition TpmsEccPoint := struct [        (* 910 *)
  fld "x" Tpm2bEccParameter; fld "y" Tpm2bEccParameter].
Definition Tpm2bEncryptedSecret :=         (* 953; UNION_SIZE 930-948 *)
  TTpm2b (N.max (N.max (size_of TpmsEccPoint) TPM2_MAX_RSA_KEY_BYTES) (size_of Tpm2bDigest)).
Definition TpmsSchemeXor := struct [       (* 960 *)
  fld "hash_alg" TpmiAlgHash; fld "kdf" TpmiAlgKdf].
Definition TpmsSchemeHash := struct [fld "hash_alg" TpmiAlgHash].          (* 1047 *)
Definition TpmsSchemeEcdaa := struct [fld "hash_alg" TpmiAlgHash; fld "count" u16].        (* 1053 *)
Definition TpmtKeyedHashScheme := enum 2 [ (* 969 *)
  (alg_HMAC, [TpmsSchemeHash]); (alg_XOR, [TpmsSchemeXor]); (alg_Null, [TpmsEmpty])].
Definition TpmsKeyedHashParms := struct [fld "scheme" TpmtKeyedHashScheme].        (* 977 *)
Definition TpmtSymDefObject := enum 2 [    (* 983 *)
  (alg_AES, [TpmiAesKeyBits; TpmiAlgSymMode]); (alg_SM4, [TpmiSm4KeyBits; TpmiAlgSymMode]);
  (alg_Camellia, [TpmiCamelliaKeyBits; TpmiAlgSymMode]);
  (alg_XOR, [TpmiAlgHash; TpmsEmpty]); (alg_Null, [TpmsEmpty; TpmsEmpty])].
Definition TpmsSymCipherParms := struct [fld "sym" TpmtSymDefObject].      (* 993 *)
Definition TpmsSignatureRsa := struct [    (* 999 *)
  fld "hash" TpmiAlgHash; fld "sig" Tpm2bPublicKeyRsa].
Definition TpmsSignatureEcc := struct [    (* 1006 *)
  fld "hash" TpmiAlgHash; fld "signature_r" Tpm2bEccParameter; fld "signature_s" Tpm2bEccParameter].
Definition TpmtSignature := enum 2 [       (* 1021-1030 *)
  (alg_RSASSA, [TpmsSignatureRsa]); (alg_RSAPSS, [TpmsSignatureRsa]);
  (alg_ECDSA, [TpmsSignatureEcc]); (alg_ECDAA, [TpmsSignatureEcc]);
  (alg_SM2, [TpmsSignatureEcc]); (alg_ECSchnorr, [TpmsSignatureEcc]);
  (alg_HMAC, [TpmtHa]); (alg_Null, [TpmsEmpty])].
Definition TpmtSigScheme := enum 2 [       (* 1034-1043 *)
  (alg_RSASSA, [TpmsSchemeHash]); (alg_RSAPSS, [TpmsSchemeHash]);
  (alg_ECDSA, [TpmsSchemeHash]); (alg_ECDAA, [TpmsSchemeEcdaa]);
  (alg_SM2, [TpmsSchemeHash]); (alg_ECSchnorr, [TpmsSchemeHash]);
  (alg_HMAC, [TpmsSchemeHash]); (alg_Null, [TpmsEmpty])].
Definition TpmtRsaScheme := enum 2 [       (* 1071-1081 *)
  (alg_RSAPSS, [TpmsSchemeHash]); (alg_RSASSA, [TpmsSchemeHash]);
  (alg_ECDSA, [TpmsSchemeHash]); (alg_ECDAA, [TpmsSchemeEcdaa]);
  (alg_SM2, [TpmsSchemeHash]); (alg_ECSchnorr, [TpmsSchemeHash]);
  (alg_RSAES, [TpmsEmpty]); (alg_OAEP, [TpmsSchemeHash]); (alg_Null, [TpmsEmpty])].
Definition TpmsRsaParms := struct [        (* 1085 *)
  fld "symmetric" TpmtSymDefObject; fld "scheme" TpmtRsaScheme;
  fld "key_bits" TpmiRsaKeyBits; fld "exponent" u32].
Definition TpmtEccScheme := enum 2 [       (* 1094-1104 *)
  (alg_RSAPSS, [TpmsSchemeHash]); (alg_RSASSA, [TpmsSchemeHash]);
  (alg_ECDSA, [TpmsSchemeHash]); (alg_ECDAA, [TpmsSchemeEcdaa]);
  (alg_SM2, [TpmsSchemeHash]); (alg_ECSchnorr, [TpmsSchemeHash]);
  (alg_ECDH, [TpmsSchemeHash]); (alg_ECMQV, [TpmsSchemeHash]); (alg_Null, [TpmsEmpty])].
Definition TpmtKdfScheme := enum 2 [       (* 1113-1119 *)
  (alg_MGF1, [TpmsSchemeHash]); (alg_KDF1SP80056A, [TpmsSchemeHash]);
  (alg_KDF2, [TpmsSchemeHash]); (alg_KDF1SP800108, [TpmsSchemeHash]); (alg_Null, [TpmsEmpty])].
Definition TpmsEccParms := struct [        (* 1123 *)
  fld "symmetric" TpmtSymDefObject; fld "scheme" TpmtEccScheme;
  fld "curve_id" TpmiEccCurve; fld "kdf" TpmtKdfScheme].
Definition TpmtAsymScheme := enum 2 [      (* 1132-1144 *)
  (alg_ECDH, [TpmsSchemeHash]); (alg_ECMQV, [TpmsSchemeHash]); (alg_SM2, [TpmsSchemeHash]);
  (alg_RSAPSS, [TpmsSchemeHash]); (alg_RSASSA, [TpmsSchemeHash]);
  (alg_ECDSA, [TpmsSchemeHash]); (alg_ECDAA, [TpmsSchemeEcdaa]);
  (alg_ECSchnorr, [TpmsSchemeHash]); (alg_RSAES, [TpmsEmpty]);
  (alg_OAEP, [TpmsSchemeHash]); (alg_Null, [TpmsEmpty])].
Definition TpmsAsymParms := struct [       (* 1148 *)
  fld "symmetric" TpmtSymDefObject; fld "scheme" TpmtAsymScheme].
(* 1164-1169 *)
Definition public_variants := mk_variants [
  (alg_KeyedHash, [TpmsKeyedHashParms; Tpm2bDigest]);
  (alg_SymCipher, [TpmsSymCipherParms; Tpm2bDigest]);
  (alg_RSA, [TpmsRsaParms; Tpm2bPublicKeyRsa]); (alg_ECC, [TpmsEccParms; TpmsEccPoint])].
Definition PublicParmsAndId := TEnum 2 public_variants.
(* 1173-1204: selector | name_alg, object_attributes, auth_policy | parms_and_id *)
Definition TpmtPublic := TSplit TNil 2
  (mk_tys [TpmiAlgHash; TpmaObject; Tpm2bDigest]) public_variants.
Definition Tpm2bPublic := TTpm2b (size_of TpmtPublic).     (* 1209 *)
Definition Tpm2bTemplate := TTpm2b (size_of TpmtPublic).   (* 1217 *)
Definition Tpm2bPrivateVendorSpecific := TTpm2b 1280.      (* 1225; constants.rs:28 *)
(* 1232-1239 *)
Definition sensitive_variants := mk_variants [
  (alg_RSA, [Tpm2bPrivateKeyRsa]); (alg_ECC, [Tpm2bEccParameter]);
  (alg_KeyedHash, [Tpm2bSensitiveData]); (alg_SymCipher, [Tpm2bSymKey]);
  (alg_Null, [Tpm2bPrivateVendorSpecific])].
Definition TpmuSensitiveComposite := TEnum 2 sensitive_variants.
(* 1243-1270: selector | auth_value, seed_value | sensitive *)
Definition TpmtSensitive := TSplit TNil 2
  (mk_tys [Tpm2bDigest; Tpm2bDigest]) sensitive_variants.
Definition TpmsAlgProperty := struct [     (* 1353 *)
  fld "alg" TpmAlgId; fld "alg_properties" TpmaAlgorithm].
Definition TpmsTaggedProperty := struct [  (* 1360 *)
  fld "property" TpmPt; fld "value" u32].
Definition TpmsTaggedPcrSelect := struct [ (* 1367 *)
  fld "tag" TpmPtPcr; fld "size_of_select" u8;
  larr "pcr_select" "size_of_select" TPM2_PCR_SELECT_MAX u8].
Definition TpmsTaggedPolicy := struct [    (* 1376 *)
  fld "handle" TpmHandle; fld "policy_hash" TpmtHa].
(* 554-563 *)
Definition TPM2_MAX_CAP_DATA : N := (TPM2_MAX_CAP_BUFFER - size_of TpmCap - size_of u32)%N.
Definition TPM2_MAX_CAP_ALGS : N := (TPM2_MAX_CAP_DATA / size_of TpmsAlgProperty)%N.
Definition TPM2_MAX_CAP_HANDLES : N := (TPM2_MAX_CAP_DATA / size_of TpmHandle)%N.
Definition TPM2_MAX_CAP_CC : N := (TPM2_MAX_CAP_DATA / size_of TpmCc)%N.
Definition TPM2_MAX_TPM_PROPERTIES : N := (TPM2_MAX_CAP_DATA / size_of TpmsTaggedProperty)%N.
Definition TPM2_MAX_PCR_PROPERTIES : N := (TPM2_MAX_CAP_DATA / size_of TpmsTaggedPcrSelect)%N.
Definition TPM2_MAX_ECC_CURVES : N := (TPM2_MAX_CAP_DATA / size_of TpmEccCurve)%N.
Definition TPM2_MAX_TAGGED_POLICIES : N := (TPM2_MAX_CAP_DATA / size_of TpmsTaggedPolicy)%N.
Definition TPML_DIGEST_MAX_DIGESTS : N := 8.
Definition TpmlAlgProperty := tpml "alg_properties" TPM2_MAX_CAP_ALGS TpmsAlgProperty.     (* 1289 *)
Definition TpmlHandle := tpml "handle" TPM2_MAX_CAP_HANDLES TpmHandle.     (* 1297 *)
Definition TpmlCca := tpml "command_attributes" TPM2_MAX_CAP_CC TpmaCc.    (* 1305 *)
Definition TpmlCc := tpml "command_codes" TPM2_MAX_CAP_CC TpmCc.           (* 1313 *)
Definition TpmlTaggedTpmProperty := tpml "tpm_property" TPM2_MAX_TPM_PROPERTIES TpmsTaggedProperty.        (* 1321 *)
Definition TpmlTaggedPcrProperty := tpml "pcr_property" TPM2_MAX_PCR_PROPERTIES TpmsTaggedPcrSelect.       (* 1329 *)
Definition TpmlEccCurve := tpml "ecc_curves" TPM2_MAX_ECC_CURVES TpmEccCurve.      (* 1337 *)
Definition TpmlTaggedPolicy := tpml "policies" TPM2_MAX_TAGGED_POLICIES TpmsTaggedPolicy.  (* 1345 *)
Definition TpmlDigest := tpml "digests" TPML_DIGEST_MAX_DIGESTS Tpm2bDigest.       (* 1383 *)
Definition TpmsCapabilityData := enum 4 [  (* 1274-1285; selectors constants.rs:413-425 *)
  (0, [TpmlAlgProperty]); (1, [TpmlHandle]); (2, [TpmlCca]); (3, [TpmlCc]); (4, [TpmlCc]);
  (5, [TpmlPcrSelection]); (6, [TpmlTaggedTpmProperty]); (7, [TpmlTaggedPcrProperty]);
  (8, [TpmlEccCurve]); (9, [TpmlTaggedPolicy])].
Definition TpmsAuthCommand := struct [     (* 1391 *)
  fld "session_handle" TpmiShAuthSession; fld "nonce" Tpm2bDigest;
  fld "session_attributes" TpmaSession; fld "hmac" Tpm2bDigest].
Definition TpmsAuthResponse := struct [    (* 1400 *)
  fld "nonce" Tpm2bDigest; fld "session_attributes" TpmaSession; fld "hmac" Tpm2bData].
(* 1408-1418: not Marshalable, only for size_of::<_PRIVATE>() *)
Definition Tpm2bSensitive := TTpm2b (size_of TpmtSensitive).
Definition PRIVATE := struct [
  fld "integrity_outer" Tpm2bDigest; fld "integrity_inner" Tpm2bDigest; fld "sensitive" Tpm2bSensitive].
Definition Tpm2bPrivate := TTpm2b (size_of PRIVATE).       (* 1424 *)
Definition TpmsIdObject := struct [        (* 1431 *)
  fld "integrity_hmac" Tpm2bDigest; fld "enc_identity" Tpm2bDigest].
Definition Tpm2bIdObject := TTpm2b (size_of TpmsIdObject). (* 1439 *)
Definition TpmsNvPublic := struct [        (* 1446 *)
  fld "nv_index" TpmiRhNvIndex; fld "name_alg" TpmiAlgHash; fld "attributes" TpmaNv;
  fld "auth_policy" Tpm2bDigest; fld "data_size" u16].
Definition Tpm2bContextSensitive := TTpm2b 5120.   (* 1464 *)
Definition TpmsContextData := struct [     (* 1471 *)
  fld "integrity" Tpm2bDigest; fld "encrypted" Tpm2bContextSensitive].
Definition Tpm2bContextData := TTpm2b (size_of TpmsContextData).   (* 1479 *)
Definition TpmsCreationData := struct [    (* 1486 *)
  fld "pcr_select" TpmlPcrSelection; fld "pcr_digest" Tpm2bDigest; fld "locality" TpmaLocality;
  fld "parent_name_alg" TpmAlgId; fld "parent_name" Tpm2bName;
  fld "parent_qualified_name" Tpm2bName; fld "outside_info" Tpm2bData].
Definition Tpm2bCreationData := TTpm2b (size_of TpmsCreationData). (* 1499 *)

(** ** Commands, base/src/commands *)
Definition GetCapabilityCmd := struct [    (* capability.rs:10 *)
  fld "capability" TpmCap; fld "property" TpmPt; fld "property_count" u32].
Definition GetCapabilityResp := struct [   (* capability.rs:25 *)
  fld "more_data" TpmiYesNo; fld "capability_data" TpmsCapabilityData].
Definition PcrReadCmd := struct [fld "pcr_selection_in" TpmlPcrSelection].         (* pcr.rs:16 *)
Definition PcrReadResp := struct [         (* pcr.rs:28 *)
  fld "pcr_update_counter" u32; fld "pcr_selection_out" TpmlPcrSelection; fld "pcr_values" TpmlDigest].
Definition GetRandomCmd := struct [fld "bytes_requested" u16].     (* random.rs:10 *)
Definition GetRandomResp := struct [fld "random_bytes" Tpm2bDigest].       (* random.rs:22 *)
Definition StartupCmd := struct [fld "startup_type" TpmSu].        (* startup.rs:11 *)

(** ** Headers, crates/tpm2-client/src/lib.rs:28-50 *)
Definition CmdHeader := struct [fld "tag" TpmiStCommandTag; fld "size" u32; fld "code" TpmCc].
Definition RespHeader := struct [fld "tag" TpmSt; fld "size" u32; fld "rc" u32].

(** Every Marshalable type above. *)
Definition base_types : list ty := [
  u8; u16; u32; u64; TInt true 1; TInt true 2; TInt true 4; TInt true 8; TUnit;
  TpmAlgId; TpmEccCurve; TpmCc; TpmSt; TpmSu; TpmCap; TpmPt; TpmPtPcr; TpmHandle; TpmHc;
  TpmGenerated; TpmaLocality; TpmaNv; TpmiAlgHash; TpmiAlgKdf; TpmiAlgPublic; TpmiAlgSymMode;
  TpmiAlgSymObject; TpmiAlgKeyedhashScheme; TpmiAlgRsaScheme; TpmiAlgSigScheme;
  TpmiAlgEccScheme; TpmiAlgAsymScheme; TpmiRhNvIndex; TpmiShAuthSession; TpmiEccCurve;
  TpmiYesNo; TpmiStAttest; TpmiAesKeyBits; TpmiSm4KeyBits; TpmiCamelliaKeyBits; TpmiRsaKeyBits;
  TpmaObject; TpmaAlgorithm; TpmaSession; TpmaCc; TpmiStCommandTag;
  TpmsEmpty; TpmtHa; Tpm2bDigest; Tpm2bData; Tpm2bEvent; Tpm2bMaxBuffer; Tpm2bMaxNvBuffer;
  Tpm2bIv; Tpm2bName; TpmsClockInfo; TpmsPcrSelection; TpmlPcrSelection; TpmsQuoteInfo;
  TpmsCreationInfo; TpmsCertifyInfo; TpmsCommandAuditInfo; TpmsSessionAuditInfo; TpmsTimeInfo;
  TpmsTimeAttestInfo; TpmsNvCertifyInfo; TpmuAttest; TpmsAttest; Tpm2bAttest; Tpm2bSymKey;
  Tpm2bLabel; TpmsDerive; Tpm2bSensitiveData; TpmsSensitiveCreate; Tpm2bSensitiveCreate;
  Tpm2bPublicKeyRsa; Tpm2bPrivateKeyRsa; Tpm2bEccParameter; TpmsEccPoint; Tpm2bEncryptedSecret;
  TpmsSchemeXor; TpmsSchemeHash; TpmsSchemeEcdaa; TpmtKeyedHashScheme; TpmsKeyedHashParms;
  TpmtSymDefObject; TpmsSymCipherParms; TpmsSignatureRsa; TpmsSignatureEcc; TpmtSignature;
  TpmtSigScheme; TpmtRsaScheme; TpmsRsaParms; TpmtEccScheme; TpmtKdfScheme; TpmsEccParms;
  TpmtAsymScheme; TpmsAsymParms; PublicParmsAndId; TpmtPublic; Tpm2bPublic; Tpm2bTemplate;
  Tpm2bPrivateVendorSpecific; TpmuSensitiveComposite; TpmtSensitive; TpmsAlgProperty;
  TpmsTaggedProperty; TpmsTaggedPcrSelect; TpmsTaggedPolicy; TpmlAlgProperty; TpmlHandle; TpmlCca;
  TpmlCc; TpmlTaggedTpmProperty; TpmlTaggedPcrProperty; TpmlEccCurve; TpmlTaggedPolicy; TpmlDigest;
  TpmsCapabilityData; TpmsAuthCommand; TpmsAuthResponse; Tpm2bPrivate; TpmsIdObject; Tpm2bIdObject;
  TpmsNvPublic; Tpm2bContextSensitive; TpmsContextData; Tpm2bContextData; TpmsCreationData;
  Tpm2bCreationData; GetCapabilityCmd; GetCapabilityResp; PcrReadCmd; PcrReadResp; GetRandomCmd;
  GetRandomResp; StartupCmd; CmdHeader; RespHeader].

Lemma base_types_wf : forallb wf_ty base_types = true.
Proof. vm_compute. reflexivity. Qed.

Lemma base_type_wf t : In t base_types -> wf_ty t = true.
Proof. pose proof base_types_wf as H. rewrite forallb_forall in H. auto. Qed.
