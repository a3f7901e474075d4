(** The alternatives of the unions of "TPM 2.0 Library, Part 2: Structures"
    (version 185, the documents of /repo/docs/specs): for each union, the names
    of the selectors that its tables list.  The selector of a structure is of an
    interface type; its table lists the values it takes, and NULL where the type
    is used with "+".  Left out are algorithms to which Table 8 gives no value
    (SHA256_192 and SHAKE256 in Table 77).  Part 2 v185 has no TPMT_ASYM_SCHEME,
    which the library has from earlier versions, so it is not in the list. *)
From Coq Require Import String ZArith List.
From Verif Require Import Part2Constants.
Import ListNotations.
Local Open Scope string_scope.
Local Open Scope list_scope.
Open Scope Z_scope.

(** Table 77 TPMI_ALG_HASH, Table 88 TPMU_HA *)
Definition TPMI_ALG_HASH : list string := [
  "TPM_ALG_SHA1"; "TPM_ALG_SHA256"; "TPM_ALG_SHA384"; "TPM_ALG_SHA512"; "TPM_ALG_SM3_256";
  "TPM_ALG_SHA3_256"; "TPM_ALG_SHA3_384"; "TPM_ALG_SHA3_512"; "TPM_ALG_NULL"].
(** Table 152 TPMI_ST_ATTEST, Table 153 TPMU_ATTEST *)
Definition TPMI_ST_ATTEST : list string := [
  "TPM_ST_ATTEST_CERTIFY"; "TPM_ST_ATTEST_QUOTE"; "TPM_ST_ATTEST_SESSION_AUDIT";
  "TPM_ST_ATTEST_COMMAND_AUDIT"; "TPM_ST_ATTEST_TIME"; "TPM_ST_ATTEST_CREATION"; "TPM_ST_ATTEST_NV";
  "TPM_ST_ATTEST_NV_DIGEST"].
(** Table 175 TPMI_ALG_KEYEDHASH_SCHEME *)
Definition TPMI_ALG_KEYEDHASH_SCHEME : list string := ["TPM_ALG_HMAC"; "TPM_ALG_XOR"; "TPM_ALG_NULL"].
(** Table 80 TPMI_ALG_SYM_OBJECT: "TPM_ALG_XOR is not allowed in this list" *)
Definition TPMI_ALG_SYM_OBJECT : list string := [
  "TPM_ALG_TDES"; "TPM_ALG_AES"; "TPM_ALG_SM4"; "TPM_ALG_CAMELLIA"; "TPM_ALG_NULL"].
(** Table 83 TPMI_ALG_SIG_SCHEME *)
Definition TPMI_ALG_SIG_SCHEME : list string := [
  "TPM_ALG_RSASSA"; "TPM_ALG_RSAPSS"; "TPM_ALG_ECDSA"; "TPM_ALG_ECDAA"; "TPM_ALG_SM2"; "TPM_ALG_ECSCHNORR";
  "TPM_ALG_EDDSA"; "TPM_ALG_HASH_EDDSA"; "TPM_ALG_MLDSA"; "TPM_ALG_HASH_MLDSA"; "TPM_ALG_HMAC";
  "TPM_ALG_NULL"].
(** Table 189 TPMI_ALG_RSA_SCHEME *)
Definition TPMI_ALG_RSA_SCHEME : list string := [
  "TPM_ALG_RSASSA"; "TPM_ALG_RSAES"; "TPM_ALG_RSAPSS"; "TPM_ALG_OAEP"; "TPM_ALG_NULL"].
(** Table 200 TPMI_ALG_ECC_SCHEME *)
Definition TPMI_ALG_ECC_SCHEME : list string := [
  "TPM_ALG_ECDSA"; "TPM_ALG_ECDAA"; "TPM_ALG_SM2"; "TPM_ALG_ECSCHNORR"; "TPM_ALG_EDDSA"; "TPM_ALG_HASH_EDDSA";
  "TPM_ALG_ECDH"; "TPM_ALG_ECMQV"; "TPM_ALG_NULL"].
(** Table 82 TPMI_ALG_KDF *)
Definition TPMI_ALG_KDF : list string := [
  "TPM_ALG_MGF1"; "TPM_ALG_KDF1_SP800_56A"; "TPM_ALG_KDF2"; "TPM_ALG_KDF1_SP800_108"; "TPM_ALG_HKDF";
  "TPM_ALG_NULL"].
(** Table 225 TPMI_ALG_PUBLIC, the selector of TPMU_PUBLIC_PARMS, of
    TPMU_PUBLIC_ID and of TPMU_SENSITIVE_COMPOSITE (Table 239) *)
Definition TPMI_ALG_PUBLIC : list string := [
  "TPM_ALG_RSA"; "TPM_ALG_KEYEDHASH"; "TPM_ALG_ECC"; "TPM_ALG_SYMCIPHER"; "TPM_ALG_MLDSA";
  "TPM_ALG_HASH_MLDSA"; "TPM_ALG_MLKEM"].
(** Table 24 TPM_CAP, Table 138 TPMU_CAPABILITIES *)
Definition CAPABILITIES : list string := [
  "TPM_CAP_ALGS"; "TPM_CAP_HANDLES"; "TPM_CAP_COMMANDS"; "TPM_CAP_PP_COMMANDS"; "TPM_CAP_AUDIT_COMMANDS";
  "TPM_CAP_PCRS"; "TPM_CAP_TPM_PROPERTIES"; "TPM_CAP_PCR_PROPERTIES"; "TPM_CAP_ECC_CURVES";
  "TPM_CAP_AUTH_POLICIES"; "TPM_CAP_ACT"; "TPM_CAP_PUB_KEYS"; "TPM_CAP_SPDM_SESSION_INFO";
  "TPM_CAP_VENDOR_PROPERTY"].

(** [name] is the name of a selector of value [sel] in Tables 8, 21 or 24. *)
Definition has_value (name : string) (sel : Z) : Prop := In (name, sel) (TPM_ALG ++ TPM_ST ++ TPM_CAP).
(** One of the names listed has this value. *)
Definition listed (names : list string) (sel : Z) : Prop :=
  exists name, In name names /\ has_value name sel.
