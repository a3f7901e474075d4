(** How names of the library and of the specification are matched: a constant of
    the library is written in Rust's case conventions, one of the specification
    with a prefix and underscores; two names are the same name when they agree
    after dropping everything but letters and digits, ignoring case. *)
From Coq Require Import String Ascii ZArith List Bool.
From Verif Require Import Constants Part2Constants.
Import ListNotations.
Local Open Scope string_scope.
Local Open Scope list_scope.
Open Scope Z_scope.

Definition upper (c : ascii) : ascii :=
  let n := nat_of_ascii c in
  if (Nat.leb 97 n && Nat.leb n 122)%bool then ascii_of_nat (n - 32) else c.
Definition alphanumeric (c : ascii) : bool :=
  let n := nat_of_ascii c in
  (Nat.leb 48 n && Nat.leb n 57) || (Nat.leb 65 n && Nat.leb n 90).
Fixpoint letters (s : string) : string :=
  match s with
  | EmptyString => EmptyString
  | String c s => if alphanumeric (upper c) then String (upper c) (letters s) else letters s
  end.

(** One enumeration: its name in the library, the prefix that the specification
    puts before the names, the constants of the library, and the specification's
    table. *)
Record enumeration := Enumeration {
  e_name : string; e_prefix : string; e_lib : constants; e_spec : constants
}.
Definition base_enumerations : list enumeration := [
  Enumeration "TpmAlgId" "TPM_ALG_" TpmAlgId TPM_ALG;
  Enumeration "TpmEccCurve" "TPM_ECC_" TpmEccCurve TPM_ECC;
  Enumeration "TpmCc" "TPM_CC_" TpmCc TPM_CC;
  Enumeration "TpmRc" "TPM_RC_" TpmRc TPM_RC;
  Enumeration "TpmEo" "TPM_EO_" TpmEo TPM_EO;
  Enumeration "TpmSt" "TPM_ST_" TpmSt TPM_ST;
  Enumeration "TpmSu" "TPM_SU_" TpmSu TPM_SU;
  Enumeration "TpmSe" "TPM_SE_" TpmSe TPM_SE;
  Enumeration "TpmCap" "TPM_CAP_" TpmCap TPM_CAP;
  Enumeration "TpmPt" "TPM_PT_" TpmPt TPM_PT;
  Enumeration "TpmPtPcr" "TPM_PT_PCR_" TpmPtPcr TPM_PT_PCR;
  Enumeration "TpmHt" "TPM_HT_" TpmHt TPM_HT;
  Enumeration "TpmHandle" "TPM_" TpmHandle TPM_RH;
  Enumeration "TpmNt" "TPM_NT_" TpmNt TPM_NT;
  Enumeration "TpmGenerated" "TPM_GENERATED_" TpmGenerated TPM_GENERATED;
  Enumeration "TpmaLocality" "TPM_" TpmaLocality_flags TPMA_LOCALITY;
  Enumeration "TpmaNv" "TPMA_NV_" TpmaNv_flags TPMA_NV;
  Enumeration "TpmaObject" "" TpmaObject_flags TPMA_OBJECT;
  Enumeration "TpmaAlgorithm" "" TpmaAlgorithm_flags TPMA_ALGORITHM;
  Enumeration "TpmaSession" "" TpmaSession_flags TPMA_SESSION;
  Enumeration "TpmaCc" "" TpmaCc_flags TPMA_CC;
  (* crates/tpm2 *)
  Enumeration "Alg" "TPM_ALG_" Alg TPM_ALG].
Definition tpm2_rc : enumeration := Enumeration "TpmRcError" "TPM_RC_" TpmRcError TPM_RC.

(** The names the library spells differently, with the specification's name. *)
Definition misspelt : list (string * string * string) := [
  ("TpmCc", "HierarchyChanegAuth", "TPM_CC_HierarchyChangeAuth");
  ("TpmCc", "TestParams", "TPM_CC_TestParms");
  ("TpmRc", "CAsymmetric", "TPM_RC_ASYMMETRIC");
  ("TpmPtPcr", "DRTMRest", "TPM_PT_PCR_DRTM_RESET")].

(** The specification's name of a constant of the library. *)
Definition spec_name (e : enumeration) (name sname : string) : Prop :=
  In (e_name e, name, sname) misspelt
  \/ (forall s, ~ In (e_name e, name, s) misspelt) /\ letters sname = letters (e_prefix e ++ name).

(** What the specification's tables have and the library does not: newer
    constants, bounds, modifiers of response codes, second names and reserved
    handles. *)
Definition absent : list (string * list string) := [
  ("TpmAlgId", ["TPM_ALG_MLKEM"; "TPM_ALG_MLDSA"; "TPM_ALG_HASH_MLDSA"; "TPM_ALG_HKDF"; "TPM_ALG_EDDSA";
     "TPM_ALG_HASH_EDDSA"]);
  ("TpmEccCurve", ["TPM_ECC_BP_P256_R1"; "TPM_ECC_BP_P384_R1"; "TPM_ECC_BP_P512_R1"; "TPM_ECC_CURVE_25519";
     "TPM_ECC_CURVE_448"]);
  ("TpmCc", ["TPM_CC_FIRST"; "TPM_CC_HMAC"; "TPM_CC_HMAC_Start"; "TPM_CC_ECC_Encrypt"; "TPM_CC_ECC_Decrypt";
     "TPM_CC_PolicyCapability"; "TPM_CC_PolicyParameters"; "TPM_CC_NV_DefineSpace2"; "TPM_CC_NV_ReadPublic2";
     "TPM_CC_SetCapability"; "TPM_CC_ReadOnlyControl"; "TPM_CC_PolicyTransportSPDM";
     "TPM_CC_VerifySequenceComplete"; "TPM_CC_SignSequenceComplete"; "TPM_CC_VerifyDigestSignature";
     "TPM_CC_SignDigest"; "TPM_CC_Encapsulate"; "TPM_CC_Decapsulate"; "TPM_CC_VerifySequenceStart";
     "TPM_CC_SignSequenceStart"; "TPM_CC_LAST"]);
  ("TpmRc", ["TPM_RC_BAD_TAG"; "TPM_RC_READ_ONLY"; "TPM_RC_FW_LIMITED"; "TPM_RC_SVN_LIMITED"; "TPM_RC_PARMS";
     "TPM_RC_EXT_MU"; "TPM_RC_ONE_SHOT_SIGNATURE"; "TPM_RC_SIGN_CONTEXT_KEY"; "TPM_RC_CHANNEL";
     "TPM_RC_CHANNEL_KEY"; "TPM_RC_NOT_USED"; "TPM_RC_H"; "TPM_RC_P"; "TPM_RC_S"; "TPM_RC_1"; "TPM_RC_2";
     "TPM_RC_3"; "TPM_RC_4"; "TPM_RC_5"; "TPM_RC_6"; "TPM_RC_7"; "TPM_RC_8"; "TPM_RC_9"; "TPM_RC_A";
     "TPM_RC_B"; "TPM_RC_C"; "TPM_RC_D"; "TPM_RC_E"; "TPM_RC_F"; "TPM_RC_N_MASK"]);
  ("TpmSt", ["TPM_ST_MESSAGE_VERIFIED"; "TPM_ST_DIGEST_VERIFIED"]);
  ("TpmCap", ["TPM_CAP_FIRST"; "TPM_CAP_PUB_KEYS"; "TPM_CAP_SPDM_SESSION_INFO"; "TPM_CAP_LAST";
     "TPM_CAP_VENDOR_PROPERTY"]);
  ("TpmPt", ["TPM_PT_NONE"; "TPM_PT_ERRATA"; "TPM_PT_FIRMWARE_SVN"; "TPM_PT_FIRMWARE_MAX_SVN";
     "TPM_PT_ML_PARAMETER_SETS"]);
  ("TpmPtPcr", ["TPM_PT_PCR_FIRST"; "TPM_PT_PCR_LAST"]);
  ("TpmHt", ["TPM_HT_LOADED_SESSION"; "TPM_HT_SAVED_SESSION"; "TPM_HT_EXTERNAL_NV"; "TPM_HT_PERMANENT_NV"]);
  ("TpmHandle", ["TPM_RH_FIRST"; "TPM_RH_SRK"; "TPM_RH_REVOKE"; "TPM_RH_TRANSPORT"; "TPM_RH_OPERATOR";
     "TPM_RH_ADMIN"; "TPM_RH_EK"; "TPM_RH_UNASSIGNED"; "TPM_RH_AUTH_00"; "TPM_RH_AUTH_FF"; "TPM_RH_ACT_0";
     "TPM_RH_ACT_F"; "TPM_RH_FW_OWNER"; "TPM_RH_FW_ENDORSEMENT"; "TPM_RH_FW_PLATFORM"; "TPM_RH_FW_NULL";
     "TPM_RH_SVN_OWNER_BASE"; "TPM_RH_SVN_ENDORSEMENT_BASE"; "TPM_RH_SVN_PLATFORM_BASE";
     "TPM_RH_SVN_NULL_BASE"; "TPM_RH_LAST"]);
  ("TpmaObject", ["firmwareLimited"; "svnLimited"]);
  ("Alg", ["TPM_ALG_MLKEM"; "TPM_ALG_MLDSA"; "TPM_ALG_HASH_MLDSA"; "TPM_ALG_CMAC"; "TPM_ALG_HKDF";
     "TPM_ALG_EDDSA"; "TPM_ALG_HASH_EDDSA"])].
Definition is_absent (e : enumeration) (sname : string) : Prop := exists names, In (e_name e, names) absent /\ In sname names.
