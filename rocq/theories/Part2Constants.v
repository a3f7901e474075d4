(** The constants of "TPM 2.0 Library, Part 2: Structures" (version 185, the
    documents of /repo/docs/specs): names and values as printed in its tables.
    Alternative names are listed as the table gives them. *)
From Coq Require Import String ZArith List.
Import ListNotations.
Local Open Scope string_scope.
Local Open Scope list_scope.
Open Scope Z_scope.

(** Table 8 *)
Definition TPM_ALG : list (string * Z) := [
  ("TPM_ALG_KEYEDHASH", 0x0008); ("TPM_ALG_SYMCIPHER", 0x0025); ("TPM_ALG_RSA", 0x0001);
  ("TPM_ALG_ECC", 0x0023); ("TPM_ALG_MLKEM", 0x00A0); ("TPM_ALG_MLDSA", 0x00A1);
  ("TPM_ALG_HASH_MLDSA", 0x00A2); ("TPM_ALG_SHA1", 0x0004); ("TPM_ALG_SHA256", 0x000B);
  ("TPM_ALG_SHA384", 0x000C); ("TPM_ALG_SHA512", 0x000D); ("TPM_ALG_SM3_256", 0x0012);
  ("TPM_ALG_SHA3_256", 0x0027); ("TPM_ALG_SHA3_384", 0x0028); ("TPM_ALG_SHA3_512", 0x0029);
  ("TPM_ALG_TDES", 0x0003); ("TPM_ALG_AES", 0x0006); ("TPM_ALG_SM4", 0x0013); ("TPM_ALG_CAMELLIA", 0x0026);
  ("TPM_ALG_CTR", 0x0040); ("TPM_ALG_OFB", 0x0041); ("TPM_ALG_CBC", 0x0042); ("TPM_ALG_CFB", 0x0043);
  ("TPM_ALG_ECB", 0x0044); ("TPM_ALG_HMAC", 0x0005); ("TPM_ALG_CMAC", 0x003F); ("TPM_ALG_HKDF", 0x001F);
  ("TPM_ALG_KDF1_SP800_56A", 0x0020); ("TPM_ALG_KDF1_SP800_108", 0x0022); ("TPM_ALG_KDF2", 0x0021);
  ("TPM_ALG_RSASSA", 0x0014); ("TPM_ALG_RSAPSS", 0x0016); ("TPM_ALG_RSAES", 0x0015);
  ("TPM_ALG_OAEP", 0x0017); ("TPM_ALG_ECDSA", 0x0018); ("TPM_ALG_ECSCHNORR", 0x001C);
  ("TPM_ALG_ECDAA", 0x001A); ("TPM_ALG_ECDH", 0x0019); ("TPM_ALG_ECMQV", 0x001D); ("TPM_ALG_SM2", 0x001B);
  ("TPM_ALG_EDDSA", 0x0060); ("TPM_ALG_HASH_EDDSA", 0x0061); ("TPM_ALG_NULL", 0x0010);
  ("TPM_ALG_XOR", 0x000A); ("TPM_ALG_MGF1", 0x0007)].

(** Table 9 *)
Definition TPM_ECC : list (string * Z) := [
  ("TPM_ECC_NONE", 0x0000); ("TPM_ECC_NIST_P192", 0x0001); ("TPM_ECC_NIST_P224", 0x0002);
  ("TPM_ECC_NIST_P256", 0x0003); ("TPM_ECC_NIST_P384", 0x0004); ("TPM_ECC_NIST_P521", 0x0005);
  ("TPM_ECC_BN_P256", 0x0010); ("TPM_ECC_BN_P638", 0x0011); ("TPM_ECC_SM2_P256", 0x0020);
  ("TPM_ECC_BP_P256_R1", 0x0030); ("TPM_ECC_BP_P384_R1", 0x0031); ("TPM_ECC_BP_P512_R1", 0x0032);
  ("TPM_ECC_CURVE_25519", 0x0040); ("TPM_ECC_CURVE_448", 0x0041)].

(** Table 12 *)
Definition TPM_CC : list (string * Z) := [
  ("TPM_CC_FIRST", 0x0000011F); ("TPM_CC_NV_UndefineSpaceSpecial", 0x0000011F);
  ("TPM_CC_EvictControl", 0x00000120); ("TPM_CC_HierarchyControl", 0x00000121);
  ("TPM_CC_NV_UndefineSpace", 0x00000122); ("TPM_CC_ChangeEPS", 0x00000124);
  ("TPM_CC_ChangePPS", 0x00000125); ("TPM_CC_Clear", 0x00000126); ("TPM_CC_ClearControl", 0x00000127);
  ("TPM_CC_ClockSet", 0x00000128); ("TPM_CC_HierarchyChangeAuth", 0x00000129);
  ("TPM_CC_NV_DefineSpace", 0x0000012A); ("TPM_CC_PCR_Allocate", 0x0000012B);
  ("TPM_CC_PCR_SetAuthPolicy", 0x0000012C); ("TPM_CC_PP_Commands", 0x0000012D);
  ("TPM_CC_SetPrimaryPolicy", 0x0000012E); ("TPM_CC_FieldUpgradeStart", 0x0000012F);
  ("TPM_CC_ClockRateAdjust", 0x00000130); ("TPM_CC_CreatePrimary", 0x00000131);
  ("TPM_CC_NV_GlobalWriteLock", 0x00000132); ("TPM_CC_GetCommandAuditDigest", 0x00000133);
  ("TPM_CC_NV_Increment", 0x00000134); ("TPM_CC_NV_SetBits", 0x00000135); ("TPM_CC_NV_Extend", 0x00000136);
  ("TPM_CC_NV_Write", 0x00000137); ("TPM_CC_NV_WriteLock", 0x00000138);
  ("TPM_CC_DictionaryAttackLockReset", 0x00000139); ("TPM_CC_DictionaryAttackParameters", 0x0000013A);
  ("TPM_CC_NV_ChangeAuth", 0x0000013B); ("TPM_CC_PCR_Event", 0x0000013C); ("TPM_CC_PCR_Reset", 0x0000013D);
  ("TPM_CC_SequenceComplete", 0x0000013E); ("TPM_CC_SetAlgorithmSet", 0x0000013F);
  ("TPM_CC_SetCommandCodeAuditStatus", 0x00000140); ("TPM_CC_FieldUpgradeData", 0x00000141);
  ("TPM_CC_IncrementalSelfTest", 0x00000142); ("TPM_CC_SelfTest", 0x00000143);
  ("TPM_CC_Startup", 0x00000144); ("TPM_CC_Shutdown", 0x00000145); ("TPM_CC_StirRandom", 0x00000146);
  ("TPM_CC_ActivateCredential", 0x00000147); ("TPM_CC_Certify", 0x00000148);
  ("TPM_CC_PolicyNV", 0x00000149); ("TPM_CC_CertifyCreation", 0x0000014A);
  ("TPM_CC_Duplicate", 0x0000014B); ("TPM_CC_GetTime", 0x0000014C);
  ("TPM_CC_GetSessionAuditDigest", 0x0000014D); ("TPM_CC_NV_Read", 0x0000014E);
  ("TPM_CC_NV_ReadLock", 0x0000014F); ("TPM_CC_ObjectChangeAuth", 0x00000150);
  ("TPM_CC_PolicySecret", 0x00000151); ("TPM_CC_Rewrap", 0x00000152); ("TPM_CC_Create", 0x00000153);
  ("TPM_CC_ECDH_ZGen", 0x00000154); ("TPM_CC_HMAC", 0x00000155); ("TPM_CC_MAC", 0x00000155);
  ("TPM_CC_Import", 0x00000156); ("TPM_CC_Load", 0x00000157); ("TPM_CC_Quote", 0x00000158);
  ("TPM_CC_RSA_Decrypt", 0x00000159); ("TPM_CC_HMAC_Start", 0x0000015B); ("TPM_CC_MAC_Start", 0x0000015B);
  ("TPM_CC_SequenceUpdate", 0x0000015C); ("TPM_CC_Sign", 0x0000015D); ("TPM_CC_Unseal", 0x0000015E);
  ("TPM_CC_PolicySigned", 0x00000160); ("TPM_CC_ContextLoad", 0x00000161);
  ("TPM_CC_ContextSave", 0x00000162); ("TPM_CC_ECDH_KeyGen", 0x00000163);
  ("TPM_CC_EncryptDecrypt", 0x00000164); ("TPM_CC_FlushContext", 0x00000165);
  ("TPM_CC_LoadExternal", 0x00000167); ("TPM_CC_MakeCredential", 0x00000168);
  ("TPM_CC_NV_ReadPublic", 0x00000169); ("TPM_CC_PolicyAuthorize", 0x0000016A);
  ("TPM_CC_PolicyAuthValue", 0x0000016B); ("TPM_CC_PolicyCommandCode", 0x0000016C);
  ("TPM_CC_PolicyCounterTimer", 0x0000016D); ("TPM_CC_PolicyCpHash", 0x0000016E);
  ("TPM_CC_PolicyLocality", 0x0000016F); ("TPM_CC_PolicyNameHash", 0x00000170);
  ("TPM_CC_PolicyOR", 0x00000171); ("TPM_CC_PolicyTicket", 0x00000172); ("TPM_CC_ReadPublic", 0x00000173);
  ("TPM_CC_RSA_Encrypt", 0x00000174); ("TPM_CC_StartAuthSession", 0x00000176);
  ("TPM_CC_VerifySignature", 0x00000177); ("TPM_CC_ECC_Parameters", 0x00000178);
  ("TPM_CC_FirmwareRead", 0x00000179); ("TPM_CC_GetCapability", 0x0000017A);
  ("TPM_CC_GetRandom", 0x0000017B); ("TPM_CC_GetTestResult", 0x0000017C); ("TPM_CC_Hash", 0x0000017D);
  ("TPM_CC_PCR_Read", 0x0000017E); ("TPM_CC_PolicyPCR", 0x0000017F); ("TPM_CC_PolicyRestart", 0x00000180);
  ("TPM_CC_ReadClock", 0x00000181); ("TPM_CC_PCR_Extend", 0x00000182);
  ("TPM_CC_PCR_SetAuthValue", 0x00000183); ("TPM_CC_NV_Certify", 0x00000184);
  ("TPM_CC_EventSequenceComplete", 0x00000185); ("TPM_CC_HashSequenceStart", 0x00000186);
  ("TPM_CC_PolicyPhysicalPresence", 0x00000187); ("TPM_CC_PolicyDuplicationSelect", 0x00000188);
  ("TPM_CC_PolicyGetDigest", 0x00000189); ("TPM_CC_TestParms", 0x0000018A); ("TPM_CC_Commit", 0x0000018B);
  ("TPM_CC_PolicyPassword", 0x0000018C); ("TPM_CC_ZGen_2Phase", 0x0000018D);
  ("TPM_CC_EC_Ephemeral", 0x0000018E); ("TPM_CC_PolicyNvWritten", 0x0000018F);
  ("TPM_CC_PolicyTemplate", 0x00000190); ("TPM_CC_CreateLoaded", 0x00000191);
  ("TPM_CC_PolicyAuthorizeNV", 0x00000192); ("TPM_CC_EncryptDecrypt2", 0x00000193);
  ("TPM_CC_AC_GetCapability", 0x00000194); ("TPM_CC_AC_Send", 0x00000195);
  ("TPM_CC_Policy_AC_SendSelect", 0x00000196); ("TPM_CC_CertifyX509", 0x00000197);
  ("TPM_CC_ACT_SetTimeout", 0x00000198); ("TPM_CC_ECC_Encrypt", 0x00000199);
  ("TPM_CC_ECC_Decrypt", 0x0000019A); ("TPM_CC_PolicyCapability", 0x0000019B);
  ("TPM_CC_PolicyParameters", 0x0000019C); ("TPM_CC_NV_DefineSpace2", 0x0000019D);
  ("TPM_CC_NV_ReadPublic2", 0x0000019E); ("TPM_CC_SetCapability", 0x0000019F);
  ("TPM_CC_ReadOnlyControl", 0x000001A0); ("TPM_CC_PolicyTransportSPDM", 0x000001A1);
  ("TPM_CC_VerifySequenceComplete", 0x000001A3); ("TPM_CC_SignSequenceComplete", 0x000001A4);
  ("TPM_CC_VerifyDigestSignature", 0x000001A5); ("TPM_CC_SignDigest", 0x000001A6);
  ("TPM_CC_Encapsulate", 0x000001A7); ("TPM_CC_Decapsulate", 0x000001A8);
  ("TPM_CC_VerifySequenceStart", 0x000001A9); ("TPM_CC_SignSequenceStart", 0x000001AA);
  ("TPM_CC_LAST", 0x000001AA)].

Local Definition RC_VER1 := 0x100.
Local Definition RC_FMT1 := 0x080.
Local Definition RC_WARN := 0x900.
(** Table 18 *)
Definition TPM_RC : list (string * Z) := [
  ("TPM_RC_SUCCESS", 0x000); ("TPM_RC_BAD_TAG", 0x01E); ("TPM_RC_INITIALIZE", RC_VER1 + 0x000);
  ("TPM_RC_FAILURE", RC_VER1 + 0x001); ("TPM_RC_SEQUENCE", RC_VER1 + 0x003);
  ("TPM_RC_PRIVATE", RC_VER1 + 0x00B); ("TPM_RC_HMAC", RC_VER1 + 0x019);
  ("TPM_RC_DISABLED", RC_VER1 + 0x020); ("TPM_RC_EXCLUSIVE", RC_VER1 + 0x021);
  ("TPM_RC_AUTH_TYPE", RC_VER1 + 0x024); ("TPM_RC_AUTH_MISSING", RC_VER1 + 0x025);
  ("TPM_RC_POLICY", RC_VER1 + 0x026); ("TPM_RC_PCR", RC_VER1 + 0x027);
  ("TPM_RC_PCR_CHANGED", RC_VER1 + 0x028); ("TPM_RC_UPGRADE", RC_VER1 + 0x02D);
  ("TPM_RC_TOO_MANY_CONTEXTS", RC_VER1 + 0x02E); ("TPM_RC_AUTH_UNAVAILABLE", RC_VER1 + 0x02F);
  ("TPM_RC_REBOOT", RC_VER1 + 0x030); ("TPM_RC_UNBALANCED", RC_VER1 + 0x031);
  ("TPM_RC_COMMAND_SIZE", RC_VER1 + 0x042); ("TPM_RC_COMMAND_CODE", RC_VER1 + 0x043);
  ("TPM_RC_AUTHSIZE", RC_VER1 + 0x044); ("TPM_RC_AUTH_CONTEXT", RC_VER1 + 0x045);
  ("TPM_RC_NV_RANGE", RC_VER1 + 0x046); ("TPM_RC_NV_SIZE", RC_VER1 + 0x047);
  ("TPM_RC_NV_LOCKED", RC_VER1 + 0x048); ("TPM_RC_NV_AUTHORIZATION", RC_VER1 + 0x049);
  ("TPM_RC_NV_UNINITIALIZED", RC_VER1 + 0x04A); ("TPM_RC_NV_SPACE", RC_VER1 + 0x04B);
  ("TPM_RC_NV_DEFINED", RC_VER1 + 0x04C); ("TPM_RC_BAD_CONTEXT", RC_VER1 + 0x050);
  ("TPM_RC_CPHASH", RC_VER1 + 0x051); ("TPM_RC_PARENT", RC_VER1 + 0x052);
  ("TPM_RC_NEEDS_TEST", RC_VER1 + 0x053); ("TPM_RC_NO_RESULT", RC_VER1 + 0x054);
  ("TPM_RC_SENSITIVE", RC_VER1 + 0x055); ("TPM_RC_READ_ONLY", RC_VER1 + 0x056);
  ("TPM_RC_ASYMMETRIC", RC_FMT1 + 0x001); ("TPM_RC_ATTRIBUTES", RC_FMT1 + 0x002);
  ("TPM_RC_HASH", RC_FMT1 + 0x003); ("TPM_RC_VALUE", RC_FMT1 + 0x004);
  ("TPM_RC_HIERARCHY", RC_FMT1 + 0x005); ("TPM_RC_KEY_SIZE", RC_FMT1 + 0x007);
  ("TPM_RC_MGF", RC_FMT1 + 0x008); ("TPM_RC_MODE", RC_FMT1 + 0x009); ("TPM_RC_TYPE", RC_FMT1 + 0x00A);
  ("TPM_RC_HANDLE", RC_FMT1 + 0x00B); ("TPM_RC_KDF", RC_FMT1 + 0x00C); ("TPM_RC_RANGE", RC_FMT1 + 0x00D);
  ("TPM_RC_AUTH_FAIL", RC_FMT1 + 0x00E); ("TPM_RC_NONCE", RC_FMT1 + 0x00F); ("TPM_RC_PP", RC_FMT1 + 0x010);
  ("TPM_RC_SCHEME", RC_FMT1 + 0x012); ("TPM_RC_SIZE", RC_FMT1 + 0x015);
  ("TPM_RC_SYMMETRIC", RC_FMT1 + 0x016); ("TPM_RC_TAG", RC_FMT1 + 0x017);
  ("TPM_RC_SELECTOR", RC_FMT1 + 0x018); ("TPM_RC_INSUFFICIENT", RC_FMT1 + 0x01A);
  ("TPM_RC_SIGNATURE", RC_FMT1 + 0x01B); ("TPM_RC_KEY", RC_FMT1 + 0x01C);
  ("TPM_RC_POLICY_FAIL", RC_FMT1 + 0x01D); ("TPM_RC_INTEGRITY", RC_FMT1 + 0x01F);
  ("TPM_RC_TICKET", RC_FMT1 + 0x020); ("TPM_RC_RESERVED_BITS", RC_FMT1 + 0x021);
  ("TPM_RC_BAD_AUTH", RC_FMT1 + 0x022); ("TPM_RC_EXPIRED", RC_FMT1 + 0x023);
  ("TPM_RC_POLICY_CC", RC_FMT1 + 0x024); ("TPM_RC_BINDING", RC_FMT1 + 0x025);
  ("TPM_RC_CURVE", RC_FMT1 + 0x026); ("TPM_RC_ECC_POINT", RC_FMT1 + 0x027);
  ("TPM_RC_FW_LIMITED", RC_FMT1 + 0x028); ("TPM_RC_SVN_LIMITED", RC_FMT1 + 0x029);
  ("TPM_RC_PARMS", RC_FMT1 + 0x02A); ("TPM_RC_EXT_MU", RC_FMT1 + 0x02B);
  ("TPM_RC_ONE_SHOT_SIGNATURE", RC_FMT1 + 0x02C); ("TPM_RC_SIGN_CONTEXT_KEY", RC_FMT1 + 0x02D);
  ("TPM_RC_CHANNEL", RC_FMT1 + 0x030); ("TPM_RC_CHANNEL_KEY", RC_FMT1 + 0x031);
  ("TPM_RC_CONTEXT_GAP", RC_WARN + 0x001); ("TPM_RC_OBJECT_MEMORY", RC_WARN + 0x002);
  ("TPM_RC_SESSION_MEMORY", RC_WARN + 0x003); ("TPM_RC_MEMORY", RC_WARN + 0x004);
  ("TPM_RC_SESSION_HANDLES", RC_WARN + 0x005); ("TPM_RC_OBJECT_HANDLES", RC_WARN + 0x006);
  ("TPM_RC_LOCALITY", RC_WARN + 0x007); ("TPM_RC_YIELDED", RC_WARN + 0x008);
  ("TPM_RC_CANCELED", RC_WARN + 0x009); ("TPM_RC_TESTING", RC_WARN + 0x00A);
  ("TPM_RC_REFERENCE_H0", RC_WARN + 0x010); ("TPM_RC_REFERENCE_H1", RC_WARN + 0x011);
  ("TPM_RC_REFERENCE_H2", RC_WARN + 0x012); ("TPM_RC_REFERENCE_H3", RC_WARN + 0x013);
  ("TPM_RC_REFERENCE_H4", RC_WARN + 0x014); ("TPM_RC_REFERENCE_H5", RC_WARN + 0x015);
  ("TPM_RC_REFERENCE_H6", RC_WARN + 0x016); ("TPM_RC_REFERENCE_S0", RC_WARN + 0x018);
  ("TPM_RC_REFERENCE_S1", RC_WARN + 0x019); ("TPM_RC_REFERENCE_S2", RC_WARN + 0x01A);
  ("TPM_RC_REFERENCE_S3", RC_WARN + 0x01B); ("TPM_RC_REFERENCE_S4", RC_WARN + 0x01C);
  ("TPM_RC_REFERENCE_S5", RC_WARN + 0x01D); ("TPM_RC_REFERENCE_S6", RC_WARN + 0x01E);
  ("TPM_RC_NV_RATE", RC_WARN + 0x020); ("TPM_RC_LOCKOUT", RC_WARN + 0x021);
  ("TPM_RC_RETRY", RC_WARN + 0x022); ("TPM_RC_NV_UNAVAILABLE", RC_WARN + 0x023);
  ("TPM_RC_NOT_USED", RC_WARN + 0x7F); ("TPM_RC_H", 0x000); ("TPM_RC_P", 0x040); ("TPM_RC_S", 0x800);
  ("TPM_RC_1", 0x100); ("TPM_RC_2", 0x200); ("TPM_RC_3", 0x300); ("TPM_RC_4", 0x400); ("TPM_RC_5", 0x500);
  ("TPM_RC_6", 0x600); ("TPM_RC_7", 0x700); ("TPM_RC_8", 0x800); ("TPM_RC_9", 0x900); ("TPM_RC_A", 0xA00);
  ("TPM_RC_B", 0xB00); ("TPM_RC_C", 0xC00); ("TPM_RC_D", 0xD00); ("TPM_RC_E", 0xE00); ("TPM_RC_F", 0xF00);
  ("TPM_RC_N_MASK", 0xF00)].

(** Table 20 *)
Definition TPM_EO : list (string * Z) := [
  ("TPM_EO_EQ", 0x0000); ("TPM_EO_NEQ", 0x0001); ("TPM_EO_SIGNED_GT", 0x0002);
  ("TPM_EO_UNSIGNED_GT", 0x0003); ("TPM_EO_SIGNED_LT", 0x0004); ("TPM_EO_UNSIGNED_LT", 0x0005);
  ("TPM_EO_SIGNED_GE", 0x0006); ("TPM_EO_UNSIGNED_GE", 0x0007); ("TPM_EO_SIGNED_LE", 0x0008);
  ("TPM_EO_UNSIGNED_LE", 0x0009); ("TPM_EO_BITSET", 0x000A); ("TPM_EO_BITCLEAR", 0x000B)].

(** Table 21 *)
Definition TPM_ST : list (string * Z) := [
  ("TPM_ST_RSP_COMMAND", 0x00C4); ("TPM_ST_NULL", 0x8000); ("TPM_ST_NO_SESSIONS", 0x8001);
  ("TPM_ST_SESSIONS", 0x8002); ("TPM_ST_ATTEST_NV", 0x8014); ("TPM_ST_ATTEST_COMMAND_AUDIT", 0x8015);
  ("TPM_ST_ATTEST_SESSION_AUDIT", 0x8016); ("TPM_ST_ATTEST_CERTIFY", 0x8017);
  ("TPM_ST_ATTEST_QUOTE", 0x8018); ("TPM_ST_ATTEST_TIME", 0x8019); ("TPM_ST_ATTEST_CREATION", 0x801A);
  ("TPM_ST_ATTEST_NV_DIGEST", 0x801C); ("TPM_ST_CREATION", 0x8021); ("TPM_ST_VERIFIED", 0x8022);
  ("TPM_ST_AUTH_SECRET", 0x8023); ("TPM_ST_HASHCHECK", 0x8024); ("TPM_ST_AUTH_SIGNED", 0x8025);
  ("TPM_ST_MESSAGE_VERIFIED", 0x8026); ("TPM_ST_DIGEST_VERIFIED", 0x8027); ("TPM_ST_FU_MANIFEST", 0x8029)].

(** Table 22 *)
Definition TPM_SU : list (string * Z) := [
  ("TPM_SU_CLEAR", 0x0000); ("TPM_SU_STATE", 0x0001)].

(** Table 23 *)
Definition TPM_SE : list (string * Z) := [
  ("TPM_SE_HMAC", 0x00); ("TPM_SE_POLICY", 0x01); ("TPM_SE_TRIAL", 0x03)].

(** Table 24 *)
Definition TPM_CAP : list (string * Z) := [
  ("TPM_CAP_FIRST", 0x00000000); ("TPM_CAP_ALGS", 0x00000000); ("TPM_CAP_HANDLES", 0x00000001);
  ("TPM_CAP_COMMANDS", 0x00000002); ("TPM_CAP_PP_COMMANDS", 0x00000003);
  ("TPM_CAP_AUDIT_COMMANDS", 0x00000004); ("TPM_CAP_PCRS", 0x00000005);
  ("TPM_CAP_TPM_PROPERTIES", 0x00000006); ("TPM_CAP_PCR_PROPERTIES", 0x00000007);
  ("TPM_CAP_ECC_CURVES", 0x00000008); ("TPM_CAP_AUTH_POLICIES", 0x00000009); ("TPM_CAP_ACT", 0x0000000A);
  ("TPM_CAP_PUB_KEYS", 0x0000000B); ("TPM_CAP_SPDM_SESSION_INFO", 0x0000000C);
  ("TPM_CAP_LAST", 0x0000000C); ("TPM_CAP_VENDOR_PROPERTY", 0x00000100)].

Local Definition PT_FIXED := 0x100 * 1.
Local Definition PT_VAR := 0x100 * 2.
(** Table 28 *)
Definition TPM_PT : list (string * Z) := [
  ("TPM_PT_NONE", 0x00000000); ("TPM_PT_FAMILY_INDICATOR", PT_FIXED + 0); ("TPM_PT_LEVEL", PT_FIXED + 1);
  ("TPM_PT_REVISION", PT_FIXED + 2); ("TPM_PT_ERRATA", PT_FIXED + 3); ("TPM_PT_YEAR", PT_FIXED + 4);
  ("TPM_PT_MANUFACTURER", PT_FIXED + 5); ("TPM_PT_VENDOR_STRING_1", PT_FIXED + 6);
  ("TPM_PT_VENDOR_STRING_2", PT_FIXED + 7); ("TPM_PT_VENDOR_STRING_3", PT_FIXED + 8);
  ("TPM_PT_VENDOR_STRING_4", PT_FIXED + 9); ("TPM_PT_VENDOR_TPM_TYPE", PT_FIXED + 10);
  ("TPM_PT_FIRMWARE_VERSION_1", PT_FIXED + 11); ("TPM_PT_FIRMWARE_VERSION_2", PT_FIXED + 12);
  ("TPM_PT_INPUT_BUFFER", PT_FIXED + 13); ("TPM_PT_HR_TRANSIENT_MIN", PT_FIXED + 14);
  ("TPM_PT_HR_PERSISTENT_MIN", PT_FIXED + 15); ("TPM_PT_HR_LOADED_MIN", PT_FIXED + 16);
  ("TPM_PT_ACTIVE_SESSIONS_MAX", PT_FIXED + 17); ("TPM_PT_PCR_COUNT", PT_FIXED + 18);
  ("TPM_PT_PCR_SELECT_MIN", PT_FIXED + 19); ("TPM_PT_CONTEXT_GAP_MAX", PT_FIXED + 20);
  ("TPM_PT_NV_COUNTERS_MAX", PT_FIXED + 22); ("TPM_PT_NV_INDEX_MAX", PT_FIXED + 23);
  ("TPM_PT_MEMORY", PT_FIXED + 24); ("TPM_PT_CLOCK_UPDATE", PT_FIXED + 25);
  ("TPM_PT_CONTEXT_HASH", PT_FIXED + 26); ("TPM_PT_CONTEXT_SYM", PT_FIXED + 27);
  ("TPM_PT_CONTEXT_SYM_SIZE", PT_FIXED + 28); ("TPM_PT_ORDERLY_COUNT", PT_FIXED + 29);
  ("TPM_PT_MAX_COMMAND_SIZE", PT_FIXED + 30); ("TPM_PT_MAX_RESPONSE_SIZE", PT_FIXED + 31);
  ("TPM_PT_MAX_DIGEST", PT_FIXED + 32); ("TPM_PT_MAX_OBJECT_CONTEXT", PT_FIXED + 33);
  ("TPM_PT_MAX_SESSION_CONTEXT", PT_FIXED + 34); ("TPM_PT_PS_FAMILY_INDICATOR", PT_FIXED + 35);
  ("TPM_PT_PS_LEVEL", PT_FIXED + 36); ("TPM_PT_PS_REVISION", PT_FIXED + 37);
  ("TPM_PT_PS_DAY_OF_YEAR", PT_FIXED + 38); ("TPM_PT_PS_YEAR", PT_FIXED + 39);
  ("TPM_PT_SPLIT_MAX", PT_FIXED + 40); ("TPM_PT_TOTAL_COMMANDS", PT_FIXED + 41);
  ("TPM_PT_LIBRARY_COMMANDS", PT_FIXED + 42); ("TPM_PT_VENDOR_COMMANDS", PT_FIXED + 43);
  ("TPM_PT_NV_BUFFER_MAX", PT_FIXED + 44); ("TPM_PT_MODES", PT_FIXED + 45);
  ("TPM_PT_MAX_CAP_BUFFER", PT_FIXED + 46); ("TPM_PT_FIRMWARE_SVN", PT_FIXED + 47);
  ("TPM_PT_FIRMWARE_MAX_SVN", PT_FIXED + 48); ("TPM_PT_ML_PARAMETER_SETS", PT_FIXED + 49);
  ("TPM_PT_PERMANENT", PT_VAR + 0); ("TPM_PT_STARTUP_CLEAR", PT_VAR + 1);
  ("TPM_PT_HR_NV_INDEX", PT_VAR + 2); ("TPM_PT_HR_LOADED", PT_VAR + 3);
  ("TPM_PT_HR_LOADED_AVAIL", PT_VAR + 4); ("TPM_PT_HR_ACTIVE", PT_VAR + 5);
  ("TPM_PT_HR_ACTIVE_AVAIL", PT_VAR + 6); ("TPM_PT_HR_TRANSIENT_AVAIL", PT_VAR + 7);
  ("TPM_PT_HR_PERSISTENT", PT_VAR + 8); ("TPM_PT_HR_PERSISTENT_AVAIL", PT_VAR + 9);
  ("TPM_PT_NV_COUNTERS", PT_VAR + 10); ("TPM_PT_NV_COUNTERS_AVAIL", PT_VAR + 11);
  ("TPM_PT_ALGORITHM_SET", PT_VAR + 12); ("TPM_PT_LOADED_CURVES", PT_VAR + 13);
  ("TPM_PT_LOCKOUT_COUNTER", PT_VAR + 14); ("TPM_PT_MAX_AUTH_FAIL", PT_VAR + 15);
  ("TPM_PT_LOCKOUT_INTERVAL", PT_VAR + 16); ("TPM_PT_LOCKOUT_RECOVERY", PT_VAR + 17);
  ("TPM_PT_NV_WRITE_RECOVERY", PT_VAR + 18); ("TPM_PT_AUDIT_COUNTER_0", PT_VAR + 19);
  ("TPM_PT_AUDIT_COUNTER_1", PT_VAR + 20); ("TPM_PT_DAY_OF_YEAR", PT_FIXED + 3)].

(** Table 29 *)
Definition TPM_PT_PCR : list (string * Z) := [
  ("TPM_PT_PCR_FIRST", 0x00000000); ("TPM_PT_PCR_SAVE", 0x00000000); ("TPM_PT_PCR_EXTEND_L0", 0x00000001);
  ("TPM_PT_PCR_RESET_L0", 0x00000002); ("TPM_PT_PCR_EXTEND_L1", 0x00000003);
  ("TPM_PT_PCR_RESET_L1", 0x00000004); ("TPM_PT_PCR_EXTEND_L2", 0x00000005);
  ("TPM_PT_PCR_RESET_L2", 0x00000006); ("TPM_PT_PCR_EXTEND_L3", 0x00000007);
  ("TPM_PT_PCR_RESET_L3", 0x00000008); ("TPM_PT_PCR_EXTEND_L4", 0x00000009);
  ("TPM_PT_PCR_RESET_L4", 0x0000000A); ("TPM_PT_PCR_NO_INCREMENT", 0x00000011);
  ("TPM_PT_PCR_DRTM_RESET", 0x00000012); ("TPM_PT_PCR_POLICY", 0x00000013);
  ("TPM_PT_PCR_AUTH", 0x00000014); ("TPM_PT_PCR_LAST", 0x00000014)].

(** Table 33 *)
Definition TPM_HT : list (string * Z) := [
  ("TPM_HT_PCR", 0x00); ("TPM_HT_NV_INDEX", 0x01); ("TPM_HT_HMAC_SESSION", 0x02);
  ("TPM_HT_LOADED_SESSION", 0x02); ("TPM_HT_POLICY_SESSION", 0x03); ("TPM_HT_SAVED_SESSION", 0x03);
  ("TPM_HT_EXTERNAL_NV", 0x11); ("TPM_HT_PERMANENT_NV", 0x12); ("TPM_HT_PERMANENT", 0x40);
  ("TPM_HT_TRANSIENT", 0x80); ("TPM_HT_PERSISTENT", 0x81); ("TPM_HT_AC", 0x90)].

(** Table 34 *)
Definition TPM_RH : list (string * Z) := [
  ("TPM_RH_FIRST", 0x40000000); ("TPM_RH_SRK", 0x40000000); ("TPM_RH_OWNER", 0x40000001);
  ("TPM_RH_REVOKE", 0x40000002); ("TPM_RH_TRANSPORT", 0x40000003); ("TPM_RH_OPERATOR", 0x40000004);
  ("TPM_RH_ADMIN", 0x40000005); ("TPM_RH_EK", 0x40000006); ("TPM_RH_NULL", 0x40000007);
  ("TPM_RH_UNASSIGNED", 0x40000008); ("TPM_RS_PW", 0x40000009); ("TPM_RH_LOCKOUT", 0x4000000A);
  ("TPM_RH_ENDORSEMENT", 0x4000000B); ("TPM_RH_PLATFORM", 0x4000000C); ("TPM_RH_PLATFORM_NV", 0x4000000D);
  ("TPM_RH_AUTH_00", 0x40000010); ("TPM_RH_AUTH_FF", 0x4000010F); ("TPM_RH_ACT_0", 0x40000110);
  ("TPM_RH_ACT_F", 0x4000011F); ("TPM_RH_FW_OWNER", 0x40000140); ("TPM_RH_FW_ENDORSEMENT", 0x40000141);
  ("TPM_RH_FW_PLATFORM", 0x40000142); ("TPM_RH_FW_NULL", 0x40000143);
  ("TPM_RH_SVN_OWNER_BASE", 0x40010000); ("TPM_RH_SVN_ENDORSEMENT_BASE", 0x40020000);
  ("TPM_RH_SVN_PLATFORM_BASE", 0x40030000); ("TPM_RH_SVN_NULL_BASE", 0x40040000);
  ("TPM_RH_LAST", 0x4004FFFF)].

(** Table 247 *)
Definition TPM_NT : list (string * Z) := [
  ("TPM_NT_ORDINARY", 0x0); ("TPM_NT_COUNTER", 0x1); ("TPM_NT_BITS", 0x2); ("TPM_NT_EXTEND", 0x4);
  ("TPM_NT_PIN_FAIL", 0x8); ("TPM_NT_PIN_PASS", 0x9)].

(** Table 7, the value that begins TPM-generated structures *)
Definition TPM_GENERATED : list (string * Z) := [("TPM_GENERATED_VALUE", 0xff544347)].

(** ** Attribute words: names and bit numbers *)
(** Table 36 *)
Definition TPMA_ALGORITHM : list (string * Z) := [
  ("asymmetric", 0); ("symmetric", 1); ("hash", 2); ("object", 3); ("signing", 8); ("encrypting", 9);
  ("method", 10)].

(** Table 37 *)
Definition TPMA_OBJECT : list (string * Z) := [
  ("fixedTPM", 1); ("stClear", 2); ("fixedParent", 4); ("sensitiveDataOrigin", 5); ("userWithAuth", 6);
  ("adminWithPolicy", 7); ("firmwareLimited", 8); ("svnLimited", 9); ("noDA", 10);
  ("encryptedDuplication", 11); ("restricted", 16); ("decrypt", 17); ("sign / encrypt", 18);
  ("x509sign", 19)].

(** Table 38 *)
Definition TPMA_SESSION : list (string * Z) := [
  ("continueSession", 0); ("auditExclusive", 1); ("auditReset", 2); ("decrypt", 5); ("encrypt", 6);
  ("audit", 7)].

(** Table 39 *)
Definition TPMA_LOCALITY : list (string * Z) := [
  ("TPM_LOC_ZERO", 0); ("TPM_LOC_ONE", 1); ("TPM_LOC_TWO", 2); ("TPM_LOC_THREE", 3); ("TPM_LOC_FOUR", 4)].

(** Table 43 *)
Definition TPMA_CC : list (string * Z) := [
  ("nv", 22); ("extensive", 23); ("flushed", 24); ("rHandle", 28); ("V", 29)].

(** Table 249 *)
Definition TPMA_NV : list (string * Z) := [
  ("TPMA_NV_PPWRITE", 0); ("TPMA_NV_OWNERWRITE", 1); ("TPMA_NV_AUTHWRITE", 2); ("TPMA_NV_POLICYWRITE", 3);
  ("TPMA_NV_POLICY_DELETE", 10); ("TPMA_NV_WRITELOCKED", 11); ("TPMA_NV_WRITEALL", 12);
  ("TPMA_NV_WRITEDEFINE", 13); ("TPMA_NV_WRITE_STCLEAR", 14); ("TPMA_NV_GLOBALLOCK", 15);
  ("TPMA_NV_PPREAD", 16); ("TPMA_NV_OWNERREAD", 17); ("TPMA_NV_AUTHREAD", 18); ("TPMA_NV_POLICYREAD", 19);
  ("TPMA_NV_NO_DA", 25); ("TPMA_NV_ORDERLY", 26); ("TPMA_NV_CLEAR_STCLEAR", 27);
  ("TPMA_NV_READLOCKED", 28); ("TPMA_NV_WRITTEN", 29); ("TPMA_NV_PLATFORMCREATE", 30);
  ("TPMA_NV_READ_STCLEAR", 31)].
