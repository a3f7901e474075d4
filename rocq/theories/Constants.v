(** The named constants of the library, transcribed: base/src/constants.rs,
    base/src/lib.rs (attribute words) and crates/tpm2/src/constants.rs.  The
    response codes of crates/tpm2 are those of Errors.v.  An [open_enum] value is
    its integer; a flag of a [bitflags!] word is its bit number. *)
From Coq Require Import String ZArith List.
From Verif Require Import Prelude Errors.
Import ListNotations.
Local Open Scope string_scope.
Local Open Scope list_scope.
Open Scope Z_scope.

Definition constants : Type := list (string * Z).

(** constants.rs:39-79 *)
Definition TpmAlgId : constants := [
  ("RSA", 0x0001); ("TDES", 0x0003); ("SHA1", 0x0004); ("HMAC", 0x0005); ("AES", 0x0006); ("MGF1", 0x0007);
  ("KeyedHash", 0x0008); ("XOR", 0x000A); ("SHA256", 0x000B); ("SHA384", 0x000C); ("SHA512", 0x000D);
  ("Null", 0x0010); ("SM3256", 0x0012); ("SM4", 0x0013); ("RSASSA", 0x0014); ("RSAES", 0x0015);
  ("RSAPSS", 0x0016); ("OAEP", 0x0017); ("ECDSA", 0x0018); ("ECDH", 0x0019); ("ECDAA", 0x001A);
  ("SM2", 0x001B); ("ECSchnorr", 0x001C); ("ECMQV", 0x001D); ("KDF1SP80056A", 0x0020); ("KDF2", 0x0021);
  ("KDF1SP800108", 0x0022); ("ECC", 0x0023); ("SymCipher", 0x0025); ("Camellia", 0x0026);
  ("SHA3256", 0x0027); ("SHA3384", 0x0028); ("SHA3512", 0x0029); ("CMAC", 0x003F); ("CTR", 0x0040);
  ("OFB", 0x0041); ("CBC", 0x0042); ("CFB", 0x0043); ("ECB", 0x0044)].

(** constants.rs:87-97 *)
Definition TpmEccCurve : constants := [
  ("None", 0x0000); ("NistP192", 0x0001); ("NistP224", 0x0002); ("NistP256", 0x0003); ("NistP384", 0x0004);
  ("NistP521", 0x0005); ("BNP256", 0x0010); ("BNP638", 0x0011); ("SM2P256", 0x0020)].

(** constants.rs:105-224 *)
Definition TpmCc : constants := [
  ("NVUndefineSpaceSpecial", 0x0000011F); ("EvictControl", 0x00000120); ("HierarchyControl", 0x00000121);
  ("NVUndefineSpace", 0x00000122); ("ChangeEPS", 0x00000124); ("ChangePPS", 0x00000125);
  ("Clear", 0x00000126); ("ClearControl", 0x00000127); ("ClockSet", 0x00000128);
  ("HierarchyChanegAuth", 0x00000129); ("NVDefineSpace", 0x0000012A); ("PCRAllocate", 0x0000012B);
  ("PCRSetAuthPolicy", 0x0000012C); ("PPCommands", 0x0000012D); ("SetPrimaryPolicy", 0x0000012E);
  ("FieldUpgradeStart", 0x0000012F); ("ClockRateAdjust", 0x00000130); ("CreatePrimary", 0x00000131);
  ("NVGlobalWriteLock", 0x00000132); ("GetCommandAuditDigest", 0x00000133); ("NVIncrement", 0x00000134);
  ("NVSetBits", 0x00000135); ("NVExtend", 0x00000136); ("NVWrite", 0x00000137);
  ("NVWriteLock", 0x00000138); ("DictionaryAttackLockReset", 0x00000139);
  ("DictionaryAttackParameters", 0x0000013A); ("NVChangeAuth", 0x0000013B); ("PCREvent", 0x0000013C);
  ("PCRReset", 0x0000013D); ("SequenceComplete", 0x0000013E); ("SetAlgorithmSet", 0x0000013F);
  ("SetCommandCodeAuditStatus", 0x00000140); ("FieldUpgradeData", 0x00000141);
  ("IncrementalSelfTest", 0x00000142); ("SelfTest", 0x00000143); ("Startup", 0x00000144);
  ("Shutdown", 0x00000145); ("StirRandom", 0x00000146); ("ActivateCredential", 0x00000147);
  ("Certify", 0x00000148); ("PolicyNV", 0x00000149); ("CertifyCreation", 0x0000014A);
  ("Duplicate", 0x0000014B); ("GetTime", 0x0000014C); ("GetSessionAuditDigest", 0x0000014D);
  ("NVRead", 0x0000014E); ("NVReadLock", 0x0000014F); ("ObjectChangeAuth", 0x00000150);
  ("PolicySecret", 0x00000151); ("Rewrap", 0x00000152); ("Create", 0x00000153); ("ECDHZGen", 0x00000154);
  ("MAC", 0x00000155); ("Import", 0x00000156); ("Load", 0x00000157); ("Quote", 0x00000158);
  ("RSADecrypt", 0x00000159); ("MACStart", 0x0000015B); ("SequenceUpdate", 0x0000015C);
  ("Sign", 0x0000015D); ("Unseal", 0x0000015E); ("PolicySigned", 0x00000160); ("ContextLoad", 0x00000161);
  ("ContextSave", 0x00000162); ("ECDHKeyGen", 0x00000163); ("EncryptDecrypt", 0x00000164);
  ("FlushContext", 0x00000165); ("LoadExternal", 0x00000167); ("MakeCredential", 0x00000168);
  ("NVReadPublic", 0x00000169); ("PolicyAuthorize", 0x0000016A); ("PolicyAuthValue", 0x0000016B);
  ("PolicyCommandCode", 0x0000016C); ("PolicyCounterTimer", 0x0000016D); ("PolicyCpHash", 0x0000016E);
  ("PolicyLocality", 0x0000016F); ("PolicyNameHash", 0x00000170); ("PolicyOR", 0x00000171);
  ("PolicyTicket", 0x00000172); ("ReadPublic", 0x00000173); ("RSAEncrypt", 0x00000174);
  ("StartAuthSession", 0x00000176); ("VerifySignature", 0x00000177); ("ECCParameters", 0x00000178);
  ("FirmwareRead", 0x00000179); ("GetCapability", 0x0000017A); ("GetRandom", 0x0000017B);
  ("GetTestResult", 0x0000017C); ("Hash", 0x0000017D); ("PCRRead", 0x0000017E); ("PolicyPCR", 0x0000017F);
  ("PolicyRestart", 0x00000180); ("ReadClock", 0x00000181); ("PCRExtend", 0x00000182);
  ("PCRSetAuthValue", 0x00000183); ("NVCertify", 0x00000184); ("EventSequenceComplete", 0x00000185);
  ("HashSequenceStart", 0x00000186); ("PolicyPhysicalPresence", 0x00000187);
  ("PolicyDuplicationSelect", 0x00000188); ("PolicyGetDigest", 0x00000189); ("TestParams", 0x0000018A);
  ("Commit", 0x0000018B); ("PolicyPassword", 0x0000018C); ("ZGen2Phase", 0x0000018D);
  ("ECEphemeral", 0x0000018E); ("PolicyNvWritten", 0x0000018F); ("PolicyTemplate", 0x00000190);
  ("CreateLoaded", 0x00000191); ("PolicyAuthorizeNV", 0x00000192); ("EncryptDecrypt2", 0x00000193);
  ("ACGetCapability", 0x00000194); ("ACSend", 0x00000195); ("PolicyACSendSelect", 0x00000196);
  ("CertifyX509", 0x00000197); ("ACTSetTimeout", 0x00000198)].

(** constants.rs:332-338 *)
Definition RC_VER_1 := 0x00000100.
Definition RC_FMT_1 := 0x00000080.
Definition RC_WARN := 0x00000900.
(** constants.rs:230-330 *)
Definition TpmRc : constants := [
  ("Success", 0x00000000); ("Initialize", RC_VER_1); ("Failure", RC_VER_1 + 0x001);
  ("Sequence", RC_VER_1 + 0x003); ("Private", RC_VER_1 + 0x00B); ("Hmac", RC_VER_1 + 0x019);
  ("Disabled", RC_VER_1 + 0x020); ("Exclusive", RC_VER_1 + 0x021); ("AuthType", RC_VER_1 + 0x024);
  ("AuthMissing", RC_VER_1 + 0x025); ("Policy", RC_VER_1 + 0x026); ("Pcr", RC_VER_1 + 0x027);
  ("PCRChanged", RC_VER_1 + 0x028); ("Upgrade", RC_VER_1 + 0x02D); ("TooManyContexts", RC_VER_1 + 0x02E);
  ("AuthUnavailable", RC_VER_1 + 0x02F); ("Reboot", RC_VER_1 + 0x030); ("Unbalanced", RC_VER_1 + 0x031);
  ("CommandSize", RC_VER_1 + 0x042); ("CommandCode", RC_VER_1 + 0x043); ("AuthSize", RC_VER_1 + 0x044);
  ("AuthContext", RC_VER_1 + 0x045); ("NVRange", RC_VER_1 + 0x046); ("NVSize", RC_VER_1 + 0x047);
  ("NVLocked", RC_VER_1 + 0x048); ("NVAuthorization", RC_VER_1 + 0x049);
  ("NVUninitialized", RC_VER_1 + 0x04A); ("NVSpace", RC_VER_1 + 0x04B); ("NVDefined", RC_VER_1 + 0x04C);
  ("BadContext", RC_VER_1 + 0x050); ("CPHash", RC_VER_1 + 0x051); ("Parent", RC_VER_1 + 0x052);
  ("NeedsTest", RC_VER_1 + 0x053); ("NoResult", RC_VER_1 + 0x054); ("Sensitive", RC_VER_1 + 0x055);
  ("CAsymmetric", RC_FMT_1 + 0x001); ("Attributes", RC_FMT_1 + 0x002); ("Hash", RC_FMT_1 + 0x003);
  ("Value", RC_FMT_1 + 0x004); ("Hierarchy", RC_FMT_1 + 0x005); ("KeySize", RC_FMT_1 + 0x007);
  ("Mgf", RC_FMT_1 + 0x008); ("Mode", RC_FMT_1 + 0x009); ("Type", RC_FMT_1 + 0x00A);
  ("Handle", RC_FMT_1 + 0x00B); ("Kdf", RC_FMT_1 + 0x00C); ("Range", RC_FMT_1 + 0x00D);
  ("AuthFail", RC_FMT_1 + 0x00E); ("Nonce", RC_FMT_1 + 0x00F); ("PP", RC_FMT_1 + 0x010);
  ("Scheme", RC_FMT_1 + 0x012); ("Size", RC_FMT_1 + 0x015); ("Symmetric", RC_FMT_1 + 0x016);
  ("Tag", RC_FMT_1 + 0x017); ("Selector", RC_FMT_1 + 0x018); ("Insufficient", RC_FMT_1 + 0x01A);
  ("Signature", RC_FMT_1 + 0x01B); ("Key", RC_FMT_1 + 0x01C); ("PolicyFail", RC_FMT_1 + 0x01D);
  ("Integrity", RC_FMT_1 + 0x01F); ("Ticket", RC_FMT_1 + 0x020); ("ReservedBits", RC_FMT_1 + 0x021);
  ("BadAuth", RC_FMT_1 + 0x022); ("Expired", RC_FMT_1 + 0x023); ("PolicyCC", RC_FMT_1 + 0x024);
  ("Binding", RC_FMT_1 + 0x025); ("Curve", RC_FMT_1 + 0x026); ("ECCPoint", RC_FMT_1 + 0x027);
  ("ContextGap", RC_WARN + 0x001); ("ObjectMemory", RC_WARN + 0x002); ("SessionMemory", RC_WARN + 0x003);
  ("Memory", RC_WARN + 0x004); ("SessionHandles", RC_WARN + 0x005); ("ObjectHandles", RC_WARN + 0x006);
  ("Locality", RC_WARN + 0x007); ("Yielded", RC_WARN + 0x008); ("Canceled", RC_WARN + 0x009);
  ("Testing", RC_WARN + 0x00A); ("ReferenceH0", RC_WARN + 0x010); ("ReferenceH1", RC_WARN + 0x011);
  ("ReferenceH2", RC_WARN + 0x012); ("ReferenceH3", RC_WARN + 0x013); ("ReferenceH4", RC_WARN + 0x014);
  ("ReferenceH5", RC_WARN + 0x015); ("ReferenceH6", RC_WARN + 0x016); ("ReferenceS0", RC_WARN + 0x018);
  ("ReferenceS1", RC_WARN + 0x019); ("ReferenceS2", RC_WARN + 0x01A); ("ReferenceS3", RC_WARN + 0x01B);
  ("ReferenceS4", RC_WARN + 0x01C); ("ReferenceS5", RC_WARN + 0x01D); ("ReferenceS6", RC_WARN + 0x01E);
  ("NVRate", RC_WARN + 0x020); ("Lockout", RC_WARN + 0x021); ("Retry", RC_WARN + 0x022);
  ("NVUnavailable", RC_WARN + 0x023)].

(** constants.rs:344-357 *)
Definition TpmEo : constants := [
  ("Eq", 0x0000); ("Neq", 0x0001); ("SignedGT", 0x0002); ("UnsignedGT", 0x0003); ("SignedLT", 0x0004);
  ("UnsignedLT", 0x0005); ("SignedGE", 0x0006); ("UnsignedGE", 0x0007); ("SignedLE", 0x0008);
  ("UnsignedLE", 0x0009); ("BitSet", 0x000A); ("BitClear", 0x000B)].

(** constants.rs:365-384 *)
Definition TpmSt : constants := [
  ("RspCommand", 0x00C4); ("Null", 0x8000); ("NoSessions", 0x8001); ("Sessions", 0x8002);
  ("AttestNV", 0x8014); ("AttestCommandAudit", 0x8015); ("AttestSessionAudit", 0x8016);
  ("AttestCertify", 0x8017); ("AttestQuote", 0x8018); ("AttestTime", 0x8019); ("AttestCreation", 0x801A);
  ("AttestNVDigest", 0x801C); ("Creation", 0x8021); ("Verified", 0x8022); ("AuthSecret", 0x8023);
  ("HashCheck", 0x8024); ("AuthSigned", 0x8025); ("FuManifest", 0x8029)].

(** constants.rs:392-395 *)
Definition TpmSu : constants := [
  ("Clear", 0x0000); ("State", 0x0001)].

(** constants.rs:401-405 *)
Definition TpmSe : constants := [
  ("HMAC", 0x00); ("Policy", 0x01); ("Trial", 0x03)].

(** constants.rs:413-425 *)
Definition TpmCap : constants := [
  ("Algs", 0x00000000); ("Handles", 0x00000001); ("Commands", 0x00000002); ("PPCommands", 0x00000003);
  ("AuditCommands", 0x00000004); ("PCRs", 0x00000005); ("TPMProperties", 0x00000006);
  ("PCRProperties", 0x00000007); ("ECCCurves", 0x00000008); ("AuthPolicies", 0x00000009);
  ("ACT", 0x0000000A)].

(** constants.rs:433-594 *)
Definition TpmPt : constants := [
  ("FamilyIndicator", 0x00000100); ("Level", 0x00000101); ("Revision", 0x00000102);
  ("DayofYear", 0x00000103); ("Year", 0x00000104); ("Manufacturer", 0x00000105);
  ("VendorString1", 0x00000106); ("VendorString2", 0x00000107); ("VendorString3", 0x00000108);
  ("VendorString4", 0x00000109); ("VendorTPMType", 0x0000010A); ("FirmwareVersion1", 0x0000010B);
  ("FirmwareVersion2", 0x0000010C); ("InputBuffer", 0x0000010D); ("HRTransientMin", 0x0000010E);
  ("HRPersistentMin", 0x0000010F); ("HRLoadedMin", 0x00000110); ("ActiveSessionsMax", 0x00000111);
  ("PCRCount", 0x00000112); ("PCRSelectMin", 0x00000113); ("ContextGapMax", 0x00000114);
  ("NVCountersMax", 0x00000116); ("NVIndexMax", 0x00000117); ("Memory", 0x00000118);
  ("ClockUpdate", 0x00000119); ("ContextHash", 0x0000011A); ("ContextSym", 0x0000011B);
  ("ContextSymSize", 0x0000011C); ("OrderlyCount", 0x0000011D); ("MaxCommandSize", 0x0000011E);
  ("MaxResponseSize", 0x0000011F); ("MaxDigest", 0x00000120); ("MaxObjectContext", 0x00000121);
  ("MaxSessionContext", 0x00000122); ("PSFamilyIndicator", 0x00000123); ("PSLevel", 0x00000124);
  ("PSRevision", 0x00000125); ("PSDayOfYear", 0x00000126); ("PSYear", 0x00000127);
  ("SplitMax", 0x00000128); ("TotalCommands", 0x00000129); ("LibraryCommands", 0x0000012A);
  ("VendorCommands", 0x0000012B); ("NVBufferMax", 0x0000012C); ("Modes", 0x0000012D);
  ("MaxCapBuffer", 0x0000012E); ("Permanent", 0x00000200); ("StartupClear", 0x00000201);
  ("HRNVIndex", 0x00000202); ("HRLoaded", 0x00000203); ("HRLoadedAvail", 0x00000204);
  ("HRActive", 0x00000205); ("HRActiveAvail", 0x00000206); ("HRTransientAvail", 0x00000207);
  ("HRPersistent", 0x00000208); ("HRPersistentAvail", 0x00000209); ("NVCounters", 0x0000020A);
  ("NVCountersAvail", 0x0000020B); ("AlgorithmSet", 0x0000020C); ("LoadedCurves", 0x0000020D);
  ("LockoutCounter", 0x0000020E); ("MaxAuthFail", 0x0000020F); ("LockoutInterval", 0x00000210);
  ("LockoutRecovery", 0x00000211); ("NVWriteRecovery", 0x00000212); ("AuditCounter0", 0x00000213);
  ("AuditCounter1", 0x00000214)].

(** constants.rs:602-648 *)
Definition TpmPtPcr : constants := [
  ("Save", 0x00000000); ("ExtendL0", 0x00000001); ("ResetL0", 0x00000002); ("ExtendL1", 0x00000003);
  ("ResetL1", 0x00000004); ("ExtendL2", 0x00000005); ("ResetL2", 0x00000006); ("ExtendL3", 0x00000007);
  ("ResetL3", 0x00000008); ("ExtendL4", 0x00000009); ("ResetL4", 0x0000000A); ("NoIncrement", 0x00000011);
  ("DRTMRest", 0x00000012); ("Policy", 0x00000013); ("Auth", 0x00000014)].

(** constants.rs:654-663 *)
Definition TpmHt : constants := [
  ("PCR", 0x00); ("NVIndex", 0x01); ("HMACSession", 0x02); ("PolicySession", 0x03); ("Permanent", 0x40);
  ("Transient", 0x80); ("Persistent", 0x81); ("AC", 0x90)].

(** constants.rs:671-679 *)
Definition TpmHandle : constants := [
  ("RHOwner", 0x40000001); ("RHNull", 0x40000007); ("RSPW", 0x40000009); ("RHLockout", 0x4000000A);
  ("RHEndorsement", 0x4000000B); ("RHPlatform", 0x4000000C); ("RHPlatformNV", 0x4000000D)].

(** constants.rs:750-770 *)
Definition TpmNt : constants := [
  ("Ordinary", 0x0); ("Counter", 0x1); ("Bits", 0x2); ("Extend", 0x4); ("PinFail", 0x8); ("PinPass", 0x9)].

(** constants.rs:778-780 *)
Definition TpmGenerated : constants := [
  ("VALUE", 0xFF544347)].

(** crates/tpm2/src/constants.rs:20-57 *)
Definition Alg : constants := [
  ("Rsa", 0x0001); ("Tdes", 0x0003); ("Sha1", 0x0004); ("Hmac", 0x0005); ("Aes", 0x0006); ("Mgf1", 0x0007);
  ("KeyedHash", 0x0008); ("Null", 0x0010); ("Xor", 0x000A); ("Sha256", 0x000B); ("Sha384", 0x000C);
  ("Sha512", 0x000D); ("Sm3_256", 0x0012); ("Sm4", 0x0013); ("RsaSsa", 0x0014); ("RsaEs", 0x0015);
  ("RsaPss", 0x0016); ("Oaep", 0x0017); ("Ecdsa", 0x0018); ("Ecdh", 0x0019); ("Ecdaa", 0x001A);
  ("Sm2", 0x001B); ("EcSchnorr", 0x001C); ("Ecmqv", 0x001D); ("Kdf1Sp800_56A", 0x0020); ("Kdf2", 0x0021);
  ("Kdf1Sp800_108", 0x0022); ("Ecc", 0x0023); ("SymCipher", 0x0025); ("Camellia", 0x0026);
  ("Sha3_256", 0x0027); ("Sha3_384", 0x0028); ("Sha3_512", 0x0029); ("Ctr", 0x0040); ("Ofb", 0x0041);
  ("Cbc", 0x0042); ("Cfb", 0x0043); ("Ecb", 0x0044)].

(** crates/tpm2/src/errors/tpm_rc/mod.rs:19-85 *)
Definition TpmRcError : constants := [
  ("Asymmetric", rc_Asymmetric); ("Value", rc_Value); ("Size", rc_Size); ("Selector", rc_Selector);
  ("BadTag", rc_BadTag); ("Initialize", rc_Initialize); ("Failure", rc_Failure); ("Sequence", rc_Sequence);
  ("CommandSize", rc_CommandSize); ("CommandCode", rc_CommandCode); ("ContextGap", rc_ContextGap);
  ("ObjectMemory", rc_ObjectMemory); ("SessionMemory", rc_SessionMemory); ("Memory", rc_Memory)].

(** ** Flags *)
(** base/src/lib.rs:39-43 *)
Definition TpmaLocality_flags : constants := [
  ("LOC_ZERO", 0); ("LOC_ONE", 1); ("LOC_TWO", 2); ("LOC_THREE", 3); ("LOC_FOUR", 4)].

(** base/src/lib.rs:64-107 *)
Definition TpmaNv_flags : constants := [
  ("PPWRITE", 0); ("OWNERWRITE", 1); ("AUTHWRITE", 2); ("POLICYWRITE", 3); ("POLICY_DELETE", 10);
  ("WRITELOCKED", 11); ("WRITEALL", 12); ("WRITEDEFINE", 13); ("WRITE_STCLEAR", 14); ("GLOBALLOCK", 15);
  ("PPREAD", 16); ("OWNERREAD", 17); ("AUTHREAD", 18); ("POLICYREAD", 19); ("NO_DA", 25); ("ORDERLY", 26);
  ("CLEAR_STCLEAR", 27); ("READLOCKED", 28); ("WRITTEN", 29); ("PLATFORMCREATE", 30); ("READ_STCLEAR", 31)].

(** base/src/lib.rs:399-421 *)
Definition TpmaObject_flags : constants := [
  ("FIXED_TPM", 1); ("ST_CLEAR", 2); ("FIXED_PARENT", 4); ("SENSITIVE_DATA_ORIGIN", 5);
  ("USER_WITH_AUTH", 6); ("ADMIN_WITH_POLICY", 7); ("NO_DA", 10); ("ENCRYPTED_DUPLICATION", 11);
  ("RESTRICTED", 16); ("DECRYPT", 17); ("SIGN_ENCRYPT", 18); ("X509_SIGN", 19)].

(** base/src/lib.rs:433-445 *)
Definition TpmaAlgorithm_flags : constants := [
  ("ASYMMETRIC", 0); ("SYMMETRIC", 1); ("HASH", 2); ("OBJECT", 3); ("SIGNING", 8); ("ENCRYPTING", 9);
  ("METHOD", 10)].

(** base/src/lib.rs:457-467 *)
Definition TpmaSession_flags : constants := [
  ("CONTINUE_SESSION", 0); ("AUDIT_EXCLUSIVE", 1); ("AUDIT_RESET", 2); ("DECRYPT", 5); ("ENCRYPT", 6);
  ("AUDIT", 7)].

(** base/src/lib.rs:479-487 *)
Definition TpmaCc_flags : constants := [
  ("NV", 22); ("EXTENSIVE", 23); ("FLUSHED", 24); ("R_HANDLE", 28); ("V", 29)].
