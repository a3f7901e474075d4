(** The library's constants against the tables of TPM 2.0 Part 2. *)
(* Restates the theorems of ConstantsFacts.v; proofs are there. *)
From Coq Require Import String Ascii ZArith List Bool Lia.
From Verif Require Import Prelude Errors Part2 Constants Part2Constants ConstantsSpec.
From Verif Require Import ConstantsFacts.
Import ListNotations.
Local Open Scope string_scope.
Local Open Scope list_scope.
Open Scope Z_scope.

(** ** C64 *)
(** Every constant of every enumeration and attribute word has the value that
    the specification's table gives under its name. *)
Theorem C64_values (e : enumeration) (name : string) (v : Z) :
  In e base_enumerations -> In (name, v) (e_lib e) ->
  exists sname, spec_name e name sname /\ In (sname, v) (e_spec e).
Proof. exact (c64_values e name v). Qed.
Print Assumptions C64_values.

(** And the library has every constant of these tables, except for those that
    [absent] lists, of which it has none. *)
Theorem C64_complete (e : enumeration) (sname : string) (v : Z) :
  In e base_enumerations -> In (sname, v) (e_spec e) ->
  (exists name, spec_name e name sname /\ In (name, v) (e_lib e)) <-> ~ is_absent e sname.
Proof. exact (c64_complete e sname v). Qed.
Print Assumptions C64_complete.

(** That determines the value: a table does not list a name twice with different
    values. *)
Theorem C64_tables_functional (e : enumeration) (n m : string) (v w : Z) :
  In e base_enumerations -> In (n, v) (e_spec e) -> In (m, w) (e_spec e) ->
  letters n = letters m -> v = w.
Proof. exact (c64_tables_functional e n m v w). Qed.
Print Assumptions C64_tables_functional.

(** Distinct names of one enumeration are distinct values, so that comparing the
    value read from the wire with a named constant tells the names apart. *)
Theorem C64_distinct (e : enumeration) (n m : string) (v : Z) :
  In e (tpm2_rc :: base_enumerations) -> In (n, v) (e_lib e) -> In (m, v) (e_lib e) -> n = m.
Proof. exact (c64_distinct e n m v). Qed.
Print Assumptions C64_distinct.

(** The response codes of crates/tpm2: all but [Sequence]. *)
Theorem C64_rc_values_partial (name : string) (v : Z) :
  In (name, v) (e_lib tpm2_rc) -> name <> "Sequence" ->
  exists sname, spec_name tpm2_rc name sname /\ In (sname, v) (e_spec tpm2_rc).
Proof. exact (c64_rc_values_partial name v). Qed.
Print Assumptions C64_rc_values_partial.

(** [TpmRcError::Sequence] is documented as TPM_RC_SEQUENCE, but no row of the
    table has its value; the code for TPM_RC_SEQUENCE is 0x103, which is what
    [TpmRc::Sequence] of tpm2-rs-base is. *)
Theorem C64_sequence_refuted :
  exists v, In ("Sequence", v) TpmRcError
  /\ (forall sname, ~ In (sname, v) TPM_RC)
  /\ exists w, In ("TPM_RC_SEQUENCE", w) TPM_RC /\ In ("Sequence", w) TpmRc /\ w <> v.
Proof. exact c64_sequence_refuted. Qed.
Print Assumptions C64_sequence_refuted.

(** The two crates agree about the algorithms, and about the response codes
    except for that one. *)
Theorem C64_crates_agree (n m : string) (v w : Z) : letters n = letters m ->
  (In (n, v) Alg -> In (m, w) TpmAlgId -> v = w)
  /\ (In (n, v) TpmRcError -> In (m, w) TpmRc -> n <> "Sequence" -> v = w).
Proof. exact (c64_crates_agree n m v w). Qed.
Print Assumptions C64_crates_agree.

(** The constants of the layouts (Part2.v) are those of the tables. *)
Theorem C64_layout_constants (name : string) (v : Z) :
  In (name, v) [
    ("TPM_ALG_RSA", TPM_ALG_RSA); ("TPM_ALG_SHA1", TPM_ALG_SHA1); ("TPM_ALG_HMAC", TPM_ALG_HMAC);
    ("TPM_ALG_AES", TPM_ALG_AES); ("TPM_ALG_MGF1", TPM_ALG_MGF1);
    ("TPM_ALG_KEYEDHASH", TPM_ALG_KEYEDHASH); ("TPM_ALG_XOR", TPM_ALG_XOR);
    ("TPM_ALG_SHA256", TPM_ALG_SHA256); ("TPM_ALG_SHA384", TPM_ALG_SHA384);
    ("TPM_ALG_SHA512", TPM_ALG_SHA512); ("TPM_ALG_NULL", TPM_ALG_NULL);
    ("TPM_ALG_SM3_256", TPM_ALG_SM3_256); ("TPM_ALG_SM4", TPM_ALG_SM4);
    ("TPM_ALG_RSASSA", TPM_ALG_RSASSA); ("TPM_ALG_RSAES", TPM_ALG_RSAES);
    ("TPM_ALG_RSAPSS", TPM_ALG_RSAPSS); ("TPM_ALG_OAEP", TPM_ALG_OAEP);
    ("TPM_ALG_ECDSA", TPM_ALG_ECDSA); ("TPM_ALG_ECDH", TPM_ALG_ECDH); ("TPM_ALG_ECDAA", TPM_ALG_ECDAA);
    ("TPM_ALG_SM2", TPM_ALG_SM2); ("TPM_ALG_ECSCHNORR", TPM_ALG_ECSCHNORR);
    ("TPM_ALG_ECMQV", TPM_ALG_ECMQV); ("TPM_ALG_KDF1_SP800_56A", TPM_ALG_KDF1_SP800_56A);
    ("TPM_ALG_KDF2", TPM_ALG_KDF2); ("TPM_ALG_KDF1_SP800_108", TPM_ALG_KDF1_SP800_108);
    ("TPM_ALG_ECC", TPM_ALG_ECC); ("TPM_ALG_SYMCIPHER", TPM_ALG_SYMCIPHER);
    ("TPM_ALG_CAMELLIA", TPM_ALG_CAMELLIA);
    ("TPM_ST_ATTEST_NV", TPM_ST_ATTEST_NV); ("TPM_ST_ATTEST_COMMAND_AUDIT", TPM_ST_ATTEST_COMMAND_AUDIT);
    ("TPM_ST_ATTEST_SESSION_AUDIT", TPM_ST_ATTEST_SESSION_AUDIT);
    ("TPM_ST_ATTEST_CERTIFY", TPM_ST_ATTEST_CERTIFY); ("TPM_ST_ATTEST_QUOTE", TPM_ST_ATTEST_QUOTE);
    ("TPM_ST_ATTEST_TIME", TPM_ST_ATTEST_TIME); ("TPM_ST_ATTEST_CREATION", TPM_ST_ATTEST_CREATION);
    ("TPM_CAP_ALGS", 0); ("TPM_CAP_HANDLES", 1); ("TPM_CAP_COMMANDS", 2); ("TPM_CAP_PP_COMMANDS", 3);
    ("TPM_CAP_AUDIT_COMMANDS", 4); ("TPM_CAP_PCRS", 5); ("TPM_CAP_TPM_PROPERTIES", 6);
    ("TPM_CAP_PCR_PROPERTIES", 7); ("TPM_CAP_ECC_CURVES", 8); ("TPM_CAP_AUTH_POLICIES", 9)] ->
  In (name, v) (TPM_ALG ++ TPM_ST ++ TPM_CAP).
Proof. exact (c64_layout_constants name v). Qed.
Print Assumptions C64_layout_constants.

Example C64_example :
  In ("GetRandom", 0x17B) TpmCc /\ In ("TPM_CC_GetRandom", 0x17B) TPM_CC
  /\ letters ("TPM_CC_" ++ "GetRandom") = letters "TPM_CC_GetRandom"
  /\ letters ("TPM_ALG_" ++ "KDF1SP80056A") = letters "TPM_ALG_KDF1_SP800_56A"
  /\ letters ("TPM_" ++ "RHOwner") = letters "TPM_RH_OWNER"
  /\ letters ("TPM_CC_" ++ "GetRandom") <> letters "TPM_CC_GetTime"
  /\ length TpmCc = 117%nat /\ length TpmRc = 96%nat.
Proof. exact c64_example. Qed.
