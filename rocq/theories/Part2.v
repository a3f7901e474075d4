(** Specification of the structures after "TPM 2.0 Library, Part 2: Structures".
    Each structure is given as the concatenation of its members, found by the
    name they have in the library, with their widths and union selectors.
    Nothing here looks at the descriptions in Catalogue.v; [view] alone connects
    a Rust value to what is specified. *)
From Coq Require Import String ZArith NArith List Lia Bool.
From Coq Require Import Init.Byte.
From Verif Require Import Prelude Types.
Import ListNotations.
Local Open Scope string_scope.
Local Open Scope list_scope.
Open Scope Z_scope.

(** ** Values with named members *)
Inductive data : Type :=
| Num (z : Z)                              (* an integer, or a newtype of one *)
| Octets (l : list byte)                   (* a byte array *)
| Sized (l : list byte)                    (* a sized buffer: its contents *)
| Rec (members : list (string * data))     (* a structure *)
| Items (l : list data)                    (* an array *)
| Chosen (sel : Z) (args : list data).     (* a union with its selector *)

(** A Rust value under the names of the declaration; a newtype is what it wraps.
    The three structures with hand-written code have no description by names
    and are treated as records of their own (Handwritten.v). *)
Fixpoint view (t : ty) (v : val) {struct t} : data :=
  match t, v with
  | TInt _ _, VInt z => Num z
  | TBytes _, VBytes l => Octets l
  | TNamed fs, VStruct vs => Rec (view_fields fs vs)
  | TTuple ts, VStruct vs => match view_tys ts vs with [d] => d | _ => Rec [] end
  | TEnum _ vrs, VEnum sel args => Chosen sel (view_variant vrs sel args)
  | TTpm2b _, VTpm2b size field => Sized (firstn (Z.to_nat size) field)
  | _, _ => Rec []
  end
with view_fields (fs : fields) (vs : list val) {struct fs} : list (string * data) :=
  match fs, vs with
  | FCons name KPlain t rest, v :: vs' => (name, view t v) :: view_fields rest vs'
  | FCons name _ t rest, VArr l :: vs' => (name, Items (map (view t) l)) :: view_fields rest vs'
  | _, _ => []
  end
with view_tys (ts : tys) (vs : list val) {struct ts} : list data :=
  match ts, vs with
  | TCons t rest, v :: vs' => view t v :: view_tys rest vs'
  | _, _ => []
  end
with view_variant (vrs : variants) (sel : Z) (args : list val) {struct vrs} : list data :=
  match vrs with
  | VNil => []
  | VCons s ts rest => if sel =? s then view_tys ts args else view_variant rest sel args
  end.

(** ** Vocabulary *)
Definition format : Type := data -> list byte.
Fixpoint member (name : string) (ms : list (string * data)) : data :=
  match ms with
  | [] => Rec []
  | (n, d) :: ms' => if String.eqb n name then d else member name ms'
  end.
Definition of_member (name : string) (f : format) : format := fun d =>
  match d with Rec ms => f (member name ms) | _ => [] end.
Notation "f '@' name" := (of_member name f) (at level 9, name at level 0).
(** One after the other. *)
Definition structure (fs : list format) : format := fun d => flat_map (fun f => f d) fs.

Definition BYTE : format := fun d => match d with Num z => be_bytes 1 z | _ => [] end.
Definition UINT16 : format := fun d => match d with Num z => be_bytes 2 z | _ => [] end.
Definition UINT32 : format := fun d => match d with Num z => be_bytes 4 z | _ => [] end.
Definition UINT64 : format := fun d => match d with Num z => be_bytes 8 z | _ => [] end.
(** Exactly [n] bytes. *)
Definition OCTETS (n : nat) : format := fun d =>
  match d with Octets l => if (length l =? n)%nat then l else [] | _ => [] end.
(** A size and that many bytes, at most [max]. *)
Definition TPM2B (max : N) : format := fun d =>
  match d with
  | Sized l => if (N.of_nat (length l) <=? max)%N then be_bytes 2 (Z.of_nat (length l)) ++ l else []
  | _ => []
  end.
(** A count and as many of the items, at most [max]. *)
Definition counted_list (count : format) (cname iname : string) (max : N) (item : format) : format := fun d =>
  match d with
  | Rec ms =>
      match member cname ms, member iname ms with
      | Num c, Items l => if Z.to_N c <=? max then count (Num c) ++ flat_map item (firstn (Z.to_nat c) l) else []
      | _, _ => []
      end
  | _ => []
  end%N.
Definition TPML (iname : string) (max : N) (item : format) : format :=
  counted_list UINT32 "count" iname max item.
(** A selector and the members it selects. *)
Fixpoint each (fs : list format) (ds : list data) : list byte :=
  match fs, ds with
  | f :: fs', d :: ds' => f d ++ each fs' ds'
  | _, _ => []
  end.
Fixpoint selected (sel : Z) (members : list (Z * list format)) : list format :=
  match members with
  | [] => []
  | (s, fs) :: members' => if sel =? s then fs else selected sel members'
  end.
Definition UNION (k : nat) (members : list (Z * list format)) : format := fun d =>
  match d with
  | Chosen sel args => be_bytes k sel ++ each (selected sel members) args
  | _ => []
  end.
(** The same in two places: structures whose selector is not next to the union. *)
Definition SELECTOR (k : nat) : format := fun d =>
  match d with Chosen sel _ => be_bytes k sel | _ => [] end.
Definition SELECTED (members : list (Z * list format)) : format := fun d =>
  match d with Chosen sel args => each (selected sel members) args | _ => [] end.
Definition EMPTY : format := fun _ => [].

(** ** Part 2, tables 9 and 19: TPM_ALG_ID and TPM_ST *)
Definition TPM_ALG_RSA := 0x0001.      Definition TPM_ALG_SHA1 := 0x0004.
Definition TPM_ALG_HMAC := 0x0005.     Definition TPM_ALG_AES := 0x0006.
Definition TPM_ALG_MGF1 := 0x0007.     Definition TPM_ALG_KEYEDHASH := 0x0008.
Definition TPM_ALG_XOR := 0x000A.      Definition TPM_ALG_SHA256 := 0x000B.
Definition TPM_ALG_SHA384 := 0x000C.   Definition TPM_ALG_SHA512 := 0x000D.
Definition TPM_ALG_NULL := 0x0010.     Definition TPM_ALG_SM3_256 := 0x0012.
Definition TPM_ALG_SM4 := 0x0013.      Definition TPM_ALG_RSASSA := 0x0014.
Definition TPM_ALG_RSAES := 0x0015.    Definition TPM_ALG_RSAPSS := 0x0016.
Definition TPM_ALG_OAEP := 0x0017.     Definition TPM_ALG_ECDSA := 0x0018.
Definition TPM_ALG_ECDH := 0x0019.     Definition TPM_ALG_ECDAA := 0x001A.
Definition TPM_ALG_SM2 := 0x001B.      Definition TPM_ALG_ECSCHNORR := 0x001C.
Definition TPM_ALG_ECMQV := 0x001D.    Definition TPM_ALG_KDF1_SP800_56A := 0x0020.
Definition TPM_ALG_KDF2 := 0x0021.     Definition TPM_ALG_KDF1_SP800_108 := 0x0022.
Definition TPM_ALG_ECC := 0x0023.      Definition TPM_ALG_SYMCIPHER := 0x0025.
Definition TPM_ALG_CAMELLIA := 0x0026.
Definition TPM_ST_ATTEST_NV := 0x8014.            Definition TPM_ST_ATTEST_COMMAND_AUDIT := 0x8015.
Definition TPM_ST_ATTEST_SESSION_AUDIT := 0x8016. Definition TPM_ST_ATTEST_CERTIFY := 0x8017.
Definition TPM_ST_ATTEST_QUOTE := 0x8018.         Definition TPM_ST_ATTEST_TIME := 0x8019.
Definition TPM_ST_ATTEST_CREATION := 0x801A.

(** ** Structures *)
Definition TPMT_HA : format := UNION 2 [
  (TPM_ALG_SHA1, [OCTETS 20]); (TPM_ALG_SHA256, [OCTETS 32]); (TPM_ALG_SHA384, [OCTETS 48]);
  (TPM_ALG_SHA512, [OCTETS 64]); (TPM_ALG_SM3_256, [OCTETS 32])].
(** Capacities.  Part 2 leaves most of them to the implementation; these are the
    library's, in numbers. *)
Definition TPM2B_DIGEST := TPM2B 64.
Definition TPM2B_DATA := TPM2B 64.
Definition TPM2B_NAME := TPM2B 66.
Definition TPM2B_MAX_NV_BUFFER := TPM2B 2048.
Definition TPM2B_SYM_KEY := TPM2B 32.
Definition TPM2B_LABEL := TPM2B 32.
Definition TPM2B_SENSITIVE_DATA := TPM2B 256.
Definition TPM2B_PUBLIC_KEY_RSA := TPM2B 512.
Definition TPM2B_PRIVATE_KEY_RSA := TPM2B 256.
Definition TPM2B_ECC_PARAMETER := TPM2B 128.
Definition TPM2B_CONTEXT_SENSITIVE := TPM2B 5120.

Definition TPMS_CLOCK_INFO := structure [
  UINT64@"clock"; UINT32@"reset_count"; UINT32@"restart_count"; BYTE@"safe"].
Definition TPMS_PCR_SELECTION := structure [
  UINT16@"hash"; counted_list BYTE "sizeof_select" "pcr_select" 4 BYTE].
Definition TPML_PCR_SELECTION := TPML "pcr_selections" 16 TPMS_PCR_SELECTION.
Definition TPMS_QUOTE_INFO := structure [TPML_PCR_SELECTION@"pcr_select"; TPM2B_DIGEST@"pcr_digest"].
Definition TPMS_CREATION_INFO := structure [TPM2B_NAME@"object_name"; TPM2B_DIGEST@"creation_hash"].
Definition TPMS_CERTIFY_INFO := structure [TPM2B_NAME@"name"; TPM2B_NAME@"qualified_name"].
Definition TPMS_COMMAND_AUDIT_INFO := structure [
  UINT64@"audit_counter"; UINT16@"digest_alg"; TPM2B_DIGEST@"audit_digest"; TPM2B_DIGEST@"command_digest"].
Definition TPMS_SESSION_AUDIT_INFO := structure [BYTE@"exclusive_session"; TPM2B_DIGEST@"session_digest"].
Definition TPMS_TIME_INFO := structure [UINT64@"time"; TPMS_CLOCK_INFO@"clock_info"].
Definition TPMS_TIME_ATTEST_INFO := structure [TPMS_TIME_INFO@"time"; UINT64@"firmware_version"].
Definition TPMS_NV_CERTIFY_INFO := structure [
  TPM2B_NAME@"index_name"; UINT16@"offset"; TPM2B_MAX_NV_BUFFER@"nv_contents"].
Definition attest_members : list (Z * list format) := [
  (TPM_ST_ATTEST_CERTIFY, [TPMS_CERTIFY_INFO]);
  (TPM_ST_ATTEST_CREATION, [TPMS_CREATION_INFO]);
  (TPM_ST_ATTEST_QUOTE, [TPMS_QUOTE_INFO]);
  (TPM_ST_ATTEST_COMMAND_AUDIT, [TPMS_COMMAND_AUDIT_INFO]);
  (TPM_ST_ATTEST_SESSION_AUDIT, [TPMS_SESSION_AUDIT_INFO]);
  (TPM_ST_ATTEST_TIME, [TPMS_TIME_ATTEST_INFO]);
  (TPM_ST_ATTEST_NV, [TPMS_NV_CERTIFY_INFO])].
Definition TPMU_ATTEST := UNION 2 attest_members.
Definition TPMS_ATTEST := structure [
  UINT32@"magic"; (SELECTOR 2)@"attested"; TPM2B_NAME@"qualified_signer"; TPM2B_DATA@"extra_data";
  TPMS_CLOCK_INFO@"clock_info"; UINT64@"firmware_version"; (SELECTED attest_members)@"attested"].
Definition TPMS_DERIVE := structure [TPM2B_LABEL@"label"; TPM2B_LABEL@"context"].
Definition TPMS_SENSITIVE_CREATE := structure [TPM2B_DIGEST@"user_auth"; TPM2B_SENSITIVE_DATA@"data"].
Definition TPMS_ECC_POINT := structure [TPM2B_ECC_PARAMETER@"x"; TPM2B_ECC_PARAMETER@"y"].
Definition TPMS_SCHEME_XOR := structure [UINT16@"hash_alg"; UINT16@"kdf"].
Definition TPMS_SCHEME_HASH := structure [UINT16@"hash_alg"].
Definition TPMS_SCHEME_ECDAA := structure [UINT16@"hash_alg"; UINT16@"count"].
Definition TPMT_KEYEDHASH_SCHEME := UNION 2 [
  (TPM_ALG_HMAC, [TPMS_SCHEME_HASH]); (TPM_ALG_XOR, [TPMS_SCHEME_XOR]); (TPM_ALG_NULL, [EMPTY])].
Definition TPMS_KEYEDHASH_PARMS := structure [TPMT_KEYEDHASH_SCHEME@"scheme"].
(** Algorithm, key size, mode; for XOR the "key size" is a hash algorithm. *)
Definition TPMT_SYM_DEF := UNION 2 [
  (TPM_ALG_AES, [UINT16; UINT16]); (TPM_ALG_SM4, [UINT16; UINT16]); (TPM_ALG_CAMELLIA, [UINT16; UINT16]);
  (TPM_ALG_XOR, [UINT16; EMPTY]); (TPM_ALG_NULL, [EMPTY; EMPTY])].
Definition TPMS_SYMCIPHER_PARMS := structure [TPMT_SYM_DEF@"sym"].
Definition TPMS_SIGNATURE_RSA := structure [UINT16@"hash"; TPM2B_PUBLIC_KEY_RSA@"sig"].
Definition TPMS_SIGNATURE_ECC := structure [
  UINT16@"hash"; TPM2B_ECC_PARAMETER@"signature_r"; TPM2B_ECC_PARAMETER@"signature_s"].
Definition TPMT_SIGNATURE := UNION 2 [
  (TPM_ALG_RSASSA, [TPMS_SIGNATURE_RSA]); (TPM_ALG_RSAPSS, [TPMS_SIGNATURE_RSA]);
  (TPM_ALG_ECDSA, [TPMS_SIGNATURE_ECC]); (TPM_ALG_ECDAA, [TPMS_SIGNATURE_ECC]);
  (TPM_ALG_SM2, [TPMS_SIGNATURE_ECC]); (TPM_ALG_ECSCHNORR, [TPMS_SIGNATURE_ECC]);
  (TPM_ALG_HMAC, [TPMT_HA]); (TPM_ALG_NULL, [EMPTY])].
(** The signing schemes' details (table TPMU_SIG_SCHEME and TPMU_ASYM_SCHEME).
    The lists of selectors below are the library's, which are wider than the
    interface types of Part 2: an RSA scheme there is one of RSASSA, RSAES,
    RSAPSS, OAEP and NULL, an ECC scheme is none of the RSA ones.  Members that
    the library does not have (EDDSA, MLDSA, TDES, HKDF and others) are left out. *)
Definition scheme (alg : Z) : Z * list format :=
  (alg, if alg =? TPM_ALG_ECDAA then [TPMS_SCHEME_ECDAA]
        else if (alg =? TPM_ALG_RSAES) || (alg =? TPM_ALG_NULL) then [EMPTY]
        else [TPMS_SCHEME_HASH]).
Definition TPMT_SIG_SCHEME := UNION 2 (map scheme [
  TPM_ALG_RSASSA; TPM_ALG_RSAPSS; TPM_ALG_ECDSA; TPM_ALG_ECDAA; TPM_ALG_SM2; TPM_ALG_ECSCHNORR;
  TPM_ALG_HMAC; TPM_ALG_NULL]).
Definition TPMT_RSA_SCHEME := UNION 2 (map scheme [
  TPM_ALG_RSAPSS; TPM_ALG_RSASSA; TPM_ALG_ECDSA; TPM_ALG_ECDAA; TPM_ALG_SM2; TPM_ALG_ECSCHNORR;
  TPM_ALG_RSAES; TPM_ALG_OAEP; TPM_ALG_NULL]).
Definition TPMT_ECC_SCHEME := UNION 2 (map scheme [
  TPM_ALG_RSAPSS; TPM_ALG_RSASSA; TPM_ALG_ECDSA; TPM_ALG_ECDAA; TPM_ALG_SM2; TPM_ALG_ECSCHNORR;
  TPM_ALG_ECDH; TPM_ALG_ECMQV; TPM_ALG_NULL]).
Definition TPMT_ASYM_SCHEME := UNION 2 (map scheme [
  TPM_ALG_ECDH; TPM_ALG_ECMQV; TPM_ALG_SM2; TPM_ALG_RSAPSS; TPM_ALG_RSASSA; TPM_ALG_ECDSA; TPM_ALG_ECDAA;
  TPM_ALG_ECSCHNORR; TPM_ALG_RSAES; TPM_ALG_OAEP; TPM_ALG_NULL]).
Definition TPMT_KDF_SCHEME := UNION 2 (map scheme [
  TPM_ALG_MGF1; TPM_ALG_KDF1_SP800_56A; TPM_ALG_KDF2; TPM_ALG_KDF1_SP800_108; TPM_ALG_NULL]).
Definition TPMS_RSA_PARMS := structure [
  TPMT_SYM_DEF@"symmetric"; TPMT_RSA_SCHEME@"scheme"; UINT16@"key_bits"; UINT32@"exponent"].
Definition TPMS_ECC_PARMS := structure [
  TPMT_SYM_DEF@"symmetric"; TPMT_ECC_SCHEME@"scheme"; UINT16@"curve_id"; TPMT_KDF_SCHEME@"kdf"].
Definition TPMS_ASYM_PARMS := structure [TPMT_SYM_DEF@"symmetric"; TPMT_ASYM_SCHEME@"scheme"].
(** Parameters, then the unique field (TPMU_PUBLIC_PARMS and TPMU_PUBLIC_ID). *)
Definition public_members : list (Z * list format) := [
  (TPM_ALG_KEYEDHASH, [TPMS_KEYEDHASH_PARMS; TPM2B_DIGEST]);
  (TPM_ALG_SYMCIPHER, [TPMS_SYMCIPHER_PARMS; TPM2B_DIGEST]);
  (TPM_ALG_RSA, [TPMS_RSA_PARMS; TPM2B_PUBLIC_KEY_RSA]);
  (TPM_ALG_ECC, [TPMS_ECC_PARMS; TPMS_ECC_POINT])].
(** Under TPM_ALG_NULL the library has the member "any" of TPMU_SENSITIVE_COMPOSITE,
    to which Part 2 gives no selector. *)
Definition sensitive_members : list (Z * list format) := [
  (TPM_ALG_RSA, [TPM2B_PRIVATE_KEY_RSA]); (TPM_ALG_ECC, [TPM2B_ECC_PARAMETER]);
  (TPM_ALG_KEYEDHASH, [TPM2B_SENSITIVE_DATA]); (TPM_ALG_SYMCIPHER, [TPM2B_SYM_KEY]);
  (TPM_ALG_NULL, [TPM2B 1280])].
Definition TPMT_PUBLIC := structure [
  (SELECTOR 2)@"parms_and_id"; UINT16@"name_alg"; UINT32@"object_attributes"; TPM2B_DIGEST@"auth_policy";
  (SELECTED public_members)@"parms_and_id"].
Definition TPMT_SENSITIVE := structure [
  (SELECTOR 2)@"sensitive"; TPM2B_DIGEST@"auth_value"; TPM2B_DIGEST@"seed_value";
  (SELECTED sensitive_members)@"sensitive"].
Definition TPMS_ALG_PROPERTY := structure [UINT16@"alg"; UINT32@"alg_properties"].
Definition TPMS_TAGGED_PROPERTY := structure [UINT32@"property"; UINT32@"value"].
Definition TPMS_TAGGED_PCR_SELECT := structure [
  UINT32@"tag"; counted_list BYTE "size_of_select" "pcr_select" 4 BYTE].
Definition TPMS_TAGGED_POLICY := structure [UINT32@"handle"; TPMT_HA@"policy_hash"].
(** Counts: as many as fit 1024 bytes with capability and count (Part 2,
    MAX_CAP_DATA), measured in the library by the size of the Rust type. *)
Definition TPML_ALG_PROPERTY := TPML "alg_properties" 127 TPMS_ALG_PROPERTY.
Definition TPML_HANDLE := TPML "handle" 254 UINT32.
Definition TPML_CCA := TPML "command_attributes" 254 UINT32.
Definition TPML_CC := TPML "command_codes" 254 UINT32.
Definition TPML_TAGGED_TPM_PROPERTY := TPML "tpm_property" 127 TPMS_TAGGED_PROPERTY.
Definition TPML_TAGGED_PCR_PROPERTY := TPML "pcr_property" 84 TPMS_TAGGED_PCR_SELECT.
Definition TPML_ECC_CURVE := TPML "ecc_curves" 508 UINT16.
Definition TPML_TAGGED_POLICY := TPML "policies" 14 TPMS_TAGGED_POLICY.
Definition TPML_DIGEST := TPML "digests" 8 TPM2B_DIGEST.
Definition TPMS_CAPABILITY_DATA := UNION 4 [
  (0, [TPML_ALG_PROPERTY]); (1, [TPML_HANDLE]); (2, [TPML_CCA]); (3, [TPML_CC]); (4, [TPML_CC]);
  (5, [TPML_PCR_SELECTION]); (6, [TPML_TAGGED_TPM_PROPERTY]); (7, [TPML_TAGGED_PCR_PROPERTY]);
  (8, [TPML_ECC_CURVE]); (9, [TPML_TAGGED_POLICY])].
Definition TPMS_AUTH_COMMAND := structure [
  UINT32@"session_handle"; TPM2B_DIGEST@"nonce"; BYTE@"session_attributes"; TPM2B_DIGEST@"hmac"].
Definition TPMS_AUTH_RESPONSE := structure [
  TPM2B_DIGEST@"nonce"; BYTE@"session_attributes"; TPM2B_DIGEST@"hmac"].
Definition TPMS_ID_OBJECT := structure [TPM2B_DIGEST@"integrity_hmac"; TPM2B_DIGEST@"enc_identity"].
Definition TPMS_NV_PUBLIC := structure [
  UINT32@"nv_index"; UINT16@"name_alg"; UINT32@"attributes"; TPM2B_DIGEST@"auth_policy"; UINT16@"data_size"].
Definition TPMS_CONTEXT_DATA := structure [TPM2B_DIGEST@"integrity"; TPM2B_CONTEXT_SENSITIVE@"encrypted"].
Definition TPMS_CREATION_DATA := structure [
  TPML_PCR_SELECTION@"pcr_select"; TPM2B_DIGEST@"pcr_digest"; BYTE@"locality"; UINT16@"parent_name_alg";
  TPM2B_NAME@"parent_name"; TPM2B_NAME@"parent_qualified_name"; TPM2B_DATA@"outside_info"].

(** ** Part 3: parameters of commands and responses; Part 1: headers *)
Definition TPM2_GetCapability_In := structure [UINT32@"capability"; UINT32@"property"; UINT32@"property_count"].
Definition TPM2_GetCapability_Out := structure [BYTE@"more_data"; TPMS_CAPABILITY_DATA@"capability_data"].
Definition TPM2_PCR_Read_In := structure [TPML_PCR_SELECTION@"pcr_selection_in"].
Definition TPM2_PCR_Read_Out := structure [
  UINT32@"pcr_update_counter"; TPML_PCR_SELECTION@"pcr_selection_out"; TPML_DIGEST@"pcr_values"].
Definition TPM2_GetRandom_In := structure [UINT16@"bytes_requested"].
Definition TPM2_GetRandom_Out := structure [TPM2B_DIGEST@"random_bytes"].
Definition TPM2_Startup_In := structure [UINT16@"startup_type"].
Definition command_header := structure [UINT16@"tag"; UINT32@"size"; UINT32@"code"].
Definition response_header := structure [UINT16@"tag"; UINT32@"size"; UINT32@"rc"].
