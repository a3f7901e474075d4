(** Properties of attribute bit fields and handle classification (C19-C21). *)
(* Restates the theorems of AttrsFacts.v; proofs are there. *)
From Coq Require Import String ZArith NArith List Lia Bool.
From Coq Require Import Init.Byte.
From Verif Require Import Prelude Types Marshal WireSpec MarshalProofs Catalogue Errors Attrs Samples Constants.
From Verif Require Import AttrsFacts.
Import ListNotations.
Open Scope Z_scope.

(** ** C19 *)
Theorem C19_nv_index_type : is_bit_field 4 4 nv_get_index_type nv_set_type.
Proof. exact c19_nv_index_type. Qed.
Print Assumptions C19_nv_index_type.

Theorem C19_cc_command_index : is_bit_field 16 0 cc_get_command_index cc_set_command_index.
Proof. exact c19_cc_command_index. Qed.
Print Assumptions C19_cc_command_index.

Theorem C19_cc_handles : is_bit_field 3 25 cc_get_c_handles cc_set_c_handles.
Proof. exact c19_cc_handles. Qed.
Print Assumptions C19_cc_handles.

(** The constructors are [set] on an all-zero word. *)
Theorem C19_constructors f : 0 <= f ->
  nv_from_index_type f = nv_set_type 0 f
  /\ cc_command_index f = cc_set_command_index 0 f
  /\ cc_c_handles f = cc_set_c_handles 0 f.
Proof. exact (c19_constructors f). Qed.
Print Assumptions C19_constructors.

(** Named flags lie outside the fields, and the two fields of [TpmaCc] are
    disjoint, so setting one never changes the other or a flag. *)
Theorem C19_disjoint w f b : 0 <= w < 2 ^ 32 -> 0 <= f ->
  (In b (map snd TpmaNv_flags) -> Z.testbit (nv_set_type w f) b = Z.testbit w b)
  /\ (In b (map snd TpmaCc_flags) -> Z.testbit (cc_set_command_index w f) b = Z.testbit w b)
  /\ (In b (map snd TpmaCc_flags) -> Z.testbit (cc_set_c_handles w f) b = Z.testbit w b)
  /\ cc_get_c_handles (cc_set_command_index w f) = cc_get_c_handles w
  /\ cc_get_command_index (cc_set_c_handles w f) = cc_get_command_index w.
Proof. exact (c19_disjoint w f b). Qed.
Print Assumptions C19_disjoint.

(** [is_extended] holds exactly for locality bytes of 32 and above. *)
Theorem C19_locality v : 0 <= v < 256 -> locality_is_extended v = (32 <=? v).
Proof. exact (c19_locality v). Qed.
Print Assumptions C19_locality.

Example C19_example :
  nv_set_type 0xFFFFFFFF 0x9 = 0xFFFFFF9F /\ nv_get_index_type 0xFFFFFF9F = 9
  /\ cc_set_c_handles 0x0040017B 2 = 0x0440017B /\ cc_get_command_index 0x0440017B = 0x17B.
Proof. exact c19_example. Qed.


(** ** C20 *)
Theorem C20_nv_index v :
  nv_index_try_from v = if (0x01000000 <=? v) && (v <=? 0x01FFFFFF) then Ok v else Err 0x084.
Proof. exact (c20_nv_index v). Qed.
Print Assumptions C20_nv_index.

(** The range test is a test of the top byte. *)
Theorem C20_nv_index_top_byte v : 0 <= v < 2 ^ 32 ->
  (is_ok (nv_index_try_from v) = true <-> v / 2 ^ 24 = 0x01).
Proof. exact (c20_nv_index_top_byte v). Qed.
Print Assumptions C20_nv_index_top_byte.

Theorem C20_auth_session v :
  auth_session_try_from v =
    if ((0x02000000 <=? v) && (v <=? 0x0200003F))
       || ((0x03000000 <=? v) && (v <=? 0x0300003F))
       || (v =? 0x40000009)
    then Ok v else Err 0x084.
Proof. exact (c20_auth_session v). Qed.
Print Assumptions C20_auth_session.

(** No handle is in two of the classes. *)
Theorem C20_disjoint v :
  is_nv_index v = true -> auth_session_try_from v = Err rc_Value.
Proof. exact (c20_disjoint v). Qed.
Print Assumptions C20_disjoint.

(** A session handle is of exactly one kind, told by its top byte. *)
Theorem C20_disjoint_sessions v :
  (is_hmac_session v = true -> is_policy_session v = false /\ v <> RS_PW /\ v / 2 ^ 24 = 0x02)
  /\ (is_policy_session v = true -> is_hmac_session v = false /\ v <> RS_PW /\ v / 2 ^ 24 = 0x03).
Proof. exact (c20_disjoint_sessions v). Qed.
Print Assumptions C20_disjoint_sessions.

Example C20_example :
  nv_index_try_from 0x01C00002 = Ok 0x01C00002 /\ nv_index_try_from 0x02000000 = Err rc_Value
  /\ auth_session_try_from 0x0200003F = Ok 0x0200003F
  /\ auth_session_try_from 0x02000040 = Err rc_Value
  /\ auth_session_try_from RS_PW = Ok RS_PW.
Proof. exact c20_example. Qed.


(** ** C21 *)
(** Unmarshalling accepts every 32-bit value ... *)
Theorem C21_unmarshal_unchecked v rest : 0 <= v < 2 ^ 32 ->
  unmarshal TpmiRhNvIndex (be_bytes 4 v ++ rest) = (Ok (vi v), rest)
  /\ unmarshal TpmiShAuthSession (be_bytes 4 v ++ rest) = (Ok (vi v), rest).
Proof. exact (c21_unmarshal_unchecked v rest). Qed.
Print Assumptions C21_unmarshal_unchecked.

Example C21_example :
  unmarshal TpmiRhNvIndex [x01; x80; x00; x07; xee] = (Ok (vi 0x01800007), [xee])
  /\ nv_index_try_from 0x01800007 = Ok 0x01800007
  /\ unmarshal TpmiShAuthSession [x01; x80; x00; x07; xee] = (Ok (vi 0x01800007), [xee])
  /\ auth_session_try_from 0x01800007 = Err rc_Value.
Proof. exact c21_example. Qed.

(** ... also those the checked conversions refuse. *)
Theorem C21_validated_refuted :
  exists b v, unmarshal TpmiRhNvIndex b = (Ok (vi v), []) /\ nv_index_try_from v = Err rc_Value
    /\ unmarshal TpmiShAuthSession b = (Ok (vi v), []) /\ auth_session_try_from v = Err rc_Value.
Proof. exact c21_validated_refuted. Qed.
Print Assumptions C21_validated_refuted.
