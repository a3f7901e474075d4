(** Model of the attribute words and handle ranges of the [base] crate.
    A [u32] is a [Z] in [0, 2^32). *)
From Coq Require Import ZArith List Lia Bool.
From Verif Require Import Prelude Errors.
Import ListNotations.
Open Scope Z_scope.

(** [!mask] on [u32]. *)
Definition not32 (m : Z) : Z := Z.lxor m (Z.ones 32).
(** [value << shift] on [u32]: bits shifted out are lost. *)
Definition shl32 (v s : Z) : Z := Z.land (Z.shiftl v s) (Z.ones 32).

(** base/src/lib.rs:20-30 *)
Definition new_attribute_field (value mask shift : Z) : Z := Z.land (shl32 value shift) mask.
Definition get_attribute_field (value mask shift : Z) : Z := Z.shiftr (Z.land value mask) shift.
Definition set_attribute_field (value field_value mask shift : Z) : Z :=
  Z.lor (Z.land value (not32 mask)) (new_attribute_field field_value mask shift).

(** [TpmaNv], base/src/lib.rs:112-139. *)
Definition NT_MASK := 0xF0.
Definition NT_SHIFT := 4.
Definition nv_from_index_type (nt : Z) : Z := new_attribute_field nt NT_MASK NT_SHIFT.
(* [as u8] *)
Definition nv_get_index_type (w : Z) : Z := get_attribute_field w NT_MASK NT_SHIFT mod 256.
Definition nv_set_type (w nt : Z) : Z := set_attribute_field w nt NT_MASK NT_SHIFT.

(** [TpmaCc], base/src/lib.rs:494-542. *)
Definition COMMAND_INDEX_MASK := 0xFFFF.
Definition COMMAND_INDEX_SHIFT := 0.
Definition C_HANDLES_SHIFT := 25.
Definition C_HANDLES_MASK := Z.shiftl 7 C_HANDLES_SHIFT.
Definition cc_command_index (i : Z) : Z := new_attribute_field i COMMAND_INDEX_MASK COMMAND_INDEX_SHIFT.
Definition cc_c_handles (n : Z) : Z := new_attribute_field n C_HANDLES_MASK C_HANDLES_SHIFT.
(* [as u16] *)
Definition cc_get_command_index (w : Z) : Z :=
  get_attribute_field w COMMAND_INDEX_MASK COMMAND_INDEX_SHIFT mod 65536.
Definition cc_get_c_handles (w : Z) : Z := get_attribute_field w C_HANDLES_MASK C_HANDLES_SHIFT.
Definition cc_set_command_index (w i : Z) : Z :=
  set_attribute_field w i COMMAND_INDEX_MASK COMMAND_INDEX_SHIFT.
Definition cc_set_c_handles (w n : Z) : Z := set_attribute_field w n C_HANDLES_MASK C_HANDLES_SHIFT.

(** [TpmaLocality::is_extended], base/src/lib.rs:49-53. *)
Definition locality_is_extended (v : Z) : bool := negb (Z.land v 0xE0 =? 0).

(** ** Handles, base/src/constants.rs:654-663, 683-744 *)
Definition ht_NVIndex := 0x01.
Definition ht_HMACSession := 0x02.
Definition ht_PolicySession := 0x03.
Definition HRShift := 24.
Definition hc_new (ht : Z) : Z := shl32 ht HRShift.
Definition TPM2_MAX_ACTIVE_SESSIONS := 64.
Definition HmacSessionFirst := hc_new ht_HMACSession.
Definition HmacSessionLast := hc_new ht_HMACSession + TPM2_MAX_ACTIVE_SESSIONS - 1.
Definition PolicySessionFirst := hc_new ht_PolicySession.
Definition PolicySessionLast := hc_new ht_PolicySession + TPM2_MAX_ACTIVE_SESSIONS - 1.
Definition NVIndexFirst := hc_new ht_NVIndex.
Definition NVIndexLast := NVIndexFirst + 0x00FFFFFF.
(* 720-722, 729-731, 741-743: inclusive ranges *)
Definition is_hmac_session (v : Z) : bool := (HmacSessionFirst <=? v) && (v <=? HmacSessionLast).
Definition is_policy_session (v : Z) : bool := (PolicySessionFirst <=? v) && (v <=? PolicySessionLast).
Definition is_nv_index (v : Z) : bool := (NVIndexFirst <=? v) && (v <=? NVIndexLast).

(** [TpmiRhNvIndex::try_from], base/src/lib.rs:306-315. *)
Definition nv_index_try_from (v : Z) : outcome Z Z :=
  if is_nv_index v then Ok v else Err rc_Value.
(** [TpmiShAuthSession::RS_PW], 337, constants.rs:671-679. *)
Definition RS_PW := 0x40000009.
(** [TpmiShAuthSession::try_from], base/src/lib.rs:322-334. *)
Definition auth_session_try_from (v : Z) : outcome Z Z :=
  if is_hmac_session v || is_policy_session v || (v =? RS_PW) then Ok v else Err rc_Value.
