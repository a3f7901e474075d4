(** Model of crates/tpm2/src/errors and of the conversions in
    marshalable/src/errors.rs.  A [u32] is a [Z] in [0, 2^32). *)
From Coq Require Import ZArith List Lia Bool.
From Verif Require Import Prelude Marshal.
Import ListNotations.
Open Scope Z_scope.

(** [NonZeroU32::new]. *)
Definition nonzero (v : Z) : option Z := if v =? 0 then None else Some v.

(** [TssError::try_from(u32)], errors/mod.rs:68-76; the error is
    [TssErrorCannotBeZero].  [TssError::get] (50-53) is the identity here:
    a [TssError] is represented by its code. *)
Definition tss_try_from (v : Z) : outcome unit Z :=
  match nonzero v with Some c => Ok c | None => Err tt end.

(** [TpmRcError::new], errors/tpm_rc/mod.rs:116-121: panics on zero. *)
Definition rc_new (v : Z) : outcome unit Z :=
  match nonzero v with Some c => Ok c | None => Panic end.

(** Response codes, errors/tpm_rc/mod.rs:16-85. *)
Definition RC_FMT1 := 0x80.
Definition rc_Asymmetric := RC_FMT1 + 0x001.
Definition rc_Value := RC_FMT1 + 0x004.
Definition rc_Size := RC_FMT1 + 0x015.
Definition rc_Selector := RC_FMT1 + 0x018.
Definition rc_BadTag := 0x1e.
Definition rc_Initialize := 0x100.
Definition rc_Failure := 0x101.
Definition rc_Sequence := 0x102.
Definition rc_CommandSize := 0x142.
Definition rc_CommandCode := 0x143.
Definition rc_ContextGap := 0x901.
Definition rc_ObjectMemory := 0x902.
Definition rc_SessionMemory := 0x903.
Definition rc_Memory := 0x904.

(** [ErrorType], 126-133, its masks 136-138 and [to_mask] 140-146. *)
Inductive error_type := OnHandle | OnParameter | OnSession.
Definition PARAMETER_MASK := 0x40.
Definition SESSION_MASK := 0x800.
Definition HANDLE_MASK := 0x0.
Definition type_to_mask (on : error_type) : Z :=
  match on with OnHandle => HANDLE_MASK | OnParameter => PARAMETER_MASK | OnSession => SESSION_MASK end.

(** [ErrorType::from_mask], 148-159.  The second test is on the constant
    [SESSION_MASK], not on the value. *)
Definition type_from_mask (v : Z) : option error_type :=
  if Z.land v 0x80 =? 0 then None
  else if negb (Z.land v PARAMETER_MASK =? 0) then Some OnParameter
  else if negb (SESSION_MASK =? 0) then Some OnSession
  else Some OnHandle.

(** [ErrorPosition], 163-195. *)
Inductive error_position :=
| Pos1 | Pos2 | Pos3 | Pos4 | Pos5 | Pos6 | Pos7 | Pos8 | Pos9
| PosA | PosB | PosC | PosD | PosE | PosF.
(** [self as u32] *)
Definition pos_val (p : error_position) : Z :=
  match p with
  | Pos1 => 1 | Pos2 => 2 | Pos3 => 3 | Pos4 => 4 | Pos5 => 5 | Pos6 => 6 | Pos7 => 7
  | Pos8 => 8 | Pos9 => 9 | PosA => 10 | PosB => 11 | PosC => 12 | PosD => 13 | PosE => 14
  | PosF => 15
  end.
(** [ErrorPosition::to_mask], 198-200. *)
Definition pos_to_mask (p : error_position) : Z := Z.shiftl (pos_val p) 8.
(** [ErrorPosition::from_mask], 202-224. *)
Definition pos_from_mask (v : Z) : option error_position :=
  if Z.land v 0x80 =? 0 then None
  else let m := Z.land v 0xF00 in
  if m =? 0x100 then Some Pos1 else if m =? 0x200 then Some Pos2
  else if m =? 0x300 then Some Pos3 else if m =? 0x400 then Some Pos4
  else if m =? 0x500 then Some Pos5 else if m =? 0x600 then Some Pos6
  else if m =? 0x700 then Some Pos7 else if m =? 0x800 then Some Pos8
  else if m =? 0x900 then Some Pos9 else if m =? 0xA00 then Some PosA
  else if m =? 0xB00 then Some PosB else if m =? 0xC00 then Some PosC
  else if m =? 0xD00 then Some PosD else if m =? 0xE00 then Some PosE
  else if m =? 0xF00 then Some PosF else None.

(** [AsymmetricFor] 24-26, [ValueFor] 34-36, [SizeFor] 43-45, [SelectorFor] 52-54. *)
Definition rc_for (base : Z) (on : error_type) (p : error_position) : outcome unit Z :=
  rc_new (Z.lor (Z.lor base (type_to_mask on)) (pos_to_mask p)).
Definition AsymmetricFor := rc_for rc_Asymmetric.
Definition ValueFor := rc_for rc_Value.
Definition SizeFor := rc_for rc_Size.
Definition SelectorFor := rc_for rc_Selector.

(** [is_warning], 94-97. *)
Definition is_warning (v : Z) : bool := Z.land v 0x980 =? 0x900.

(** [format1_parameter], 100-109. *)
Definition format1_parameter (v : Z) : option (error_type * error_position) :=
  match type_from_mask v, pos_from_mask v with
  | Some on, Some p => Some (on, p)
  | _, _ => None
  end.

(** [From<TpmRcError> for TssError], 228-232, and
    [From<$error_name> for TssError], tss_rc.rs:53-57: the same number. *)
Definition tss_of_rc (v : Z) : Z := v.
Definition tss_of_layer (v : Z) : Z := v.

(** Client layers, errors/tss_rc.rs:46-51, 62-64. *)
Inductive layer := Tddl | Tcs | Tsp.
Definition layer_value (l : layer) : Z := match l with Tddl => 1 | Tcs => 2 | Tsp => 3 end.
(** [$error_name::new]: [unreachable!] when the result is zero. *)
Definition layer_new (l : layer) (value : Z) : outcome unit Z :=
  match nonzero (Z.lor value (Z.shiftl (layer_value l) 12)) with
  | Some v => Ok v
  | None => Panic
  end.
(** The common codes, 19-43. *)
Inductive tss_code :=
| GeneralFailure | BadParameter | InternalError | OutOfMemory | NotImplemented
| KeyAlredyRegistered | TpmUnexpected | CommFailure | Timeout | Unsupported | Canceled.
Definition tss_code_value (c : tss_code) : Z :=
  match c with
  | GeneralFailure => 2 | BadParameter => 3 | InternalError => 4 | OutOfMemory => 5
  | NotImplemented => 6 | KeyAlredyRegistered => 8 | TpmUnexpected => 16 | CommFailure => 17
  | Timeout => 18 | Unsupported => 20 | Canceled => 22
  end.
Definition layer_error (l : layer) (c : tss_code) : outcome unit Z := layer_new l (tss_code_value c).

(** The two codes the client uses, as numbers: [TssTcsError::OutOfMemory] etc. *)
Definition tcs_code (c : tss_code) : Z := Z.lor (tss_code_value c) (Z.shiftl 2 12).

(** [From<Error> for TpmRcError], marshalable/src/errors.rs:32-40, and for
    [TssError], 42-46. *)
Definition rc_of_merr (e : merr) : Z :=
  match e with
  | ArrayLengthExceeded => rc_Size
  | UnexpectedEndOfBuffer => rc_Memory
  | UnknownSelector => rc_Selector
  end.
Definition tss_of_merr (e : merr) : Z := tss_of_rc (rc_of_merr e).
