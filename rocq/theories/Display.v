(** What errors look like to a user: [Display] of the error types and the
    conversion of a [TssError] to [std::io::Error]. *)
From Coq Require Import String ZArith List Bool.
From Coq Require Import Init.Byte.
From Verif Require Import Prelude Marshal Tcp.
Import ListNotations.
Local Open Scope string_scope.
Local Open Scope list_scope.
Open Scope Z_scope.

Definition text (s : string) : list byte := list_byte_of_string s.

(** [fmt::Display for marshalable::Error], marshalable/src/errors.rs:16-30. *)
Definition show_merr (e : merr) : list byte :=
  match e with
  | ArrayLengthExceeded => text "length of array is larger than the type allows"
  | UnexpectedEndOfBuffer => text "expected to have more buffer data but found none"
  | UnknownSelector => text "selector targeted is not known to the unmarshaling code"
  end.

(** [fmt::Display for u32] of the standard library, as [write!(f, "{}", n)]
    uses it: the last digit behind the text of the others.  Ten digits are
    enough for a [u32]. *)
Fixpoint show_digits (n : nat) (z : Z) : list byte :=
  match n with
  | O => []
  | S m => (if z <? 10 then [] else show_digits m (z / 10)) ++ [zb (48 + z mod 10)]
  end.
Definition show_u32 (z : Z) : list byte := show_digits 10 z.

(** [fmt::Display for TssError], crates/tpm2/src/errors/mod.rs:56-60. *)
Definition show_tss (code : Z) : list byte := show_u32 code.

(** [fmt::Display for ServerError], crates/tpm2-impl/src/error.rs:11-17; it
    has the one variant [DrbgError]. *)
Definition show_server_error : list byte := text "Drbg operation failed".

(** [From<TssError> for std::io::Error], crates/tpm2/src/errors/std.rs:6-10:
    [io::Error::other] keeps the error it is given and shows it. *)
Definition io_of_tss (code : Z) : io_error := FromTss code.
Definition show_io (e : io_error) : option (list byte) :=
  match e with FromTss code => Some (show_tss code) | _ => None end.
