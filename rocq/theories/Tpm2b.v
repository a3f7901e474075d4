(** Model of the [Tpm2bSimple] and [Tpm2bStruct] interfaces generated by the
    derive macros.  A value is [VTpm2b size buffer]. *)
From Coq Require Import String ZArith NArith List Lia Bool.
From Coq Require Import Init.Byte.
From Verif Require Import Prelude Types Marshal Layout.
Import ListNotations.
Open Scope Z_scope.

(** [Default::default], marshalable-derive/src/lib.rs:239-246. *)
Definition tpm2b_default (max : N) : val := VTpm2b 0 (repeat x00 (N.to_nat max)).

(** [get_size], 217-219.  (Other shapes of [val] are excluded by the type checker.) *)
Definition get_size (b : val) : Z := match b with VTpm2b size _ => size | _ => 0 end.

(** [get_buffer], 221-223: panics if the size exceeds the array. *)
Definition get_buffer (b : val) : outcome merr (list byte) :=
  match b with
  | VTpm2b size buf =>
      if (N.of_nat (length buf) <? usize size)%N then Panic
      else Ok (firstn (N.to_nat (usize size)) buf)
  | _ => Panic
  end.

(** [as_ref], 248-252. *)
Definition as_ref (b : val) : outcome merr (list byte) := get_buffer b.

(** [from_bytes], 225-237. *)
Definition from_bytes (max : N) (bytes : list byte) : outcome merr val :=
  if (N.min 65535 max <? N.of_nat (length bytes))%N then Err ArrayLengthExceeded
  else Ok (VTpm2b (Z.of_nat (length bytes) mod 65536)
                  (overwrite bytes (repeat x00 (N.to_nat max)))).

(** [from_struct], 95-99: [t] is the struct type, the buffer has
    [size_of::<t>()] bytes. *)
Definition from_struct (t : ty) (v : val) : outcome merr val :=
  let '(field, r) := marshal t v (repeat x00 (N.to_nat (size_of t))) in
  obind r (fun n => Ok (VTpm2b (Z.of_nat n mod 65536) field)).

(** [to_struct], 101-104: what is left of the buffer is dropped. *)
Definition to_struct (t : ty) (b : val) : outcome merr val :=
  obind (as_ref b) (fun bytes => fst (unmarshal t bytes)).
