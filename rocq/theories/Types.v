(** Descriptions of the Rust types that implement [Marshalable], and values. *)
From Coq Require Import String ZArith NArith List Lia Bool.
From Coq Require Import Init.Byte.
From Verif Require Import Prelude.
Import ListNotations.
Open Scope Z_scope.

(** A Rust value.  [VTpm2b size buf] is the two-field struct of a
    [tpm2b_simple]/[tpm2b_struct] type (marshalable-derive/src/lib.rs:225-246). *)
Inductive val : Type :=
| VInt (z : Z)
| VUnit
| VBytes (l : list byte)
| VStruct (vs : list val)
| VArr (vs : list val)
| VEnum (sel : Z) (args : list val)
| VTpm2b (size : Z) (buf : list byte).

(** How a named field is treated by the macro
    (marshalable-derive/src/lib.rs:405-434 and 597-634):
    - [KPlain]: not an array;
    - [KArr n]: an array field [[T; n]] without attribute;
    - [KLen n len dflt]: an array field with [#[marshalable(length=len)]];
      [dflt] is [T::default()], used to pre-fill the array. *)
Inductive kind : Type :=
| KPlain
| KArr (n : N)
| KLen (n : N) (len : string) (dflt : val).

(** What the derive macro sees.
    - [TInt sg k]: primitive integer of [k] bytes (marshalable/src/lib.rs:99-120)
    - [TUnit]: [()] (122-129)
    - [TBytes n]: [[u8; n]] used as a tuple/variant field (131-150)
    - [TNamed fs]: struct with named fields
    - [TTuple ts]: tuple struct, newtype, open_enum (a newtype around the
      integer) or unit struct ([TTuple TNil])
    - [TEnum k vs]: [repr(C, uN)] enum, [k] = N/8, variants in declaration order
    - [TTpm2b max]: [tpm2b_simple]/[tpm2b_struct] type with a [max]-byte buffer
    - [TSplit pre k mid vs]: the shape of the three hand-written impls
      (base/src/lib.rs:774-802, 1180-1204, 1249-1270): fields [pre], the union
      selector, fields [mid], the union body.  Value:
      [VStruct [VStruct pre; VStruct mid; VEnum sel args]]. *)
Inductive ty : Type :=
| TInt (sg : bool) (k : nat)
| TUnit
| TBytes (n : N)
| TNamed (fs : fields)
| TTuple (ts : tys)
| TEnum (k : nat) (vs : variants)
| TTpm2b (max : N)
| TSplit (pre : tys) (k : nat) (mid : tys) (vs : variants)
with fields : Type :=
| FNil
| FCons (name : string) (kd : kind) (t : ty) (rest : fields)
with tys : Type :=
| TNil
| TCons (t : ty) (rest : tys)
with variants : Type :=
| VNil
| VCons (sel : Z) (args : tys) (rest : variants).

Scheme ty_ind' := Induction for ty Sort Prop
with fields_ind' := Induction for fields Sort Prop
with tys_ind' := Induction for tys Sort Prop
with variants_ind' := Induction for variants Sort Prop.
Combined Scheme ty_mutind from ty_ind', fields_ind', tys_ind', variants_ind'.

(** Integer ranges of the Rust primitive types. *)
Definition in_range (sg : bool) (k : nat) (z : Z) : bool :=
  if sg then (- (pow256 k / 2) <=? z) && (z <? pow256 k / 2)
  else (0 <=? z) && (z <? pow256 k).

(** [as usize] on a 64-bit target. *)
Definition usize (z : Z) : N := Z.to_N (z mod 2 ^ 64).

(** The integer fields a later [length = name] attribute may refer to
    (the macro's [basic_field_types], marshalable-derive/src/lib.rs:425-427,
    581-595; the generated code reads [self.name] resp. the local [name]). *)
Definition lenv := list (string * Z).
Definition bind_len (name : string) (v : val) (env : lenv) : lenv :=
  match v with VInt z => (name, z) :: env | _ => env end.
Fixpoint lookup_len (name : string) (env : lenv) : option Z :=
  match env with
  | [] => None
  | (n, z) :: env' => if String.eqb name n then Some z else lookup_len name env'
  end.

Arguments in_range : simpl never.
Arguments usize : simpl never.
