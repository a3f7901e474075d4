(** Model of the macro [#[derive(Tpm2bStruct)]], marshalable-derive/src/lib.rs:
    26-105: from a declaration to the generated implementation, or an error.
    Spans and texts of messages are left out. *)
From Coq Require Import String ZArith NArith List Lia Bool.
From Coq Require Import Init.Byte.
From Verif Require Import Prelude Types Marshal Layout Tpm2b Derive.
Import ListNotations.
Local Open Scope string_scope.
Local Open Scope list_scope.
Open Scope Z_scope.

(** ** The length expression of the array, as syn presents it *)

(** A generic argument: a type that is a path (with the type it names), or
    anything else. *)
Inductive generic_arg := GaPath (p : path) (t : ty) | GaOther.
Inductive seg_args := SaNone | SaAngle (gs : list generic_arg) | SaParen.
Record segment := Segment { seg_ident : string; seg_arguments : seg_args }.
(** What is called; the arguments of the call are not looked at. *)
Inductive callee := FnPath (segs : list segment) | FnOther.
Inductive expr := ExCall (f : callee) | ExOther.

(** A declaration with the expression between the brackets of its second
    field's type; the value of that expression is the length in [TyArray]. *)
Record sdecl := SDecl { s_data : ddata; s_len : expr }.

Inductive serr :=
| STpm2b (es : list derr)          (* derive_tpm2b_common *)
| SNotAStruct                      (* 38-41 *)
| SSizeOf.                         (* TPM2B_STRUCT_ERR_2ND_ELM, 49 *)

(** What is generated: the name of the buffer in [from_struct], and
    [type StructType]. *)
Record wrapper := Wrapper { w_field : string; w_path : path; w_type : ty }.

(** [derive_tpm2b_struct], 45-105. *)
Definition derive_struct (fs : dfields) (len : expr) : outcome serr wrapper :=
  obind (omap_err STpm2b (tpm2b_common fs)) (fun '(field_name, _) =>
  match len with
  | ExCall (FnPath (segment :: _)) =>
      if negb (String.eqb (seg_ident segment) "size_of") then Err SSizeOf
      else match seg_arguments segment with
           | SaAngle (GaPath p t :: _) => Ok (Wrapper field_name p t)
           | _ => Err SSizeOf
           end
  | _ => Err SSizeOf
  end).
(** [derive_tpm_2b_struct_inner], 35-43. *)
Definition derive_wrapper (d : sdecl) : outcome serr wrapper :=
  match s_data d with
  | Struct fs => derive_struct fs (s_len d)
  | _ => Err SNotAStruct
  end.

(** ** The generated functions

    [max] is the length of the array, which [Self::default()]
    (239-246) fills with zeros.  The field named in the generated code must be
    the array: a struct with fields [size] and [name]. *)

(** [from_struct], 95-99. *)
Definition run_from_struct (w : wrapper) (max : N) (v : val) : outcome merr val :=
  let '(field, r) := marshal (w_type w) v (repeat x00 (N.to_nat max)) in
  obind r (fun n => Ok (VTpm2b (Z.of_nat n mod 65536) field)).
(** [to_struct], 101-104. *)
Definition run_to_struct (w : wrapper) (b : val) : outcome merr val :=
  obind (as_ref b) (fun bytes => fst (unmarshal (w_type w) bytes)).
