(** Model of the macro [#[derive(Marshalable)]], marshalable-derive/src/lib.rs:
    from a declaration to the statements of the generated code, or an error.
    Spans and the texts of messages are left out; a message is a constructor of
    [derr].  Types are looked at as the macro does (an array, a path, something
    else); what a type means is the description [ty] it carries. *)
From Coq Require Import String ZArith NArith List Lia Bool.
From Coq Require Import Decimal DecimalString.
From Verif Require Import Prelude Types.
Import ListNotations.
Local Open Scope string_scope.
Local Open Scope list_scope.
Open Scope Z_scope.

(** ** Declarations, as syn presents them *)

(** A path without generic arguments is its identifiers ([is_ident], [get_ident]). *)
Definition path := list string.
Definition is_ident (p : path) (s : string) : bool :=
  match p with [x] => String.eqb x s | _ => false end.
Definition get_ident (p : path) : option string :=
  match p with [x] => Some x | _ => None end.

(** A type: a path, an array with the value of its length and its element's
    [Default], or anything else. *)
Inductive tyexpr :=
| TyPath (p : path) (t : ty)
| TyArray (len : N) (elem : tyexpr) (dflt : val)
| TyOther (t : ty).

(** [#[marshalable(key = value)]] on a field; [FMalformed] is anything that does
    not parse as [MetaNameValue]. *)
Inductive attr_value :=
| EPath (p : path) (has_attrs has_qself : bool)
| EOther.
Inductive field_attr :=
| FOther                                     (* not #[marshalable(..)] *)
| FMalformed
| FNameValue (key : path) (value : attr_value).

Record field := Field { f_name : string; f_attrs : list field_attr; f_ty : tyexpr }.
Record ufield := UField { u_attrs : list field_attr; u_ty : tyexpr }.
Inductive dfields :=
| Named (fs : list field)
| Unnamed (fs : list ufield)
| Unit.
Record variant := Variant { v_name : string; v_fields : dfields; v_disc : option Z }.
Inductive ddata :=
| Struct (fs : dfields)
| Enum (repr : nat) (vs : list variant)      (* repr: bytes of the discriminant, taken as unsigned; signed ones,
                                                which the library does not use, are not modelled *)
| Union.

(** [#[marshalable(..)]] on the type: the tokens between the parentheses. *)
Inductive token := TkPath (p : path) | TkComma | TkOther.
Inductive type_attr := AOther | AMarshalable (toks : list token).
Record decl := Decl { d_attrs : list type_attr; d_data : ddata }.

(** ** Generated code *)

(** [self.x], [self.0], or the variable [x] of a match arm. *)
Inductive place := PField (x : string) | PIndex (i : nat) | PVar (x : string).
(** Upper end of a loop: [self.x as usize] or a constant. *)
Inductive bound := BSelf (x : string) | BConst (n : N).
Inductive mstmt :=
| MOne (p : place)                           (* written += p.try_marshal(&mut buffer[written..])?; *)
| MLoop (n : bound) (x : string).            (* for i in 0..n { written += self.x[i].try_marshal(..)?; } *)
(** [x as usize] for a local [x], or a constant. *)
Inductive ubound := BLocal (x : string) | BMax (n : N).
Inductive ustmt :=
| ULet (x : string) (t : tyexpr)             (* let x = <t>::try_unmarshal(buffer)?; *)
| ULimit (x : string) (max : N)              (* if x as usize > max { return Err(ArrayLengthExceeded); } *)
| UArray (x : string) (dflt : val) (max : N) (* let mut x = [t::default(); max]; *)
| UFor (x : string) (n : ubound) (t : tyexpr). (* for i in x.iter_mut().take(n) { *i = t::try_unmarshal(buffer)?; } *)
(** [match self { Name::V(xs) => { body } .. }] *)
Record marm := MArm { ma_variant : string; ma_vars : list string; ma_body : list mstmt }.
(** [if selector == sel { body return Ok(Name::V(xs)); }] *)
Record uarm := UArm { ua_sel : Z; ua_body : list ustmt; ua_variant : string; ua_vars : list string }.
Inductive generated :=
| GStruct (ms : list mstmt) (us : list ustmt) (inst : list string)
| GEnum (ms : list marm) (us : list uarm)
| GTpm2b (buffer_name : string) (max : N)    (* the text of 204-291 *)
| GNoImpl.                                   (* no [impl Marshalable] *)

(** ** Errors *)
Inductive derr :=
| UnionNotSupported                (* 173-178 *)
| EnumNamedField                   (* 497-500 *)
| TwoAttributes                    (* 528-531 *)
| BadAttribute                     (* parse_args, 533 *)
| UnknownAttribute                 (* 540-543 *)
| NotAPath                         (* 546-549 *)
| AttributesNotAllowed             (* 552-555 *)
| QselfNotAllowed                  (* 558-561 *)
| LengthOnNonArray                 (* 573-576 *)
| LengthNotBefore                  (* 584-590 *)
| NoSelector                       (* 679-682 *)
| Tpm2bGeneral                     (* 305-317 *)
| Tpm2bFirst                       (* 319-333 *)
| Tpm2bSecond.                     (* 339-352 *)

(** [errors_to_error], 480-488: all messages combined. *)
Definition errors_to_error (es : list derr) : outcome (list derr) unit :=
  match es with [] => Ok tt | _ => Err es end.

(** ** Field attributes *)

(** [get_marshal_attribute], 523-564, with its loop over the attributes. *)
Fixpoint find_attr (found : option (path * attr_value)) (attrs : list field_attr)
    : outcome derr (option (path * attr_value)) :=
  match attrs with
  | [] => Ok found
  | FOther :: rest => find_attr found rest
  | FMalformed :: rest =>
      match found with Some _ => Err TwoAttributes | None => Err BadAttribute end
  | FNameValue k v :: rest =>
      match found with Some _ => Err TwoAttributes | None => find_attr (Some (k, v)) rest end
  end.
Definition get_marshal_attribute (attrs : list field_attr) (key : string) : outcome derr (option path) :=
  obind (find_attr None attrs) (fun a =>
  match a with
  | None => Ok None
  | Some (k, v) =>
      if negb (is_ident k key) then Err UnknownAttribute
      else match v with
           | EOther => Err NotAPath
           | EPath p has_attrs has_qself =>
               if has_attrs then Err AttributesNotAllowed
               else if has_qself then Err QselfNotAllowed
               else Ok (Some p)
           end
  end).

(** [length.get_ident().unwrap()] and [get_primitive], 412-413 and 581-595: the
    name, when it is among the fields seen so far that are no arrays and have no
    attribute. *)
Definition length_ident (p : path) (basic : list string) : outcome derr string :=
  match get_ident p with
  | None => Panic
  | Some x => if existsb (String.eqb x) basic then Ok x else Err LengthNotBefore
  end.

(** ** Marshalling code *)

(** [get_named_field_marshal], 405-434: the statement and the new
    [basic_field_types] (its keys). *)
Definition named_field_marshal (basic : list string) (f : field)
    : outcome derr (list string * mstmt) :=
  obind (get_marshal_attribute (f_attrs f) "length") (fun a =>
  match a with
  | Some p => omap (fun x => (basic, MLoop (BSelf x) (f_name f))) (length_ident p basic)
  | None =>
      match f_ty f with
      | TyArray n _ _ => Ok (basic, MLoop (BConst n) (f_name f))
      | _ => Ok (f_name f :: basic, MOne (PField (f_name f)))
      end
  end).

(** The loop shared by [get_named_fields_marshal], 436-452, and
    [get_named_fields_unmarshal], 636-651: statements and errors, both in order;
    a field in error does not change [basic_field_types]. *)
Fixpoint each_field {A} (gen : list string -> field -> outcome derr (list string * A))
    (basic : list string) (fs : list field) : outcome (list derr) (list derr * list A) :=
  match fs with
  | [] => Ok ([], [])
  | f :: rest =>
      match gen basic f with
      | Panic => Panic
      | Ok (basic', a) => omap (fun r => (fst r, a :: snd r)) (each_field gen basic' rest)
      | Err e => omap (fun r => (e :: fst r, snd r)) (each_field gen basic rest)
      end
  end.
Definition named_fields {A} (gen : list string -> field -> outcome derr (list string * A))
    (fs : list field) : outcome (list derr) (list A) :=
  obind (each_field gen [] fs) (fun r => omap (fun _ => snd r) (errors_to_error (fst r))).

(** [get_field_marshal_body], 454-471. *)
Definition field_marshal_body (fs : dfields) : outcome (list derr) (list mstmt) :=
  match fs with
  | Named fs => named_fields named_field_marshal fs
  | Unnamed fs => Ok (map (fun i => MOne (PIndex i)) (seq 0 (length fs)))
  | Unit => Ok []
  end.

(** The variables [f0], [f1], .. : [format!("f{i}")], 504, 659, 745. *)
Definition var (i : nat) : string := String.append "f" (NilEmpty.string_of_uint (Nat.to_uint i)).
Definition vars {A} (fs : list A) : list string := map var (seq 0 (length fs)).

(** [get_field_list], 729-755. *)
Definition field_list (fs : dfields) : list string :=
  match fs with
  | Named fs => map f_name fs
  | Unnamed fs => vars fs
  | Unit => []
  end.

(** [get_enum_marshal_body], 490-521. *)
Fixpoint enum_arms (vs : list variant) : list derr * list marm :=
  match vs with
  | [] => ([], [])
  | v :: rest =>
      let '(es, arms) := enum_arms rest in
      match v_fields v with
      | Unnamed fs => (es, MArm (v_name v) (field_list (v_fields v))
                              (map (fun x => MOne (PVar x)) (vars fs)) :: arms)
      | _ => (EnumNamedField :: es, arms)
      end
  end.
Definition enum_marshal_body (vs : list variant) : outcome (list derr) (list marm) :=
  omap (fun _ => snd (enum_arms vs)) (errors_to_error (fst (enum_arms vs))).

(** ** Unmarshalling code *)

(** [get_named_field_unmarshal], 597-634, with [get_array_default], 566-578. *)
Definition named_field_unmarshal (basic : list string) (f : field)
    : outcome derr (list string * list ustmt) :=
  let x := f_name f in
  obind (get_marshal_attribute (f_attrs f) "length") (fun a =>
  match a with
  | Some p =>
      match f_ty f with
      | TyArray n elem dflt =>
          omap (fun len => (basic, [ULimit len n; UArray x dflt n; UFor x (BLocal len) elem]))
               (length_ident p basic)
      | _ => Err LengthOnNonArray
      end
  | None =>
      match f_ty f with
      | TyArray n elem dflt => Ok (basic, [UArray x dflt n; UFor x (BMax n) elem])
      | t => Ok (x :: basic, [ULet x t])
      end
  end).

(** [get_field_unmarshal], 653-671. *)
Definition field_unmarshal (fs : dfields) : outcome (list derr) (list ustmt) :=
  match fs with
  | Named fs => omap (@concat ustmt) (named_fields named_field_unmarshal fs)
  | Unnamed fs => Ok (map (fun p => ULet (fst p) (u_ty (snd p))) (combine (vars fs) fs))
  | Unit => Ok []
  end.

(** [get_enum_unmarshal_body], 695-727: a variant without a selector ends the
    loop with that message alone ([get_selection], 673-684) (the [?] of line 708). *)
Fixpoint enum_uarms (es : list derr) (vs : list variant) : outcome (list derr) (list uarm) :=
  match vs with
  | [] => omap (fun _ => []) (errors_to_error es)
  | v :: rest =>
      match field_unmarshal (v_fields v) with
      | Panic => Panic
      | Err e => enum_uarms (es ++ e) rest
      | Ok body =>
          match v_disc v with
          | None => Err [NoSelector]
          | Some sel =>
              omap (cons (UArm sel body (v_name v) (field_list (v_fields v)))) (enum_uarms es rest)
          end
      end
  end.

(** ** Sized buffers *)

(** [derive_tpm2b_common], 293-356: the name and the length of the buffer. *)
Definition tpm2b_common (fs : dfields) : outcome (list derr) (string * N) :=
  match fs with
  | Named [first; second] =>
      if negb (String.eqb (f_name first) "size"
               && match f_ty first with TyPath p _ => is_ident p "u16" | _ => false end)
      then Err [Tpm2bFirst]
      else match f_ty second with
           | TyArray n (TyPath p _) _ =>
               if is_ident p "u8" then Ok (f_name second, n) else Err [Tpm2bSecond]
           | _ => Err [Tpm2bSecond]
           end
  | _ => Err [Tpm2bGeneral]
  end.

(** [has_marshalable_attr], 358-380: the loop over the tokens; finding the name
    ends the parser, and [parse_args_with] then fails when tokens are left;
    [unwrap_or(false)]. *)
Fixpoint parse_attr (name : string) (toks : list token) : bool :=
  match toks with
  | [] => false
  | TkPath p :: rest =>
      if is_ident p name then match rest with [] => true | _ => false end
      else match rest with
           | TkComma :: rest' => parse_attr name rest'
           | _ => parse_attr name rest
           end
  | _ => false
  end.
Definition has_marshalable_attr (name : string) (a : type_attr) : bool :=
  match a with AOther => false | AMarshalable toks => parse_attr name toks end.

(** ** The macro *)

(** [derive_tpm_marshal_inner], 133-202, [get_enum_impl], 382-403. *)
Definition derive (d : decl) : outcome (list derr) generated :=
  let tpm2b_simple := existsb (has_marshalable_attr "tpm2b_simple") (d_attrs d) in
  let tpm2b_struct := existsb (has_marshalable_attr "tpm2b_struct") (d_attrs d) in
  match d_data d with
  | Struct fs =>
      obind (field_marshal_body fs) (fun ms =>
      obind (field_unmarshal fs) (fun us =>
      if tpm2b_simple then omap (fun b => GTpm2b (fst b) (snd b)) (tpm2b_common fs)
      else if tpm2b_struct then Ok GNoImpl
      else Ok (GStruct ms us (field_list fs))))
  | Enum _ vs =>
      obind (enum_marshal_body vs) (fun ms =>
      omap (fun us => if tpm2b_simple || tpm2b_struct then GNoImpl else GEnum ms us)
           (enum_uarms [] vs))
  | Union => Err [UnionNotSupported]
  end.
