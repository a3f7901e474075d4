(** What [#[derive(Marshalable)]] is documented to do (marshalable-derive/src/
    lib.rs:107-123): which declarations it takes, and the type each stands for. *)
From Coq Require Import String ZArith NArith List Lia Bool.
From Verif Require Import Prelude Types Derive DeriveRun.
Import ListNotations.
Local Open Scope string_scope.
Local Open Scope list_scope.
Open Scope Z_scope.

(** ** Accepted declarations *)

(** The [#[marshalable(..)]] attributes among the attributes of a field. *)
Definition marshalable_attrs (f : field) : list field_attr :=
  filter (fun a => match a with FOther => false | _ => true end) (f_attrs f).
(** Either there is none, or there is one, and it is [length = x]. *)
Definition no_length (f : field) : Prop := marshalable_attrs f = [].
Definition has_length (f : field) (x : string) : Prop :=
  marshalable_attrs f = [FNameValue ["length"] (EPath [x] false false)].
Definition is_array (f : field) : Prop := exists n elem dflt, f_ty f = TyArray n elem dflt.

(** A field that follows the fields [before]: without attribute; or an array
    with [length = x], where [x] is an earlier field, not an array and without
    attribute. *)
Definition field_ok (before : list field) (f : field) : Prop :=
  no_length f
  \/ is_array f
     /\ exists x g, has_length f x /\ In g before /\ f_name g = x /\ no_length g /\ ~ is_array g.
Definition fields_ok (fs : dfields) : Prop :=
  match fs with
  | Named fs => forall before f after, fs = before ++ f :: after -> field_ok before f
  | Unnamed _ | Unit => True
  end.
Definition variant_ok (v : variant) : Prop :=
  (exists fs, v_fields v = Unnamed fs) /\ exists sel, v_disc v = Some sel.
(** The two fields of a sized buffer. *)
Definition sized_buffer (fs : dfields) (name : string) (max : N) : Prop :=
  exists a1 a2 t e dflt, fs = Named [
    Field "size" a1 (TyPath ["u16"] t); Field name a2 (TyArray max (TyPath ["u8"] e) dflt)].

(** The type has [#[marshalable(.., name)]]: the name alone or last in a list. *)
Definition marked (d : decl) (name : string) : Prop :=
  exists toks, In (AMarshalable toks) (d_attrs d)
  /\ exists others : list (path * bool),
       toks = flat_map (fun o => TkPath (fst o) :: (if snd o : bool then [TkComma] else [])) others
              ++ [TkPath [name]]
       /\ Forall (fun o => fst o <> [name]) others.

(** ** The type a declaration stands for *)

Definition describe_field (f : field) : option (kind * ty) :=
  match f_ty f with
  | TyArray n elem dflt =>
      match path_impl elem with
      | None => None
      | Some t =>
          match marshalable_attrs f with
          | [FNameValue _ (EPath [x] _ _)] => Some (KLen n x dflt, t)
          | _ => Some (KArr n, t)
          end
      end
  | t => match impl_of t with Some t => Some (KPlain, t) | None => None end
  end.
Fixpoint describe_named (fs : list field) : option fields :=
  match fs with
  | [] => Some FNil
  | f :: fs =>
      match describe_field f, describe_named fs with
      | Some (k, t), Some rest => Some (FCons (f_name f) k t rest)
      | _, _ => None
      end
  end.
Fixpoint describe_unnamed (fs : list ufield) : option tys :=
  match fs with
  | [] => Some TNil
  | f :: fs =>
      match impl_of (u_ty f), describe_unnamed fs with
      | Some t, Some rest => Some (TCons t rest)
      | _, _ => None
      end
  end.
Fixpoint describe_variants (vs : list variant) : option variants :=
  match vs with
  | [] => Some VNil
  | v :: vs =>
      match v_fields v, v_disc v with
      | Unnamed fs, Some s =>
          match describe_unnamed fs, describe_variants vs with
          | Some ts, Some rest => Some (VCons s ts rest)
          | _, _ => None
          end
      | _, _ => None
      end
  end.
Definition structure_of (d : decl) : option ty :=
  match d_data d with
  | Struct (Named fs) => option_map TNamed (describe_named fs)
  | Struct (Unnamed fs) => option_map TTuple (describe_unnamed fs)
  | Struct Unit => Some (TTuple TNil)
  | Enum k vs => option_map (TEnum k) (describe_variants vs)
  | Union => None
  end.
(** A type marked [tpm2b_simple] is a sized buffer; one marked [tpm2b_struct]
    alone gets no implementation; every other is read field by field. *)
Definition describes (d : decl) (t : ty) : Prop :=
  marked d "tpm2b_simple"
  /\ (exists fs name max, d_data d = Struct fs /\ sized_buffer fs name max /\ t = TTpm2b max)
  \/ ~ marked d "tpm2b_simple" /\ ~ marked d "tpm2b_struct" /\ structure_of d = Some t.

(** What rustc demands besides: different names for fields and for variants,
    and, where the code is generated field by field, no field called [buffer]
    (its local variable would hide the parameter). *)
Definition rust_ok (d : decl) : Prop :=
  match d_data d with
  | Struct (Named fs) =>
      NoDup (map f_name fs) /\ (~ marked d "tpm2b_simple" -> ~ In "buffer" (map f_name fs))
  | Enum _ vs => NoDup (map v_name vs)
  | _ => True
  end.

(** A value of the declared type has as many components as were declared. *)
Definition arity (fs : dfields) : nat :=
  match fs with Named fs => length fs | Unnamed fs => length fs | Unit => 0 end.
Definition shaped (d : decl) (v : val) : Prop :=
  match d_data d, v with
  | Struct fs, VStruct vs => length vs = arity fs
  | Struct _, VTpm2b _ _ => marked d "tpm2b_simple"
  | Enum _ vs, VEnum sel args =>
      exists x, In x vs /\ v_disc x = Some sel /\ length args = arity (v_fields x)
      /\ forall y, In y vs -> v_disc y = Some sel -> y = x
  | _, _ => False
  end.

(** ** Acceptance *)
Definition accepted (d : decl) : Prop :=
  match d_data d with
  | Struct fs =>
      fields_ok fs /\ (marked d "tpm2b_simple" -> exists name max, sized_buffer fs name max)
  | Enum _ vs => forall v, In v vs -> variant_ok v
  | Union => False
  end.
(** Paths given as [length] have one segment. *)
Definition simple_length (f : field) : Prop :=
  forall k p a q, In (FNameValue k (EPath p a q)) (f_attrs f) -> exists x, p = [x].
Definition simple_lengths (fs : dfields) : Prop :=
  match fs with Named fs => forall f, In f fs -> simple_length f | _ => True end.
