(** Specification of the wire format, independent of buffers, cursors,
    errors and panics. *)
From Coq Require Import String ZArith NArith List Lia Bool.
From Coq Require Import Init.Byte.
From Verif Require Import Prelude Types.
Import ListNotations.
Open Scope Z_scope.

(** ** Types the macro accepts *)

(** Names of earlier integer fields, for [length = ...] attributes. *)
Definition bind_name (name : string) (kd : kind) (t : ty) (names : list string) : list string :=
  match kd, t with KPlain, TInt _ _ => name :: names | _, _ => names end.

(** ** Well-formed values of a type: what safe Rust code can construct without
    setting a public count field above the array length. *)
Definition len_ok (n : N) (len : string) (env : lenv) : bool :=
  match lookup_len len env with Some c => (usize c <=? n)%N | None => false end.

Fixpoint wf (t : ty) (v : val) {struct t} : bool :=
  match t, v with
  | TInt sg k, VInt z => in_range sg k z
  | TUnit, VUnit => true
  | TBytes n, VBytes l => (N.of_nat (length l) =? n)%N
  | TNamed fs, VStruct vs => wf_fields [] fs vs
  | TTuple ts, VStruct vs => wf_tys ts vs
  | TEnum _ vrs, VEnum sel args => wf_variant vrs sel args
  | TTpm2b max, VTpm2b size field =>
      in_range false 2 size && (Z.to_N size <=? max)%N && (N.of_nat (length field) =? max)%N
  | TSplit pre _ mid vrs, VStruct [VStruct a; VStruct b; VEnum sel args] =>
      wf_tys pre a && wf_tys mid b && wf_variant vrs sel args
  | _, _ => false
  end
with wf_fields (env : lenv) (fs : fields) (vs : list val) {struct fs} : bool :=
  match fs, vs with
  | FNil, [] => true
  | FCons name KPlain t rest, v :: vs' =>
      wf t v && wf_fields (bind_len name v env) rest vs'
  | FCons _ (KArr n) t rest, VArr l :: vs' =>
      (N.of_nat (length l) =? n)%N && forallb (wf t) l && wf_fields env rest vs'
  | FCons _ (KLen n len _) t rest, VArr l :: vs' =>
      (N.of_nat (length l) =? n)%N && forallb (wf t) l && len_ok n len env
        && wf_fields env rest vs'
  | _, _ => false
  end
with wf_tys (ts : tys) (vs : list val) {struct ts} : bool :=
  match ts, vs with
  | TNil, [] => true
  | TCons t rest, v :: vs' => wf t v && wf_tys rest vs'
  | _, _ => false
  end
with wf_variant (vrs : variants) (sel : Z) (args : list val) {struct vrs} : bool :=
  match vrs with
  | VNil => false
  | VCons s ts rest => if sel =? s then wf_tys ts args else wf_variant rest sel args
  end.

(** Well-formed type descriptions: integer widths are 1, 2, 4 or 8 bytes,
    selectors fit their width, a length attribute names an earlier integer
    field, the default is a value of the element type. *)
Definition int_width (k : nat) : bool :=
  (k =? 1)%nat || (k =? 2)%nat || (k =? 4)%nat || (k =? 8)%nat.

Fixpoint wf_ty (t : ty) : bool :=
  match t with
  | TInt _ k => int_width k
  | TUnit | TBytes _ | TTpm2b _ => true
  | TNamed fs => wf_ty_fields [] fs
  | TTuple ts => wf_ty_tys ts
  | TEnum k vrs => int_width k && wf_ty_variants k vrs
  | TSplit pre k mid vrs =>
      wf_ty_tys pre && wf_ty_tys mid && int_width k && wf_ty_variants k vrs
  end
with wf_ty_fields (names : list string) (fs : fields) : bool :=
  match fs with
  | FNil => true
  | FCons name kd t rest =>
      wf_ty t
      && (match kd with
          | KLen _ len dflt => existsb (String.eqb len) names && wf t dflt
          | _ => true
          end)
      && wf_ty_fields (bind_name name kd t names) rest
  end
with wf_ty_tys (ts : tys) : bool :=
  match ts with TNil => true | TCons t rest => wf_ty t && wf_ty_tys rest end
with wf_ty_variants (k : nat) (vrs : variants) : bool :=
  match vrs with
  | VNil => true
  | VCons s ts rest => in_range false k s && wf_ty_tys ts && wf_ty_variants k rest
  end.

(** ** Wire format

    Integers are big-endian; structs are the concatenation of their fields;
    a counted array contributes its first [count] elements; an enum is its
    selector followed by the selected member; a sized buffer is a two-byte
    size followed by that many bytes. *)
Definition counted (len : string) (env : lenv) (l : list val) : list val :=
  match lookup_len len env with
  | Some c => firstn (N.to_nat (usize c)) l
  | None => []
  end.

Fixpoint enc (t : ty) (v : val) {struct t} : list byte :=
  match t, v with
  | TInt _ k, VInt z => be_bytes k z
  | TBytes _, VBytes l => l
  | TNamed fs, VStruct vs => enc_fields [] fs vs
  | TTuple ts, VStruct vs => enc_tys ts vs
  | TEnum k vrs, VEnum sel args => be_bytes k sel ++ enc_variant vrs sel args
  | TTpm2b _, VTpm2b size field => be_bytes 2 size ++ firstn (Z.to_nat size) field
  | TSplit pre k mid vrs, VStruct [VStruct a; VStruct b; VEnum sel args] =>
      enc_tys pre a ++ be_bytes k sel ++ enc_tys mid b ++ enc_variant vrs sel args
  | _, _ => []
  end
with enc_fields (env : lenv) (fs : fields) (vs : list val) {struct fs} : list byte :=
  match fs, vs with
  | FCons name KPlain t rest, v :: vs' =>
      enc t v ++ enc_fields (bind_len name v env) rest vs'
  | FCons _ (KArr n) t rest, VArr l :: vs' =>
      flat_map (enc t) l ++ enc_fields env rest vs'
  | FCons _ (KLen n len _) t rest, VArr l :: vs' =>
      flat_map (enc t) (counted len env l) ++ enc_fields env rest vs'
  | _, _ => []
  end
with enc_tys (ts : tys) (vs : list val) {struct ts} : list byte :=
  match ts, vs with
  | TCons t rest, v :: vs' => enc t v ++ enc_tys rest vs'
  | _, _ => []
  end
with enc_variant (vrs : variants) (sel : Z) (args : list val) {struct vrs} : list byte :=
  match vrs with
  | VNil => []
  | VCons s ts rest => if sel =? s then enc_tys ts args else enc_variant rest sel args
  end.

(** ** Observable part of a value: bytes behind the size of a sized buffer are
    zeroed and array entries behind the count are the default.  Values built
    by [from_bytes], [new], [add] or [default] are already of this form. *)
Fixpoint canon (t : ty) (v : val) {struct t} : val :=
  match t, v with
  | TNamed fs, VStruct vs => VStruct (canon_fields [] fs vs)
  | TTuple ts, VStruct vs => VStruct (canon_tys ts vs)
  | TEnum _ vrs, VEnum sel args => VEnum sel (canon_variant vrs sel args)
  | TTpm2b max, VTpm2b size field =>
      VTpm2b size (firstn (Z.to_nat size) field ++ repeat x00 (N.to_nat max - Z.to_nat size))
  | TSplit pre _ mid vrs, VStruct [VStruct a; VStruct b; VEnum sel args] =>
      VStruct [VStruct (canon_tys pre a); VStruct (canon_tys mid b);
               VEnum sel (canon_variant vrs sel args)]
  | _, v => v
  end
with canon_fields (env : lenv) (fs : fields) (vs : list val) {struct fs} : list val :=
  match fs, vs with
  | FCons name KPlain t rest, v :: vs' =>
      canon t v :: canon_fields (bind_len name v env) rest vs'
  | FCons _ (KArr n) t rest, VArr l :: vs' =>
      VArr (map (canon t) l) :: canon_fields env rest vs'
  | FCons _ (KLen n len dflt) t rest, VArr l :: vs' =>
      VArr (map (canon t) (counted len env l)
            ++ repeat dflt (N.to_nat n - length (counted len env l)))
      :: canon_fields env rest vs'
  | _, vs => vs
  end
with canon_tys (ts : tys) (vs : list val) {struct ts} : list val :=
  match ts, vs with
  | TCons t rest, v :: vs' => canon t v :: canon_tys rest vs'
  | _, vs => vs
  end
with canon_variant (vrs : variants) (sel : Z) (args : list val) {struct vrs} : list val :=
  match vrs with
  | VNil => args
  | VCons s ts rest => if sel =? s then canon_tys ts args else canon_variant rest sel args
  end.

(** A value without hidden junk. *)
Definition canonical (t : ty) (v : val) : Prop := canon t v = v.

(** The selectors an enum declares. *)
Fixpoint selectors (vrs : variants) : list Z :=
  match vrs with VNil => [] | VCons s _ rest => s :: selectors rest end.
