(** Model of the [marshalable] crate and of the code generated by
    [#[derive(Marshalable)]]. *)
From Coq Require Import String ZArith NArith List Lia Bool.
From Coq Require Import Init.Byte.
From Verif Require Import Prelude Types.
Import ListNotations.
Open Scope Z_scope.

(** marshalable/src/errors.rs:9-14 *)
Inductive merr : Type :=
| ArrayLengthExceeded
| UnexpectedEndOfBuffer
| UnknownSelector.

(** Marshalling: the mutated buffer and the number of bytes written. *)
Definition mres : Type := list byte * outcome merr nat.
(** Unmarshalling: the result and the unread rest of the [UnmarshalBuf]. *)
Definition ures (A : Type) : Type := outcome merr A * list byte.

(** [UnmarshalBuf::get], marshalable/src/lib.rs:78-86. *)
Definition buf_get (len : N) (buf : list byte) : option (list byte * list byte) :=
  if (N.of_nat (length buf) <? len)%N then None
  else Some (firstn (N.to_nat len) buf, skipn (N.to_nat len) buf).

(** [<[u8; M]>::try_unmarshal], marshalable/src/lib.rs:132-140. *)
Definition unm_bytes (m : N) (buf : list byte) : ures (list byte) :=
  match buf_get m buf with
  | Some (mine, rest) => (Ok mine, rest)
  | None => (Err UnexpectedEndOfBuffer, buf)
  end.

(** [<[u8; M]>::try_marshal], marshalable/src/lib.rs:142-149. *)
Definition mar_bytes (self buf : list byte) : mres :=
  if (length self <=? length buf)%nat
  then (overwrite self buf, Ok (length self))
  else (buf, Err UnexpectedEndOfBuffer).

(** [from_be_bytes] of the primitive integers, marshalable/src/lib.rs:99-120. *)
Definition int_of_be (sg : bool) (l : list byte) : Z :=
  let z := be_val l in
  if sg && (pow256 (length l) <=? 2 * z) then z - pow256 (length l) else z.

(** Integer [try_unmarshal], marshalable/src/lib.rs:104-107. *)
Definition unm_int (sg : bool) (k : nat) (buf : list byte) : ures Z :=
  let '(r, rest) := unm_bytes (N.of_nat k) buf in (omap (int_of_be sg) r, rest).

(** Integer [try_marshal], marshalable/src/lib.rs:109-111. *)
Definition mar_int (k : nat) (z : Z) (buf : list byte) : mres :=
  mar_bytes (be_bytes k z) buf.

(** One generated statement [written += x.try_marshal(&mut buffer[written..])?]
    (marshalable-derive/src/lib.rs:431, 460, 475-476): [Panic] if the slice
    start is out of range. *)
Definition mseq (f : list byte -> mres) (w : nat) (buf : list byte) : mres :=
  if (length buf <? w)%nat then (buf, Panic)
  else let '(sub, r) := f (skipn w buf) in
       (firstn w buf ++ sub, omap (fun n => (w + n)%nat) r).

(** Sequencing of statements: the [?] operator. *)
Definition mthen (r : mres) (k : nat -> list byte -> mres) : mres :=
  match r with
  | (buf, Ok w) => k w buf
  | (buf, Err e) => (buf, Err e)
  | (buf, Panic) => (buf, Panic)
  end.

(** The generated loop [for i in 0..cnt { written += self.arr[i].try_marshal(..)? }]
    (marshalable-derive/src/lib.rs:414-423): [Panic] when [i] reaches the
    array length. *)
Fixpoint mar_arr (f : val -> list byte -> mres) (cnt : N) (l : list val)
    (w : nat) (buf : list byte) : mres :=
  if (cnt =? 0)%N then (buf, Ok w)
  else match l with
       | [] => (buf, Panic)
       | v :: l' => mthen (mseq (f v) w buf) (mar_arr f (cnt - 1) l')
       end.

(** [tpm2b_simple] [try_marshal], marshalable-derive/src/lib.rs:277-286.
    Note [max] in the length test of line 281; the slices of line 284 panic
    when out of range. *)
Definition mar_tpm2b (max : N) (size : Z) (field buf : list byte) : mres :=
  match mar_int 2 size buf with
  | (buf1, Ok used) =>
      let rest := skipn used buf1 in
      let n := Z.to_N (size mod 65536) in
      if (N.max max (N.of_nat (length rest)) <? n)%N
      then (buf1, Err UnexpectedEndOfBuffer)
      else if (N.of_nat (length rest) <? n)%N || (N.of_nat (length field) <? n)%N
      then (buf1, Panic)
      else (firstn used buf1 ++ overwrite (firstn (N.to_nat n) field) rest,
            Ok (used + N.to_nat n)%nat)
  | (buf1, Err e) => (buf1, Err e)
  | (buf1, Panic) => (buf1, Panic)
  end.

(** [tpm2b_simple] [try_unmarshal], marshalable-derive/src/lib.rs:255-275. *)
Definition unm_tpm2b (max : N) (buf : list byte) : ures val :=
  match unm_int false 2 buf with
  | (Ok got, rest) =>
      match buf_get (Z.to_N got) rest with
      | None => (Err UnexpectedEndOfBuffer, rest)
      | Some (sized, rest') =>
          if (max <? N.of_nat (length sized))%N
          then (Err UnexpectedEndOfBuffer, rest')
          else (Ok (VTpm2b got (overwrite sized (repeat x00 (N.to_nat max)))), rest')
      end
  | (Err e, rest) => (Err e, rest)
  | (Panic, rest) => (Panic, rest)
  end.

(** [try_marshal].  A value that does not have the described type is a
    [Panic]; Rust's type checker excludes it and no theorem relies on it.
    - integers, unit, byte arrays: marshalable/src/lib.rs:99-150
    - named structs: marshalable-derive/src/lib.rs:405-452
    - tuple structs and enum variants: 454-471, 490-521
    - enums: 473-478 (discriminant, then variant)
    - split: base/src/lib.rs:775-789, 1181-1194, 1250-1260 *)
Fixpoint marshal (t : ty) (v : val) (buf : list byte) {struct t} : mres :=
  match t, v with
  | TInt _ k, VInt z => mar_int k z buf
  | TUnit, VUnit => (buf, Ok 0%nat)
  | TBytes _, VBytes l => mar_bytes l buf
  | TNamed fs, VStruct vs => marshal_fields [] fs vs 0 buf
  | TTuple ts, VStruct vs => marshal_tys ts vs 0 buf
  | TEnum k vrs, VEnum sel args =>
      mthen (mseq (mar_int k sel) 0 buf)
        (fun w b => mseq (marshal_variant vrs sel args) w b)
  | TTpm2b max, VTpm2b size field => mar_tpm2b max size field buf
  | TSplit pre k mid vrs, VStruct [VStruct a; VStruct b; VEnum sel args] =>
      mthen (marshal_tys pre a 0 buf)
        (fun w buf1 => mthen (mseq (mar_int k sel) w buf1)
          (fun w buf2 => mthen (marshal_tys mid b w buf2)
            (fun w buf3 => mseq (marshal_variant vrs sel args) w buf3)))
  | _, _ => (buf, Panic)
  end
with marshal_fields (env : lenv) (fs : fields) (vs : list val) (w : nat) (buf : list byte)
    {struct fs} : mres :=
  match fs, vs with
  | FNil, [] => (buf, Ok w)
  | FCons name KPlain t rest, v :: vs' =>
      mthen (mseq (marshal t v) w buf) (marshal_fields (bind_len name v env) rest vs')
  | FCons _ (KArr n) t rest, VArr l :: vs' =>
      mthen (mar_arr (marshal t) n l w buf) (marshal_fields env rest vs')
  | FCons _ (KLen _ len _) t rest, VArr l :: vs' =>
      match lookup_len len env with
      | Some c => mthen (mar_arr (marshal t) (usize c) l w buf) (marshal_fields env rest vs')
      | None => (buf, Panic)
      end
  | _, _ => (buf, Panic)
  end
with marshal_tys (ts : tys) (vs : list val) (w : nat) (buf : list byte) {struct ts} : mres :=
  match ts, vs with
  | TNil, [] => (buf, Ok w)
  | TCons t rest, v :: vs' => mthen (mseq (marshal t v) w buf) (marshal_tys rest vs')
  | _, _ => (buf, Panic)
  end
with marshal_variant (vrs : variants) (sel : Z) (args : list val) (buf : list byte)
    {struct vrs} : mres :=
  match vrs with
  | VNil => (buf, Panic)
  | VCons s ts rest => if sel =? s then marshal_tys ts args 0 buf
                       else marshal_variant rest sel args buf
  end.

(** Sequencing for unmarshalling (the [?] operator). *)
Definition uthen {A B} (r : ures A) (k : A -> list byte -> ures B) : ures B :=
  match r with
  | (Ok a, buf) => k a buf
  | (Err e, buf) => (Err e, buf)
  | (Panic, buf) => (Panic, buf)
  end.
Definition umap {A B} (f : A -> B) (r : ures A) : ures B := (omap f (fst r), snd r).

(** The generated loop over the first [m] array entries
    (marshalable-derive/src/lib.rs:609-613, 619-622). *)
Fixpoint unm_arr (f : list byte -> ures val) (m : nat) (buf : list byte) : ures (list val) :=
  match m with
  | O => (Ok [], buf)
  | S m' => uthen (f buf) (fun v buf1 => umap (cons v) (unm_arr f m' buf1))
  end.

(** [try_unmarshal].
    - primitives: marshalable/src/lib.rs:99-150
    - named structs: marshalable-derive/src/lib.rs:597-651
    - tuple structs, variants: 653-671
    - enums: 686-727 (an if-chain over the variants in order, then UnknownSelector)
    - split: base/src/lib.rs:791-802, 1195-1203, 1262-1269
    For [KLen] the array is pre-filled with the default (line 608) and the
    first [len] entries are replaced; for [KArr] all entries are replaced. *)
Fixpoint unmarshal (t : ty) (buf : list byte) {struct t} : ures val :=
  match t with
  | TInt sg k => umap VInt (unm_int sg k buf)
  | TUnit => (Ok VUnit, buf)
  | TBytes n => umap VBytes (unm_bytes n buf)
  | TNamed fs => umap VStruct (unmarshal_fields [] fs buf)
  | TTuple ts => umap VStruct (unmarshal_tys ts buf)
  | TEnum k vrs =>
      uthen (unm_int false k buf) (fun sel b => umap (VEnum sel) (unmarshal_variant vrs sel b))
  | TTpm2b max => unm_tpm2b max buf
  | TSplit pre k mid vrs =>
      uthen (unmarshal_tys pre buf) (fun a b1 =>
      uthen (unm_int false k b1) (fun sel b2 =>
      uthen (unmarshal_tys mid b2) (fun b b3 =>
      umap (fun args => VStruct [VStruct a; VStruct b; VEnum sel args])
           (unmarshal_variant vrs sel b3))))
  end
with unmarshal_fields (env : lenv) (fs : fields) (buf : list byte) {struct fs} : ures (list val) :=
  match fs with
  | FNil => (Ok [], buf)
  | FCons name KPlain t rest =>
      uthen (unmarshal t buf) (fun v b =>
      umap (cons v) (unmarshal_fields (bind_len name v env) rest b))
  | FCons _ (KArr n) t rest =>
      uthen (unm_arr (unmarshal t) (N.to_nat n) buf) (fun l b =>
      umap (cons (VArr l)) (unmarshal_fields env rest b))
  | FCons _ (KLen n len dflt) t rest =>
      match lookup_len len env with
      | None => (Panic, buf)
      | Some c =>
          if (n <? usize c)%N then (Err ArrayLengthExceeded, buf)
          else uthen (unm_arr (unmarshal t) (N.to_nat (usize c)) buf) (fun l b =>
               umap (cons (VArr (l ++ repeat dflt (N.to_nat n - length l))))
                    (unmarshal_fields env rest b))
      end
  end
with unmarshal_tys (ts : tys) (buf : list byte) {struct ts} : ures (list val) :=
  match ts with
  | TNil => (Ok [], buf)
  | TCons t rest =>
      uthen (unmarshal t buf) (fun v b => umap (cons v) (unmarshal_tys rest b))
  end
with unmarshal_variant (vrs : variants) (sel : Z) (buf : list byte) {struct vrs}
    : ures (list val) :=
  match vrs with
  | VNil => (Err UnknownSelector, buf)
  | VCons s ts rest => if sel =? s then unmarshal_tys ts buf
                       else unmarshal_variant rest sel buf
  end.
