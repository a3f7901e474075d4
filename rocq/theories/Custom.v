(** Derived types whose members have implementations of their own.

    "Types can also provide their own implementation if needed"
    (marshalable/src/lib.rs:26): a program can implement the trait [Marshalable]
    (30-36) for a type and use that type as a field, an array entry or a variant
    member of a type that derives it.  Here such an implementation is any pair of
    functions, which may keep state between calls and may break the trait's
    contract; the generated code around it is that of Marshal.v. *)
From Coq Require Import String ZArith NArith List Lia Bool.
From Coq Require Import Init.Byte.
From Verif Require Import Prelude Types Marshal.
Import ListNotations.
Open Scope Z_scope.

(** The trait [Marshalable], marshalable/src/lib.rs:30-36, implemented by hand.
    [W] is whatever its code reads and changes besides its arguments.  The
    buffer given to [try_marshal] is a slice, so it keeps its length; what
    [try_unmarshal] leaves in the [UnmarshalBuf] can be anything, as the code may
    replace it. *)
Record custom (W : Type) := {
  try_marshal : W -> val -> list byte -> W * mres;
  try_unmarshal : W -> list byte -> W * ures val
}.
Arguments try_marshal {W} _.
Arguments try_unmarshal {W} _.

(** What the derive macro sees, as [ty] of Types.v, but a member's type can be
    [CTheirs i], the [i]-th of the types implemented by hand.  [CLib t] is a type
    without such members.
    Simplification: the value of a hand-written type is a [val] and its
    [default()] is a constant, given with the field. *)
Inductive cty : Type :=
| CLib (t : ty)
| CTheirs (i : nat)
| CNamed (fs : cfields)
| CTuple (ts : ctys)
| CEnum (k : nat) (vs : cvariants)
with cfields : Type :=
| CFNil
| CFCons (name : string) (kd : kind) (t : cty) (rest : cfields)
with ctys : Type :=
| CTNil
| CTCons (t : cty) (rest : ctys)
with cvariants : Type :=
| CVNil
| CVCons (sel : Z) (args : ctys) (rest : cvariants).

Scheme cty_ind' := Induction for cty Sort Prop
with cfields_ind' := Induction for cfields Sort Prop
with ctys_ind' := Induction for ctys Sort Prop
with cvariants_ind' := Induction for cvariants Sort Prop.
Combined Scheme cty_mutind from cty_ind', cfields_ind', ctys_ind', cvariants_ind'.

Section Generated.
(** [theirs]: the hand-written implementations; [checked]: whether the program was
    built with overflow checks (debug builds: [+=] panics; release builds: it wraps). *)
Context {W : Type} (theirs : nat -> custom W) (checked : bool).

(** [written += n] on [usize], 64 bits (marshalable-derive/src/lib.rs:415, 422,
    431, 460, 475-476, 508). *)
Definition add_written (w n : nat) : outcome merr nat :=
  if (N.of_nat (w + n) <? 2 ^ 64)%N then Ok (w + n)%nat
  else if checked then Panic
  else Ok (N.to_nat (N.of_nat (w + n) mod 2 ^ 64)).

(** One generated statement [written += x.try_marshal(&mut buffer[written..])?]
    (marshalable-derive/src/lib.rs:415, 422, 431, 460, 475-476, 508). *)
Definition cseq (f : W -> list byte -> W * mres) (s : W) (w : nat) (buf : list byte) : W * mres :=
  if (length buf <? w)%nat then (s, (buf, Panic))
  else let '(s, (sub, r)) := f s (skipn w buf) in
       (s, (firstn w buf ++ sub, obind r (add_written w))).

(** The [?] operator. *)
Definition cthen (r : W * mres) (k : W -> nat -> list byte -> W * mres) : W * mres :=
  match r with
  | (s, (buf, Ok w)) => k s w buf
  | (s, (buf, Err e)) => (s, (buf, Err e))
  | (s, (buf, Panic)) => (s, (buf, Panic))
  end.

(** The generated loops [for i in 0..cnt], marshalable-derive/src/lib.rs:413-423. *)
Fixpoint cmar_arr (f : W -> val -> list byte -> W * mres) (cnt : N) (l : list val)
    (s : W) (w : nat) (buf : list byte) : W * mres :=
  if (cnt =? 0)%N then (s, (buf, Ok w))
  else match l with
       | [] => (s, (buf, Panic))
       | v :: l' => cthen (cseq (fun s => f s v) s w buf) (cmar_arr f (cnt - 1) l')
       end.

(** [try_marshal] of a derived type.  [CLib]: Marshal.v; named structs:
    marshalable-derive/src/lib.rs:405-452; tuple structs and variants: 454-471,
    490-521; enums: 473-478. *)
Fixpoint cmarshal (t : cty) (s : W) (v : val) (buf : list byte) {struct t} : W * mres :=
  match t, v with
  | CLib t, v => (s, marshal t v buf)
  | CTheirs i, v => try_marshal (theirs i) s v buf
  | CNamed fs, VStruct vs => cmarshal_fields [] fs vs s 0 buf
  | CTuple ts, VStruct vs => cmarshal_tys ts vs s 0 buf
  | CEnum k vrs, VEnum sel args =>
      cthen (cseq (fun s b => (s, mar_int k sel b)) s 0 buf)
        (cseq (cmarshal_variant vrs sel args))
  | _, _ => (s, (buf, Panic))
  end
with cmarshal_fields (env : lenv) (fs : cfields) (vs : list val) (s : W) (w : nat)
    (buf : list byte) {struct fs} : W * mres :=
  match fs, vs with
  | CFNil, [] => (s, (buf, Ok w))
  | CFCons name KPlain t rest, v :: vs' =>
      cthen (cseq (fun s => cmarshal t s v) s w buf)
        (cmarshal_fields (bind_len name v env) rest vs')
  | CFCons _ (KArr n) t rest, VArr l :: vs' =>
      cthen (cmar_arr (cmarshal t) n l s w buf) (cmarshal_fields env rest vs')
  | CFCons _ (KLen _ len _) t rest, VArr l :: vs' =>
      match lookup_len len env with
      | Some c =>
          cthen (cmar_arr (cmarshal t) (usize c) l s w buf) (cmarshal_fields env rest vs')
      | None => (s, (buf, Panic))
      end
  | _, _ => (s, (buf, Panic))
  end
with cmarshal_tys (ts : ctys) (vs : list val) (s : W) (w : nat) (buf : list byte) {struct ts}
    : W * mres :=
  match ts, vs with
  | CTNil, [] => (s, (buf, Ok w))
  | CTCons t rest, v :: vs' =>
      cthen (cseq (fun s => cmarshal t s v) s w buf) (cmarshal_tys rest vs')
  | _, _ => (s, (buf, Panic))
  end
with cmarshal_variant (vrs : cvariants) (sel : Z) (args : list val) (s : W) (buf : list byte)
    {struct vrs} : W * mres :=
  match vrs with
  | CVNil => (s, (buf, Panic))
  | CVCons d ts rest => if sel =? d then cmarshal_tys ts args s 0 buf
                        else cmarshal_variant rest sel args s buf
  end.

Definition cuthen {A B} (r : W * ures A) (k : W -> A -> list byte -> W * ures B) : W * ures B :=
  match r with
  | (s, (Ok a, buf)) => k s a buf
  | (s, (Err e, buf)) => (s, (Err e, buf))
  | (s, (Panic, buf)) => (s, (Panic, buf))
  end.
Definition cumap {A B} (f : A -> B) (r : W * ures A) : W * ures B := (fst r, umap f (snd r)).

(** The generated loops over array entries, marshalable-derive/src/lib.rs:609-613,
    619-622. *)
Fixpoint cunm_arr (f : W -> list byte -> W * ures val) (m : nat) (s : W) (buf : list byte)
    : W * ures (list val) :=
  match m with
  | O => (s, (Ok [], buf))
  | S m' => cuthen (f s buf) (fun s v b => cumap (cons v) (cunm_arr f m' s b))
  end.

(** [try_unmarshal] of a derived type.  Named structs:
    marshalable-derive/src/lib.rs:597-651; tuple structs and variants: 653-671;
    enums: 686-727. *)
Fixpoint cunmarshal (t : cty) (s : W) (buf : list byte) {struct t} : W * ures val :=
  match t with
  | CLib t => (s, unmarshal t buf)
  | CTheirs i => try_unmarshal (theirs i) s buf
  | CNamed fs => cumap VStruct (cunmarshal_fields [] fs s buf)
  | CTuple ts => cumap VStruct (cunmarshal_tys ts s buf)
  | CEnum k vrs =>
      cuthen (s, unm_int false k buf) (fun s sel b =>
      cumap (VEnum sel) (cunmarshal_variant vrs sel s b))
  end
with cunmarshal_fields (env : lenv) (fs : cfields) (s : W) (buf : list byte) {struct fs}
    : W * ures (list val) :=
  match fs with
  | CFNil => (s, (Ok [], buf))
  | CFCons name KPlain t rest =>
      cuthen (cunmarshal t s buf) (fun s v b =>
      cumap (cons v) (cunmarshal_fields (bind_len name v env) rest s b))
  | CFCons _ (KArr n) t rest =>
      cuthen (cunm_arr (cunmarshal t) (N.to_nat n) s buf) (fun s l b =>
      cumap (cons (VArr l)) (cunmarshal_fields env rest s b))
  | CFCons _ (KLen n len dflt) t rest =>
      match lookup_len len env with
      | None => (s, (Panic, buf))
      | Some c =>
          if (n <? usize c)%N then (s, (Err ArrayLengthExceeded, buf))
          else cuthen (cunm_arr (cunmarshal t) (N.to_nat (usize c)) s buf) (fun s l b =>
               cumap (cons (VArr (l ++ repeat dflt (N.to_nat n - length l))))
                     (cunmarshal_fields env rest s b))
      end
  end
with cunmarshal_tys (ts : ctys) (s : W) (buf : list byte) {struct ts} : W * ures (list val) :=
  match ts with
  | CTNil => (s, (Ok [], buf))
  | CTCons t rest =>
      cuthen (cunmarshal t s buf) (fun s v b => cumap (cons v) (cunmarshal_tys rest s b))
  end
with cunmarshal_variant (vrs : cvariants) (sel : Z) (s : W) (buf : list byte) {struct vrs}
    : W * ures (list val) :=
  match vrs with
  | CVNil => (s, (Err UnknownSelector, buf))
  | CVCons d ts rest => if sel =? d then cunmarshal_tys ts s buf
                        else cunmarshal_variant rest sel s buf
  end.

(** The generated implementation as an implementation of the trait. *)
Definition derived (t : cty) : custom W :=
  {| try_marshal := cmarshal t; try_unmarshal := cunmarshal t |}.
End Generated.

(** The library's code as an implementation of the trait. *)
Definition library {W} (t : ty) : custom W :=
  {| try_marshal := fun s v b => (s, marshal t v b);
     try_unmarshal := fun s b => (s, unmarshal t b) |}.
