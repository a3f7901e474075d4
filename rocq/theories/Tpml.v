(** Model of the list operations generated by [impl_tpml!],
    base/src/lib.rs:1529-1572. *)
From Coq Require Import String ZArith NArith List Lia Bool.
From Coq Require Import Init.Byte.
From Verif Require Import Prelude Types Errors ListSpec.
Import ListNotations.
Open Scope Z_scope.

(** A TPML value: the [count] field (u32) and the array.  [val_of_tpml] is the
    same value in the form the marshalling model uses. *)
Record tpml_val := { count_ : Z; list_ : list val }.
Definition val_of_tpml (x : tpml_val) : val := VStruct [VInt (count_ x); VArr (list_ x)].

(** [default], 1533-1539. *)
Definition tpml_default (cap : nat) (dflt : val) : tpml_val :=
  {| count_ := 0; list_ := repeat dflt cap |}.

(** [count], 1563-1565. *)
Definition tpml_count (x : tpml_val) : nat := N.to_nat (usize (count_ x)).

(** Assignment to [arr[i]]: panics when out of range. *)
Fixpoint set_nth (i : nat) (e : val) (l : list val) : option (list val) :=
  match l, i with
  | [], _ => None
  | _ :: l', O => Some (e :: l')
  | x :: l', S i' => option_map (cons x) (set_nth i' e l')
  end.

(** [new], 1542-1551.  [elements.len() as u32] keeps 32 bits; the slice copy
    cannot fail after the check. *)
Definition tpml_new (cap : nat) (dflt : val) (elements : list val) : outcome Z tpml_val :=
  if (cap <? length elements)%nat then Err rc_Size
  else Ok {| count_ := Z.of_nat (length elements) mod 2 ^ 32;
             list_ := elements ++ skipn (length elements) (repeat dflt cap) |}.

(** [add], 1553-1561: the list after the call, and the result.  [count += 1]
    is an overflow check in debug builds; it wraps in release builds, modelled
    as [Panic] here. *)
Definition tpml_add (e : val) (x : tpml_val) : tpml_val * outcome Z unit :=
  if (length (list_ x) <=? tpml_count x)%nat then (x, Err rc_Size)
  else match set_nth (tpml_count x) e (list_ x) with
       | None => (x, Panic)
       | Some l =>
           if count_ x + 1 <? 2 ^ 32
           then ({| count_ := count_ x + 1; list_ := l |}, Ok tt)
           else ({| count_ := count_ x; list_ := l |}, Panic)
       end.

(** The accessor, 1567-1569: a slice [..min(count, capacity)], panics if the
    array is shorter than that. *)
Definition tpml_elements (cap : nat) (x : tpml_val) : outcome Z (list val) :=
  let m := Nat.min (tpml_count x) cap in
  if (length (list_ x) <? m)%nat then Panic else Ok (firstn m (list_ x)).

(** One call on a list variable, and a sequence of calls.  A panic ends the
    program; later observations are all [ObsPanic]. *)
Definition tpml_step (cap : nat) (dflt : val) (x : tpml_val) (op : list_op val)
    : tpml_val * list_obs val :=
  match op with
  | OpNew es => match tpml_new cap dflt es with
                | Ok y => (y, ObsDone)
                | Err e => (x, ObsErr e)
                | Panic => (x, ObsPanic)
                end
  | OpAdd e => match tpml_add e x with
               | (y, Ok _) => (y, ObsDone)
               | (y, Err c) => (y, ObsErr c)
               | (y, Panic) => (y, ObsPanic)
               end
  | OpCount => (x, ObsCount (tpml_count x))
  | OpElements => (x, match tpml_elements cap x with
                      | Ok l => ObsElements l
                      | Err c => ObsErr c
                      | Panic => ObsPanic
                      end)
  end.
Fixpoint tpml_run (cap : nat) (dflt : val) (x : tpml_val) (ops : list (list_op val))
    : tpml_val * list (list_obs val) :=
  match ops with
  | [] => (x, [])
  | op :: ops' =>
      let '(x1, o) := tpml_step cap dflt x op in
      let '(x2, os) := tpml_run cap dflt x1 ops' in (x2, o :: os)
  end.
