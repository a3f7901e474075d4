(** Specification of a list with a fixed capacity, against which the TPML
    types are checked.  No arrays, counts or integers of fixed width. *)
From Coq Require Import ZArith List Bool.
From Verif Require Import Prelude.
Import ListNotations.

(** The calls a program can make on a list variable. *)
Inductive list_op (A : Type) :=
| OpNew (es : list A)     (* x = T::new(es)?  : x is unchanged on error *)
| OpAdd (e : A)           (* x.add(e) *)
| OpCount                 (* x.count() *)
| OpElements.             (* the accessor *)
Arguments OpNew {A}. Arguments OpAdd {A}. Arguments OpCount {A}. Arguments OpElements {A}.

(** What the program sees.  The error carries the TPM response code. *)
Inductive list_obs (A : Type) :=
| ObsDone
| ObsErr (rc : Z)
| ObsCount (n : nat)
| ObsElements (es : list A)
| ObsPanic.
Arguments ObsDone {A}. Arguments ObsErr {A}. Arguments ObsCount {A}.
Arguments ObsElements {A}. Arguments ObsPanic {A}.

Definition TPM_RC_SIZE : Z := 0x095.

Section Spec.
  Context {A : Type} (cap : nat).

  Definition spec_step (l : list A) (op : list_op A) : list A * list_obs A :=
    match op with
    | OpNew es => if (length es <=? cap)%nat then (es, ObsDone) else (l, ObsErr TPM_RC_SIZE)
    | OpAdd e => if (length l <? cap)%nat then (l ++ [e], ObsDone) else (l, ObsErr TPM_RC_SIZE)
    | OpCount => (l, ObsCount (length l))
    | OpElements => (l, ObsElements l)
    end.

  Fixpoint spec_run (l : list A) (ops : list (list_op A)) : list A * list (list_obs A) :=
    match ops with
    | [] => (l, [])
    | op :: ops' =>
        let '(l1, o) := spec_step l op in
        let '(l2, os) := spec_run l1 ops' in (l2, o :: os)
    end.
End Spec.
