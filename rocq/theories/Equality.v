(** Comparing values, and where values come from. *)
From Coq Require Import String ZArith NArith List Lia Bool.
From Coq Require Import Init.Byte.
From Verif Require Import Prelude Types Marshal WireSpec Layout Catalogue Tpm2b ListSpec Tpml Tpm2bFacts TpmlFacts.
Import ListNotations.
Open Scope Z_scope.

(** [==] as [#[derive(PartialEq)]] makes it on every type of base/src/lib.rs
    (35 to 1570) and base/src/commands.rs: all components, whole arrays
    included.  Two values of one type; the variants of an enum are told apart
    by their selectors. *)
Fixpoint derived_eq (a b : val) {struct a} : bool :=
  let all := fix all (xs ys : list val) {struct xs} : bool :=
    match xs, ys with
    | [], [] => true
    | x :: xs', y :: ys' => derived_eq x y && all xs' ys'
    | _, _ => false
    end in
  match a, b with
  | VInt x, VInt y => x =? y
  | VUnit, VUnit => true
  | VBytes x, VBytes y => if list_eq_dec Byte.byte_eq_dec x y then true else false
  | VStruct xs, VStruct ys => all xs ys
  | VArr xs, VArr ys => all xs ys
  | VEnum s xs, VEnum s' ys => (s =? s') && all xs ys
  | VTpm2b n x, VTpm2b n' y => (n =? n') && if list_eq_dec Byte.byte_eq_dec x y then true else false
  | _, _ => false
  end.

(** The members a selector chooses. *)
Fixpoint members (vrs : variants) (sel : Z) : option tys :=
  match vrs with
  | VNil => None
  | VCons s ts rest => if sel =? s then Some ts else members rest sel
  end.

(** How a program comes by a value of a type: it decodes it; it uses the
    functions of the sized buffers and of the lists; or it writes down a
    primitive, a structure or a variant with parts it has.  Where it writes
    down an array with a count of its own ([TpmsPcrSelection], 677, and
    [TpmsTaggedPcrSelect], 1398: public fields), the entries behind the count
    are left at their default. *)
Inductive built : ty -> val -> Prop :=
| BDecoded t b v rest : unmarshal t b = (Ok v, rest) -> built t v
| BInt sg k z : in_range sg k z = true -> built (TInt sg k) (VInt z)
| BUnit : built TUnit VUnit
| BBytes l : built (TBytes (N.of_nat (length l))) (VBytes l)
| BFromBytes max data v : from_bytes max data = Ok v -> built (TTpm2b max) v
| BSizedDefault max : built (TTpm2b max) (tpm2b_default max)
| BFromStruct t tb v b : In (t, tb) wrapped -> built t v -> from_struct t v = Ok b -> built tb b
| BToStruct t tb v b : In (t, tb) wrapped -> built tb b -> to_struct t b = Ok v -> built t v
| BList name cap t ops :
    In (name, cap, t) tpml_types -> built_all t (flat_map op_elements ops) ->
    built (tpml name cap t)
      (val_of_tpml (fst (tpml_run (N.to_nat cap) (zero_of t) (tpml_default (N.to_nat cap) (zero_of t)) ops)))
| BStruct fs vs : built_fields [] fs vs -> built (TNamed fs) (VStruct vs)
| BTuple ts vs : built_each ts vs -> built (TTuple ts) (VStruct vs)
| BVariant k vrs sel ts args : members vrs sel = Some ts -> built_each ts args -> built (TEnum k vrs) (VEnum sel args)
| BSplit pre k mid vrs sel ts a b args :
    built_each pre a -> built_each mid b -> members vrs sel = Some ts -> built_each ts args ->
    built (TSplit pre k mid vrs) (VStruct [VStruct a; VStruct b; VEnum sel args])
with built_each : tys -> list val -> Prop :=
| BNone : built_each TNil []
| BNext t rest v vs : built t v -> built_each rest vs -> built_each (TCons t rest) (v :: vs)
with built_all : ty -> list val -> Prop :=
| BEmpty t : built_all t []
| BMore t v vs : built t v -> built_all t vs -> built_all t (v :: vs)
with built_fields : lenv -> fields -> list val -> Prop :=
| BLast env : built_fields env FNil []
| BPlain env name t rest v vs :
    built t v -> built_fields (bind_len name v env) rest vs -> built_fields env (FCons name KPlain t rest) (v :: vs)
| BArray env name t rest l vs :
    built_all t l -> built_fields env rest vs ->
    built_fields env (FCons name (KArr (N.of_nat (length l))) t rest) (VArr l :: vs)
| BCounted env name n len dflt t rest l vs :
    lookup_len len env = Some (Z.of_nat (length l)) -> Z.of_nat (length l) < 2 ^ 64 -> (length l <= N.to_nat n)%nat ->
    built_all t l -> built_fields env rest vs ->
    built_fields env (FCons name (KLen n len dflt) t rest)
      (VArr (l ++ repeat dflt (N.to_nat n - length l)) :: vs).

Scheme built_m := Induction for built Sort Prop
with built_each_m := Induction for built_each Sort Prop
with built_all_m := Induction for built_all Sort Prop
with built_fields_m := Induction for built_fields Sort Prop.
Combined Scheme built_mutind from built_m, built_each_m, built_all_m, built_fields_m.
