(** Meaning of the generated code of Derive.v: an interpreter of its statements.
    [Panic] also stands for code that rustc rejects (an unknown name, [as usize]
    of something that is no integer, a local that hides the parameter
    [buffer]). *)
From Coq Require Import String ZArith NArith List Lia Bool.
From Coq Require Import Init.Byte.
From Verif Require Import Prelude Types Marshal Derive.
Import ListNotations.
Local Open Scope string_scope.
Local Open Scope list_scope.
Open Scope Z_scope.

(** The [Marshalable] implementation a type expression resolves to: an array has
    one only if it is of bytes (marshalable/src/lib.rs:131). *)
Definition impl_of (t : tyexpr) : option ty :=
  match t with
  | TyPath _ t | TyOther t => Some t
  | TyArray n (TyPath ["u8"] _) _ => Some (TBytes n)
  | TyArray _ _ _ => None
  end.
(** [T::default()], [T::try_unmarshal(buffer)]: only a path may stand before [::]. *)
Definition path_impl (t : tyexpr) : option ty :=
  match t with TyPath _ t => Some t | _ => None end.

(** ** [try_marshal] *)

(** What a place denotes: its declared type and its value. *)
Definition places := place -> option (tyexpr * val).

(** [for i in i..n { written += l[i].try_marshal(&mut buffer[written..])?; }];
    [fuel] must exceed the number of elements left.  Lines 415-424 of
    marshalable-derive/src/lib.rs. *)
Fixpoint index_loop (fuel : nat) (f : val -> list byte -> mres) (n : N) (l : list val) (i : nat)
    (w : nat) (buf : list byte) : mres :=
  match fuel with
  | O => (buf, Panic)
  | S fuel =>
      if (N.of_nat i <? n)%N
      then match nth_error l i with
           | None => (buf, Panic)
           | Some v => mthen (mseq (f v) w buf) (index_loop fuel f n l (S i))
           end
      else (buf, Ok w)
  end.

(** The statements of 415-424 and 431, and of 454-471 for unnamed fields. *)
Definition run_mstmt (env : places) (s : mstmt) (w : nat) (buf : list byte) : mres :=
  match s with
  | MOne p =>
      match env p with
      | Some (te, v) =>
          match impl_of te with Some t => mseq (marshal t v) w buf | None => (buf, Panic) end
      | None => (buf, Panic)
      end
  | MLoop b x =>
      let n := match b with
               | BConst n => Some n
               | BSelf y => match env (PField y) with Some (_, VInt z) => Some (usize z) | _ => None end
               end in
      match n, env (PField x) with
      | Some n, Some (TyArray _ elem _, VArr l) =>
          match impl_of elem with
          | Some t => index_loop (S (length l)) (marshal t) n l 0 w buf
          | None => (buf, Panic)
          end
      | _, _ => (buf, Panic)
      end
  end.
Fixpoint run_mstmts (env : places) (ss : list mstmt) (w : nat) (buf : list byte) : mres :=
  match ss with
  | [] => (buf, Ok w)
  | s :: ss => mthen (run_mstmt env s w buf) (run_mstmts env ss)
  end.

(** The fields of a struct, and the variables of a match arm. *)
Fixpoint field_place (fs : list field) (vs : list val) (x : string) : option (tyexpr * val) :=
  match fs, vs with
  | f :: fs, v :: vs => if String.eqb (f_name f) x then Some (f_ty f, v) else field_place fs vs x
  | _, _ => None
  end.
Definition struct_places (fs : dfields) (vs : list val) : places := fun p =>
  match fs, p with
  | Named fs, PField x => field_place fs vs x
  | Unnamed fs, PIndex i =>
      match nth_error fs i, nth_error vs i with
      | Some f, Some v => Some (u_ty f, v)
      | _, _ => None
      end
  | _, _ => None
  end.
Fixpoint var_place (xs : list string) (fs : list ufield) (vs : list val) (x : string)
    : option (tyexpr * val) :=
  match xs, fs, vs with
  | y :: xs, f :: fs, v :: vs => if String.eqb y x then Some (u_ty f, v) else var_place xs fs vs x
  | _, _, _ => None
  end.
Definition arm_places (xs : list string) (fs : list ufield) (vs : list val) : places := fun p =>
  match p with PVar x => var_place xs fs vs x | _ => None end.

(** The variant a value belongs to, by its discriminant. *)
Definition variant_of (vs : list variant) (sel : Z) : option variant :=
  find (fun v => match v_disc v with Some s => s =? sel | None => false end) vs.
Definition variant_named (vs : list variant) (name : string) : option variant :=
  find (fun v => String.eqb (v_name v) name) vs.

(** [try_marshal_variant], 382-403 and 490-521: the first arm for the value's
    variant. *)
Definition run_variant (vs : list variant) (arms : list marm) (sel : Z) (args : list val)
    (buf : list byte) : mres :=
  match variant_of vs sel with
  | Some v =>
      match find (fun a => String.eqb (ma_variant a) (v_name v)) arms, v_fields v with
      | Some a, Unnamed fs => run_mstmts (arm_places (ma_vars a) fs args) (ma_body a) 0 buf
      | _, _ => (buf, Panic)
      end
  | None => (buf, Panic)
  end.

(** The generated [try_marshal], lib.rs:193-197, 473-478 and 277-286. *)
Definition run_marshal (d : decl) (g : generated) (v : val) (buf : list byte) : mres :=
  match d_data d, g, v with
  | Struct fs, GStruct ms _ _, VStruct vs => run_mstmts (struct_places fs vs) ms 0 buf
  | Enum k vs, GEnum arms _, VEnum sel args =>
      mthen (mseq (mar_int k sel) 0 buf) (fun w b => mseq (run_variant vs arms sel args) w b)
  | Struct _, GTpm2b _ max, VTpm2b size field => mar_tpm2b max size field buf
  | _, _, _ => (buf, Panic)
  end.

(** ** [try_unmarshal] *)

(** Local variables, the latest first. *)
Definition locals := list (string * val).
Fixpoint local (x : string) (ls : locals) : option val :=
  match ls with
  | [] => None
  | (y, v) :: ls => if String.eqb y x then Some v else local x ls
  end.
Fixpoint assign (x : string) (v : val) (ls : locals) : locals :=
  match ls with
  | [] => []
  | (y, w) :: ls => if String.eqb y x then (y, v) :: ls else (y, w) :: assign x v ls
  end.

(** [for i in l.iter_mut().take(n) { *i = t::try_unmarshal(buffer)?; }], 613-615 and
    622-624. *)
Fixpoint fill (f : list byte -> ures val) (n : N) (l : list val) (buf : list byte) : ures (list val) :=
  match l with
  | [] => (Ok [], buf)
  | v :: l => if (n =? 0)%N then (Ok (v :: l), buf)
              else uthen (f buf) (fun v b => umap (cons v) (fill f (n - 1) l b))
  end.

(** The statements of 609-631 and 653-671. *)
Definition run_ustmt (s : ustmt) (ls : locals) (buf : list byte) : ures locals :=
  match s with
  | ULet x t =>
      match local "buffer" ls, impl_of t with
      | None, Some t => umap (fun v => (x, v) :: ls) (unmarshal t buf)
      | _, _ => (Panic, buf)
      end
  | ULimit x max =>
      match local x ls with
      | Some (VInt z) => if (max <? usize z)%N then (Err ArrayLengthExceeded, buf) else (Ok ls, buf)
      | _ => (Panic, buf)
      end
  | UArray x dflt max => (Ok ((x, VArr (repeat dflt (N.to_nat max))) :: ls), buf)
  | UFor x b t =>
      let n := match b with
               | BMax n => Some n
               | BLocal y => match local y ls with Some (VInt z) => Some (usize z) | _ => None end
               end in
      match local "buffer" ls, path_impl t, n, local x ls with
      | None, Some t, Some n, Some (VArr l) =>
          umap (fun l => assign x (VArr l) ls) (fill (unmarshal t) n l buf)
      | _, _, _, _ => (Panic, buf)
      end
  end.
Fixpoint run_ustmts (ss : list ustmt) (ls : locals) (buf : list byte) : ures locals :=
  match ss with
  | [] => (Ok ls, buf)
  | s :: ss => uthen (run_ustmt s ls buf) (run_ustmts ss)
  end.
(** The variables named in a constructor, 729-755. *)
Fixpoint gather (xs : list string) (ls : locals) : option (list val) :=
  match xs with
  | [] => Some []
  | x :: xs =>
      match local x ls, gather xs ls with
      | Some v, Some vs => Some (v :: vs)
      | _, _ => None
      end
  end.
Definition construct (xs : list string) (r : ures locals) : ures (list val) :=
  uthen r (fun ls b => match gather xs ls with Some vs => (Ok vs, b) | None => (Panic, b) end).

(** [try_unmarshal_variant], lib.rs:395-400 and 695-727. *)
Fixpoint run_uarms (vs : list variant) (arms : list uarm) (sel : Z) (buf : list byte) : ures val :=
  match arms with
  | [] => (Err UnknownSelector, buf)
  | a :: arms =>
      if sel =? ua_sel a
      then match variant_named vs (ua_variant a) with
           | Some v =>
               match v_disc v with
               | Some s => umap (VEnum s) (construct (ua_vars a) (run_ustmts (ua_body a) [] buf))
               | None => (Panic, buf)
               end
           | None => (Panic, buf)
           end
      else run_uarms vs arms sel buf
  end.

(** The generated [try_unmarshal], lib.rs:189-191, 154-157, 686-693 and 255-275. *)
Definition run_unmarshal (d : decl) (g : generated) (buf : list byte) : ures val :=
  match d_data d, g with
  | Struct fs, GStruct _ us inst => umap VStruct (construct inst (run_ustmts us [] buf))
  | Enum k vs, GEnum _ arms => uthen (unm_int false k buf) (fun sel b => run_uarms vs arms sel b)
  | Struct _, GTpm2b _ max => unm_tpm2b max buf
  | _, _ => (Panic, buf)
  end.
