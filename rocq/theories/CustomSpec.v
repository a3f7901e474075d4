(** What it means that an implementation of [Marshalable] keeps the trait's
    contract (marshalable/src/lib.rs:30-36), and the format and the values of a
    derived type, given those of its members. *)
From Coq Require Import String ZArith NArith List Lia Bool.
From Coq Require Import Init.Byte.
From Verif Require Import Prelude Types Marshal WireSpec Custom.
Import ListNotations.
Open Scope Z_scope.

(** Slices are at most [isize::MAX] bytes long. *)
Definition slice (b : list byte) : Prop := (N.of_nat (length b) < 2 ^ 63)%N.

(** "Marshals self into the prefix of buffer.  Returns the number of bytes used":
    a value [v] that is [good] becomes the bytes [e v], in any buffer with room for
    them and in no other, and the rest of the buffer stays. *)
Definition marshals {W} (c : custom W) (good : val -> Prop) (e : val -> list byte) : Prop :=
  forall s v buf, good v -> slice buf ->
    if (length (e v) <=? length buf)%nat
    then snd (try_marshal c s v buf) = (e v ++ skipn (length (e v)) buf, Ok (length (e v)))
    else is_ok (snd (snd (try_marshal c s v buf))) = false.

(** "Unmarshals self from the prefix of buffer": those bytes, followed by
    anything, are read back as the value and nothing after them is taken. *)
Definition unmarshals {W} (c : custom W) (good : val -> Prop) (e : val -> list byte) : Prop :=
  forall s v rest, good v -> snd (try_unmarshal c s (e v ++ rest)) = (Ok v, rest).

(** Nothing else is accepted. *)
Definition strict {W} (c : custom W) (good : val -> Prop) (e : val -> list byte) : Prop :=
  forall s b v rest, snd (try_unmarshal c s b) = (Ok v, rest) -> good v /\ b = e v ++ rest.

(** Decoding returns, and what is left is the end of what was given. *)
Definition total {W} (c : custom W) : Prop :=
  forall s b, is_panic (fst (snd (try_unmarshal c s b))) = false
    /\ exists consumed, b = consumed ++ snd (snd (try_unmarshal c s b)).

Section Format.
(** The values and encodings of the hand-written types. *)
Context (good : nat -> val -> Prop) (e : nat -> val -> list byte).

(** The wire format of a derived type: its members one after another, the first
    [count] entries of a counted array, the selector before a variant's members. *)
Fixpoint cenc (t : cty) (v : val) {struct t} : list byte :=
  match t, v with
  | CLib t, v => enc t v
  | CTheirs i, v => e i v
  | CNamed fs, VStruct vs => cenc_fields [] fs vs
  | CTuple ts, VStruct vs => cenc_tys ts vs
  | CEnum k vrs, VEnum sel args => be_bytes k sel ++ cenc_variant vrs sel args
  | _, _ => []
  end
with cenc_fields (env : lenv) (fs : cfields) (vs : list val) {struct fs} : list byte :=
  match fs, vs with
  | CFCons name KPlain t rest, v :: vs' =>
      cenc t v ++ cenc_fields (bind_len name v env) rest vs'
  | CFCons _ (KArr n) t rest, VArr l :: vs' =>
      flat_map (cenc t) l ++ cenc_fields env rest vs'
  | CFCons _ (KLen n len _) t rest, VArr l :: vs' =>
      flat_map (cenc t) (counted len env l) ++ cenc_fields env rest vs'
  | _, _ => []
  end
with cenc_tys (ts : ctys) (vs : list val) {struct ts} : list byte :=
  match ts, vs with
  | CTCons t rest, v :: vs' => cenc t v ++ cenc_tys rest vs'
  | _, _ => []
  end
with cenc_variant (vrs : cvariants) (sel : Z) (args : list val) {struct vrs} : list byte :=
  match vrs with
  | CVNil => []
  | CVCons d ts rest => if sel =? d then cenc_tys ts args else cenc_variant rest sel args
  end.

(** The values of a derived type: every member is good, a count is at most the
    size of its array, and the entries behind the count are the default. *)
Fixpoint cgood (t : cty) (v : val) {struct t} : Prop :=
  match t, v with
  | CLib t, v => wf t v = true /\ canonical t v
  | CTheirs i, v => good i v
  | CNamed fs, VStruct vs => cgood_fields [] fs vs
  | CTuple ts, VStruct vs => cgood_tys ts vs
  | CEnum _ vrs, VEnum sel args => cgood_variant vrs sel args
  | _, _ => False
  end
with cgood_fields (env : lenv) (fs : cfields) (vs : list val) {struct fs} : Prop :=
  match fs, vs with
  | CFNil, [] => True
  | CFCons name KPlain t rest, v :: vs' =>
      cgood t v /\ cgood_fields (bind_len name v env) rest vs'
  | CFCons _ (KArr n) t rest, VArr l :: vs' =>
      N.of_nat (length l) = n /\ Forall (cgood t) l /\ cgood_fields env rest vs'
  | CFCons _ (KLen n len dflt) t rest, VArr l :: vs' =>
      (exists c, lookup_len len env = Some c /\ (usize c <= n)%N
        /\ skipn (N.to_nat (usize c)) l = repeat dflt (N.to_nat n - N.to_nat (usize c)))
      /\ N.of_nat (length l) = n /\ Forall (cgood t) (counted len env l)
      /\ cgood_fields env rest vs'
  | _, _ => False
  end
with cgood_tys (ts : ctys) (vs : list val) {struct ts} : Prop :=
  match ts, vs with
  | CTNil, [] => True
  | CTCons t rest, v :: vs' => cgood t v /\ cgood_tys rest vs'
  | _, _ => False
  end
with cgood_variant (vrs : cvariants) (sel : Z) (args : list val) {struct vrs} : Prop :=
  match vrs with
  | CVNil => False
  | CVCons d ts rest => if sel =? d then cgood_tys ts args else cgood_variant rest sel args
  end.
End Format.

(** Declarations that compile: as [wf_ty] of WireSpec.v.  A [length] attribute
    names an earlier field of a primitive integer type. *)
Definition cbind_name (name : string) (kd : kind) (t : cty) (names : list string) : list string :=
  match kd, t with KPlain, CLib (TInt _ _) => name :: names | _, _ => names end.

Fixpoint cwf (t : cty) : bool :=
  match t with
  | CLib t => wf_ty t
  | CTheirs _ => true
  | CNamed fs => cwf_fields [] fs
  | CTuple ts => cwf_tys ts
  | CEnum k vrs => int_width k && cwf_variants k vrs
  end
with cwf_fields (names : list string) (fs : cfields) : bool :=
  match fs with
  | CFNil => true
  | CFCons name kd t rest =>
      cwf t
      && (match kd with KLen _ len _ => existsb (String.eqb len) names | _ => true end)
      && cwf_fields (cbind_name name kd t names) rest
  end
with cwf_tys (ts : ctys) : bool :=
  match ts with CTNil => true | CTCons t rest => cwf t && cwf_tys rest end
with cwf_variants (k : nat) (vrs : cvariants) : bool :=
  match vrs with
  | CVNil => true
  | CVCons d ts rest => in_range false k d && cwf_tys ts && cwf_variants k rest
  end.

(** The same type with library types for the hand-written ones. *)
Section Plain.
Context (f : nat -> ty).
Fixpoint plain (t : cty) : ty :=
  match t with
  | CLib t => t
  | CTheirs i => f i
  | CNamed fs => TNamed (plain_fields fs)
  | CTuple ts => TTuple (plain_tys ts)
  | CEnum k vrs => TEnum k (plain_variants vrs)
  end
with plain_fields (fs : cfields) : fields :=
  match fs with
  | CFNil => FNil
  | CFCons name kd t rest => FCons name kd (plain t) (plain_fields rest)
  end
with plain_tys (ts : ctys) : tys :=
  match ts with CTNil => TNil | CTCons t rest => TCons (plain t) (plain_tys rest) end
with plain_variants (vrs : cvariants) : variants :=
  match vrs with
  | CVNil => VNil
  | CVCons d ts rest => VCons d (plain_tys ts) (plain_variants rest)
  end.
End Plain.

(** ** The calls that the hand-written implementations get *)

(** The members of hand-written type that a value has on the wire, in order of
    declaration: not those behind a count, not those of other variants. *)
Fixpoint members (t : cty) (v : val) {struct t} : list (nat * val) :=
  match t, v with
  | CTheirs i, v => [(i, v)]
  | CNamed fs, VStruct vs => members_fields [] fs vs
  | CTuple ts, VStruct vs => members_tys ts vs
  | CEnum _ vrs, VEnum sel args => members_variant vrs sel args
  | _, _ => []
  end
with members_fields (env : lenv) (fs : cfields) (vs : list val) {struct fs} : list (nat * val) :=
  match fs, vs with
  | CFCons name KPlain t rest, v :: vs' =>
      members t v ++ members_fields (bind_len name v env) rest vs'
  | CFCons _ (KArr n) t rest, VArr l :: vs' =>
      flat_map (members t) (firstn (N.to_nat n) l) ++ members_fields env rest vs'
  | CFCons _ (KLen n len _) t rest, VArr l :: vs' =>
      flat_map (members t) (counted len env l) ++ members_fields env rest vs'
  | _, _ => []
  end
with members_tys (ts : ctys) (vs : list val) {struct ts} : list (nat * val) :=
  match ts, vs with
  | CTCons t rest, v :: vs' => members t v ++ members_tys rest vs'
  | _, _ => []
  end
with members_variant (vrs : cvariants) (sel : Z) (args : list val) {struct vrs}
    : list (nat * val) :=
  match vrs with
  | CVNil => []
  | CVCons d ts rest => if sel =? d then members_tys ts args else members_variant rest sel args
  end.

(** The most members of hand-written type that a value can have. *)
Fixpoint room (t : cty) : nat :=
  match t with
  | CLib _ => 0
  | CTheirs _ => 1
  | CNamed fs => room_fields fs
  | CTuple ts => room_tys ts
  | CEnum _ vrs => room_variants vrs
  end
with room_fields (fs : cfields) : nat :=
  match fs with
  | CFNil => 0
  | CFCons _ KPlain t rest => room t + room_fields rest
  | CFCons _ (KArr n) t rest | CFCons _ (KLen n _ _) t rest =>
      N.to_nat n * room t + room_fields rest
  end
with room_tys (ts : ctys) : nat :=
  match ts with CTNil => 0 | CTCons t rest => room t + room_tys rest end
with room_variants (vrs : cvariants) : nat :=
  match vrs with
  | CVNil => 0
  | CVCons _ ts rest => Nat.max (room_tys ts) (room_variants rest)
  end.

(** A call that was made and how it ended. *)
Inductive call : Type :=
| Marshalled (i : nat) (v : val) (r : outcome merr nat)
| Unmarshalled (i : nat) (r : outcome merr val).

(** Implementations that write down their calls. *)
Definition listened {W} (theirs : nat -> custom W) (i : nat) : custom (list call * W) :=
  {| try_marshal := fun s v buf =>
       let r := try_marshal (theirs i) (snd s) v buf in
       ((fst s ++ [Marshalled i v (snd (snd r))], fst r), snd r);
     try_unmarshal := fun s buf =>
       let r := try_unmarshal (theirs i) (snd s) buf in
       ((fst s ++ [Unmarshalled i (fst (snd r))], fst r), snd r) |}.

(** How a call ended, if it did not succeed. *)
Definition ended {A} (r : outcome merr A) : option (outcome merr unit) :=
  match r with Ok _ => None | Err x => Some (Err x) | Panic => Some Panic end.
Definition failed (c : call) : option (outcome merr unit) :=
  match c with Marshalled _ _ r => ended r | Unmarshalled _ r => ended r end.

(** [try_marshal] was called for these members, in this order, and succeeded. *)
Definition marshalled (ms : list (nat * val)) (l : list call) : Prop :=
  Forall2 (fun m c => exists n, c = Marshalled (fst m) (snd m) (Ok n)) ms l.
(** [try_unmarshal] was called for these members, in this order, and returned them. *)
Definition unmarshalled (ms : list (nat * val)) (l : list call) : Prop :=
  Forall2 (fun m c => c = Unmarshalled (fst m) (Ok (snd m))) ms l.

(** The calls [l] of a [try_marshal] with result [r], of a value with members [ms]:
    one for each member, in order, up to the one that failed, which is the last
    and whose failure is the result. *)
Definition in_turn {A} (ms : list (nat * val)) (l : list call) (r : outcome merr A) : Prop :=
  match ended r with
  | None => marshalled ms l
  | Some x => exists before after, ms = before ++ after
      /\ (marshalled before l
          \/ exists m later calls c, after = m :: later /\ l = calls ++ [c]
               /\ marshalled before calls
               /\ (exists r, c = Marshalled (fst m) (snd m) r) /\ failed c = Some x)
  end.

(** The calls [l] of a [try_unmarshal] with result [r]: one for each member of the
    value that is returned, in order; or they end with the one that failed, whose
    failure is the result, or before any failed. *)
Definition in_turn_back {A} (ms : A -> list (nat * val)) (l : list call) (r : outcome merr A) : Prop :=
  match r with
  | Ok a => unmarshalled (ms a) l
  | _ => exists calls, Forall (fun c => failed c = None) calls
      /\ (l = calls \/ exists c, l = calls ++ [c] /\ failed c = ended r)
  end.

(** [try_marshal] gets a slice, which it cannot make longer or shorter. *)
Definition keeps_length {W} (c : custom W) : Prop :=
  forall s v buf, length (fst (snd (try_marshal c s v buf))) = length buf.

(** Two declarations, one after the other. *)
Fixpoint fields_then (a b : cfields) : cfields :=
  match a with CFNil => b | CFCons n k t rest => CFCons n k t (fields_then rest b) end.
Fixpoint tys_then (a b : ctys) : ctys :=
  match a with CTNil => b | CTCons t rest => CTCons t (tys_then rest b) end.
