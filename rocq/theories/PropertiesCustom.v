(** Types that derive [Marshalable] with members that implement it by hand (C105).
    The model is in Custom.v, the contract and the format in CustomSpec.v. *)
(* Restates the theorems of CustomFacts.v; proofs are there. *)
From Coq Require Import String ZArith NArith List Lia Bool.
From Coq Require Import Init.Byte.
From Verif Require Import Prelude Types Marshal WireSpec MarshalProofs WriteSpec MarshalWrite
  MarshalFacts Custom CustomSpec.
From Verif Require Import CustomFacts.
Import ListNotations.
Open Scope Z_scope.

(** ** C105 *)
(** If the members' implementations keep the contract, so does the derived one. *)
Theorem C105_marshals {W} (theirs : nat -> custom W) checked good e t :
  (forall i, marshals (theirs i) (good i) (e i)) ->
  marshals (derived theirs checked t) (cgood good t) (cenc e t).
Proof. exact (c105_marshals (W := W) theirs checked good e t). Qed.
Print Assumptions C105_marshals.

Theorem C105_unmarshals {W} (theirs : nat -> custom W) checked good e t :
  cwf t = true -> (forall i, unmarshals (theirs i) (good i) (e i)) ->
  unmarshals (derived theirs checked t) (cgood good t) (cenc e t).
Proof. exact (c105_unmarshals (W := W) theirs checked good e t). Qed.
Print Assumptions C105_unmarshals.

(** If they accept nothing but encodings, so does the derived one ... *)
Theorem C105_strict {W} (theirs : nat -> custom W) checked good e t :
  cwf t = true -> (forall i, strict (theirs i) (good i) (e i)) ->
  strict (derived theirs checked t) (cgood good t) (cenc e t).
Proof. exact (c105_strict (W := W) theirs checked good e t). Qed.
Print Assumptions C105_strict.

(** ... and if they return on every input, so does the derived one. *)
Theorem C105_total {W} (theirs : nat -> custom W) checked t :
  cwf t = true -> (forall i, total (theirs i)) -> total (derived theirs checked t).
Proof. exact (c105_total (W := W) theirs checked t). Qed.
Print Assumptions C105_total.

(** With library types as members this is the library's own code. *)
Theorem C105_library {W} (f : nat -> ty) checked t (s : W) v b : slice b ->
  try_marshal (derived (fun i => library (f i)) checked t) s v b
  = try_marshal (library (plain f t)) s v b
  /\ try_unmarshal (derived (fun i => library (f i)) checked t) s b
  = try_unmarshal (library (plain f t)) s b.
Proof. exact (c105_library (W := W) f checked t s v b). Qed.
Print Assumptions C105_library.

(** Whatever the members' implementations do: each is called once for each member
    that is on the wire, in order of declaration, none after one that failed, and
    a failure is the result. *)
Theorem C105_marshal_calls {W} (theirs : nat -> custom W) checked t s v buf :
  let '((calls, s'), r) := try_marshal (derived (listened theirs) checked t) ([], s) v buf in
  (s', r) = try_marshal (derived theirs checked t) s v buf
  /\ in_turn (members t v) calls (snd r).
Proof. exact (c105_marshal_calls (W := W) theirs checked t s v buf). Qed.
Print Assumptions C105_marshal_calls.

(** The same for decoding; and there are never more calls than members that a
    value can have, whatever counts the input states. *)
Theorem C105_unmarshal_calls {W} (theirs : nat -> custom W) checked t s b :
  let '((calls, s'), r) := try_unmarshal (derived (listened theirs) checked t) ([], s) b in
  (s', r) = try_unmarshal (derived theirs checked t) s b
  /\ in_turn_back (members t) calls (fst r) /\ (length calls <= room t)%nat.
Proof. exact (c105_unmarshal_calls (W := W) theirs checked t s b). Qed.
Print Assumptions C105_unmarshal_calls.

(** With overflow checks, what earlier members wrote stays, whatever the later
    ones' implementations write and claim to have written. *)
Theorem C105_earlier {W} (theirs : nat -> custom W) s s1 vs vs' b b1 n :
  (forall i, keeps_length (theirs i)) ->
  (forall fs fs',
     try_marshal (derived theirs true (CNamed fs)) s (VStruct vs) b = (s1, (b1, Ok n)) ->
     let b' := fst (snd (try_marshal (derived theirs true (CNamed (fields_then fs fs'))) s
                           (VStruct (vs ++ vs')) b)) in
     length b' = length b /\ firstn n b' = firstn n b1)
  /\ (forall ts ts',
     try_marshal (derived theirs true (CTuple ts)) s (VStruct vs) b = (s1, (b1, Ok n)) ->
     let b' := fst (snd (try_marshal (derived theirs true (CTuple (tys_then ts ts'))) s
                           (VStruct (vs ++ vs')) b)) in
     length b' = length b /\ firstn n b' = firstn n b1).
Proof. exact (c105_earlier (W := W) theirs s s1 vs vs' b b1 n). Qed.
Print Assumptions C105_earlier.

(** What a member claims to have written is believed: the next one is written
    that much further on; if that is outside the buffer, the call panics and no
    other member is called; if the count overflows, the call panics in builds with
    overflow checks and goes on at the wrapped offset in others. *)
Theorem C105_claimed {W} (theirs : nat -> custom W) checked ts ts' i v vs vs' s s1 s2 b b1 w sub n :
  try_marshal (derived theirs checked (CTuple ts)) s (VStruct vs) b = (s1, (b1, Ok w)) ->
  (w <= length b1)%nat -> slice b1 -> (N.of_nat n < 2 ^ 64)%N ->
  try_marshal (theirs i) s1 v (skipn w b1) = (s2, (sub, Ok n)) ->
  let whole := try_marshal (derived theirs checked (CTuple (tys_then ts (CTCons (CTheirs i) ts')))) s
                 (VStruct (vs ++ v :: vs')) b in
  let b2 := firstn w b1 ++ sub in
  if (N.of_nat (w + n) <? 2 ^ 64)%N
  then whole = cmarshal_tys theirs checked ts' vs' s2 (w + n) b2
       /\ (ts' <> CTNil -> (length b2 < w + n)%nat -> whole = (s2, (b2, Panic)))
  else if checked then whole = (s2, (b2, Panic))
  else whole = cmarshal_tys theirs checked ts' vs' s2 (N.to_nat (N.of_nat (w + n) - 2 ^ 64)) b2.
Proof. exact (c105_claimed (W := W) theirs checked ts ts' i v vs vs' s s1 s2 b b1 w sub n). Qed.
Print Assumptions C105_claimed.

Example C105_example :
  (forall i : nat, marshals short short_good short_enc)
  /\ (forall i : nat, unmarshals short short_good short_enc)
  /\ (forall i : nat, strict short short_good short_enc)
  /\ (forall i : nat, total short)
  /\ cwf short_list = true
  /\ cgood (fun _ => short_good) short_list short_value
  /\ try_marshal (derived (fun _ => short) true short_list) 0%nat short_value (repeat xff 6)
     = (3%nat, ([x02; x05; x81; x2c; x07; xff], Ok 5%nat))
  /\ try_unmarshal (derived (fun _ => short) true short_list) 0%nat [x02; x05; x81; x2c; x07; xff]
     = (3%nat, (Ok short_value, [xff])).
Proof. exact c105_example. Qed.

Example C105_calls_example :
  members short_list short_value = [(0%nat, VInt 5); (0%nat, VInt 300); (0%nat, VInt 7)]
  /\ room short_list = 4%nat
  /\ fst (fst (try_unmarshal (derived (listened (fun _ => short)) true short_list) ([], 0%nat)
                 [x02; x05; x80; x07; x07]))
     = [Unmarshalled 0 (Ok (VInt 5)); Unmarshalled 0 (Err UnknownSelector)]
  /\ fst (fst (try_unmarshal (derived (listened (fun _ => short)) true short_list) ([], 0%nat)
                 [xff; x05; x80; x07; x07])) = [].
Proof. exact c105_calls_example. Qed.

Example C105_earlier_example :
  keeps_length liar
  /\ try_marshal (derived (fun _ => liar) true (CTuple (CTCons (CLib (TInt false 2)) CTNil))) tt
       (VStruct [VInt 258]) [x00; x00; x00] = (tt, ([x01; x02; x00], Ok 2%nat))
  /\ try_marshal (derived (fun _ => liar) true (CTuple liar_tys)) tt
       (VStruct [VInt 258; VUnit; VInt 9]) [x00; x00; x00] = (tt, ([x01; x02; x00], Panic))
  /\ try_marshal (derived (fun _ => liar) false (CTuple liar_tys)) tt
       (VStruct [VInt 258; VUnit; VInt 9]) [x00; x00; x00] = (tt, ([x09; x02; x00], Ok 1%nat)).
Proof. exact c105_earlier_example. Qed.
