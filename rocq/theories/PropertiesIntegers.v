(** Integers on the wire, digit by digit (C73).  The statements use the number
    of a byte ([Byte.to_N]) and arithmetic only. *)
(* Restates the theorems of IntegersFacts.v; proofs are there. *)
From Coq Require Import String ZArith NArith List Lia Bool.
From Coq Require Import Init.Byte Strings.Byte.
From Verif Require Import Prelude Types Marshal WireSpec MarshalProofs WriteSpec MarshalWrite MarshalFacts Catalogue Limits LimitsFacts.
From Verif Require Import IntegersFacts.
Import ListNotations.
Open Scope Z_scope.

(** ** C73 *)
(** An integer of [k] bytes is written as its [k] digits to the base 256, the
    highest first; a negative one as that plus [256 ^ k]. *)
Theorem C73_written sg k z buf :
  in_range sg k z = true -> (k <= length buf)%nat ->
  exists bs, marshal (TInt sg k) (VInt z) buf = (bs ++ skipn k buf, Ok k) /\ length bs = k
    /\ forall i b, nth_error bs i = Some b ->
         num b = (z mod 256 ^ Z.of_nat k) / 256 ^ (Z.of_nat k - 1 - Z.of_nat i) mod 256.
Proof. exact (c73_written sg k z buf). Qed.
Print Assumptions C73_written.

(** And read so, without a sign ... *)
Theorem C73_read_unsigned a b c d e f g h rest :
  unmarshal u8 (a :: rest) = (Ok (VInt (num a)), rest)
  /\ unmarshal u16 (a :: b :: rest) = (Ok (VInt (num a * 2 ^ 8 + num b)), rest)
  /\ unmarshal u32 (a :: b :: c :: d :: rest)
     = (Ok (VInt (num a * 2 ^ 24 + num b * 2 ^ 16 + num c * 2 ^ 8 + num d)), rest)
  /\ unmarshal u64 (a :: b :: c :: d :: e :: f :: g :: h :: rest)
     = (Ok (VInt (num a * 2 ^ 56 + num b * 2 ^ 48 + num c * 2 ^ 40 + num d * 2 ^ 32
                  + num e * 2 ^ 24 + num f * 2 ^ 16 + num g * 2 ^ 8 + num h)), rest).
Proof. exact (c73_read_unsigned a b c d e f g h rest). Qed.
Print Assumptions C73_read_unsigned.

(** ... and with one: from [128 * 256 ^ (k - 1)] on the number is negative. *)
Theorem C73_read_signed k b bs rest :
  length bs = k ->
  exists v, unmarshal (TInt false (S k)) (b :: bs ++ rest) = (Ok (VInt v), rest)
    /\ unmarshal (TInt true (S k)) (b :: bs ++ rest)
       = (Ok (VInt (if num b <? 128 then v else v - 256 ^ Z.of_nat (S k))), rest).
Proof. exact (c73_read_signed k b bs rest). Qed.
Print Assumptions C73_read_signed.

(** The same for the integers of crates/tpm2. *)
Theorem C73_new_written sg k z buf :
  in_range sg k z = true -> (0 < k <= length buf)%nat ->
  exists bs, marshal_int k z buf = (bs ++ skipn k buf, Ok k) /\ length bs = k
    /\ forall i b, nth_error bs i = Some b ->
         num b = (z mod 256 ^ Z.of_nat k) / 256 ^ (Z.of_nat k - 1 - Z.of_nat i) mod 256.
Proof. exact (c73_new_written sg k z buf). Qed.
Print Assumptions C73_new_written.

(** The numbers in the specifications: [be_bytes] and [le_bytes] are the
    digits, highest and lowest first. *)
Theorem C73_specifications k z i b :
  (nth_error (be_bytes k z) i = Some b -> num b = z / 256 ^ (Z.of_nat k - 1 - Z.of_nat i) mod 256)
  /\ (nth_error (le_bytes k z) i = Some b -> num b = z / 256 ^ Z.of_nat i mod 256)
  /\ length (be_bytes k z) = k /\ length (le_bytes k z) = k.
Proof. exact (c73_specifications k z i b). Qed.
Print Assumptions C73_specifications.

Example C73_example :
  fst (marshal u32 (VInt 0x01020304) (repeat x00 4)) = [x01; x02; x03; x04]
  /\ fst (marshal (TInt true 2) (VInt (-2)) [x00; x00]) = [xff; xfe]
  /\ fst (unmarshal (TInt true 2) [xff; xfe]) = Ok (VInt (-2))
  /\ in_range true 2 (-2) = true.
Proof. exact c73_example. Qed.
