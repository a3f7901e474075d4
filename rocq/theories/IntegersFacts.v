(** Integers on the wire, digit by digit (C73).  The statements use the number
    of a byte ([Byte.to_N]) and arithmetic only. *)
From Coq Require Import String ZArith NArith List Lia Bool.
From Coq Require Import Init.Byte Strings.Byte.
From Verif Require Import Prelude Types Marshal WireSpec MarshalProofs WriteSpec MarshalWrite MarshalFacts Catalogue Limits LimitsFacts.
Import ListNotations.
Open Scope Z_scope.

(** The number of a byte. *)
Definition num (b : byte) : Z := Z.of_N (Byte.to_N b).

Lemma be_digit k : forall z i b, nth_error (be_bytes k z) i = Some b ->
  num b = z / 256 ^ (Z.of_nat k - 1 - Z.of_nat i) mod 256.
Proof.
  induction k as [|k IH]; intros z i b E; [destruct i; discriminate|].
  cbn [be_bytes] in E. destruct (Nat.ltb_spec i (length (be_bytes k (z / 256)))) as [L|L].
  - rewrite nth_error_app1 in E by exact L. apply IH in E. rewrite E. rewrite be_bytes_length in L.
    rewrite Z.div_div by (try apply Z.pow_pos_nonneg; lia).
    rewrite <- Z.pow_succ_r by lia. do 3 f_equal. lia.
  - rewrite nth_error_app2 in E by exact L. rewrite be_bytes_length in *.
    destruct (i - k)%nat eqn:Ei; [|destruct n; discriminate]. cbn in E. injection E as <-.
    replace i with k by lia. replace (Z.of_nat (S k) - 1 - Z.of_nat k) with 0 by lia.
    rewrite Z.pow_0_r, Z.div_1_r. apply bz_zb.
Qed.
Lemma le_digit k : forall z i b, nth_error (le_bytes k z) i = Some b ->
  num b = z / 256 ^ Z.of_nat i mod 256.
Proof.
  induction k as [|k IH]; intros z i b E; [destruct i; discriminate|].
  cbn [le_bytes] in E. destruct i as [|i]; cbn [nth_error] in E.
  - injection E as <-. rewrite Z.pow_0_r, Z.div_1_r. apply bz_zb.
  - apply IH in E. rewrite E, Z.div_div by (try apply Z.pow_pos_nonneg; lia).
    rewrite <- Z.pow_succ_r by lia. do 3 f_equal. lia.
Qed.

(** ** C73 *)
(** An integer of [k] bytes is written as its [k] digits to the base 256, the
    highest first; a negative one as that plus [256 ^ k]. *)
Theorem c73_written sg k z buf :
  in_range sg k z = true -> (k <= length buf)%nat ->
  exists bs, marshal (TInt sg k) (VInt z) buf = (bs ++ skipn k buf, Ok k) /\ length bs = k
    /\ forall i b, nth_error bs i = Some b ->
         num b = (z mod 256 ^ Z.of_nat k) / 256 ^ (Z.of_nat k - 1 - Z.of_nat i) mod 256.
Proof.
  intros Hz Hl. exists (be_bytes k z). split; [|split; [apply be_bytes_length|]].
  - cbn [marshal]. unfold mar_int, mar_bytes. rewrite be_bytes_length.
    destruct (Nat.leb_spec k (length buf)); [|lia]. unfold overwrite. rewrite be_bytes_length. reflexivity.
  - intros i b E. rewrite <- be_bytes_mod in E. now apply be_digit in E.
Qed.

(** And read so, without a sign ... *)
Theorem c73_read_unsigned a b c d e f g h rest :
  unmarshal u8 (a :: rest) = (Ok (VInt (num a)), rest)
  /\ unmarshal u16 (a :: b :: rest) = (Ok (VInt (num a * 2 ^ 8 + num b)), rest)
  /\ unmarshal u32 (a :: b :: c :: d :: rest)
     = (Ok (VInt (num a * 2 ^ 24 + num b * 2 ^ 16 + num c * 2 ^ 8 + num d)), rest)
  /\ unmarshal u64 (a :: b :: c :: d :: e :: f :: g :: h :: rest)
     = (Ok (VInt (num a * 2 ^ 56 + num b * 2 ^ 48 + num c * 2 ^ 40 + num d * 2 ^ 32
                  + num e * 2 ^ 24 + num f * 2 ^ 16 + num g * 2 ^ 8 + num h)), rest).
Proof.
  assert (R : forall l v, be_val l = v -> unmarshal (TInt false (length l)) (l ++ rest) = (Ok (VInt v), rest)).
  { intros l v <-. pose proof (be_val_range l) as R.
    rewrite <- (be_bytes_val l) at 2. cbn [unmarshal].
    assert (I : in_range false (length l) (be_val l) = true) by (apply in_range_iff; exact R).
    rewrite (unm_int_app false (length l) (be_val l) rest I). reflexivity. }
  split; [|split; [|split]].
  - apply (R [a]). unfold be_val, num, bz. cbn [fold_left]. lia.
  - apply (R [a; b]). unfold be_val, num, bz. cbn [fold_left]. lia.
  - apply (R [a; b; c; d]). unfold be_val, num, bz. cbn [fold_left]. lia.
  - apply (R [a; b; c; d; e; f; g; h]). unfold be_val, num, bz. cbn [fold_left]. lia.
Qed.
(** ... and with one: from [128 * 256 ^ (k - 1)] on the number is negative. *)
Theorem c73_read_signed k b bs rest :
  length bs = k ->
  exists v, unmarshal (TInt false (S k)) (b :: bs ++ rest) = (Ok (VInt v), rest)
    /\ unmarshal (TInt true (S k)) (b :: bs ++ rest)
       = (Ok (VInt (if num b <? 128 then v else v - 256 ^ Z.of_nat (S k))), rest).
Proof.
  intros Hk. exists (be_val (b :: bs)).
  assert (G : forall sg, unmarshal (TInt sg (S k)) (b :: bs ++ rest) = (Ok (VInt (int_of_be sg (b :: bs))), rest)).
  { intros sg. cbn [unmarshal]. unfold unm_int, unm_bytes, buf_get.
    change (b :: bs ++ rest) with ((b :: bs) ++ rest).
    destruct (N.ltb_spec (N.of_nat (length ((b :: bs) ++ rest))) (N.of_nat (S k))) as [L|_].
    { rewrite app_length in L. cbn [length] in L. lia. }
    rewrite Nat2N.id, firstn_app_exact', skipn_app_exact' by (cbn; lia). reflexivity. }
  rewrite !G. unfold int_of_be. cbn [andb]. split; [reflexivity|].
  assert (V : be_val (b :: bs) = num b * 256 ^ Z.of_nat k + be_val bs).
  { clear G. unfold be_val. cbn [fold_left].
    assert (F : forall l acc, fold_left (fun acc b => acc * 256 + bz b) l acc
                = acc * 256 ^ Z.of_nat (length l) + fold_left (fun acc b => acc * 256 + bz b) l 0).
    { induction l as [|x l IH]; intros acc; [cbn [fold_left length]; change (256 ^ Z.of_nat 0) with 1; lia|].
      cbn [fold_left length]. rewrite IH, (IH (0 * 256 + bz x)).
      rewrite Nat2Z.inj_succ, Z.pow_succ_r by lia. ring. }
    rewrite F, Hk. unfold num, bz. ring. }
  pose proof (be_val_range bs) as R. rewrite Hk in R. unfold pow256 in R.
  cbn [length]. rewrite Hk. unfold pow256. rewrite V.
  assert (P : 256 ^ Z.of_nat (S k) = 256 * 256 ^ Z.of_nat k) by (rewrite Nat2Z.inj_succ, Z.pow_succ_r; lia).
  rewrite P. set (p := 256 ^ Z.of_nat k) in *. clearbody p.
  destruct (Z.leb_spec (256 * p) (2 * (num b * p + be_val bs))) as [L|L], (Z.ltb_spec (num b) 128) as [L2|L2];
    try reflexivity; exfalso; nia.
Qed.

(** The same for the integers of crates/tpm2. *)
Theorem c73_new_written sg k z buf :
  in_range sg k z = true -> (0 < k <= length buf)%nat ->
  exists bs, marshal_int k z buf = (bs ++ skipn k buf, Ok k) /\ length bs = k
    /\ forall i b, nth_error bs i = Some b ->
         num b = (z mod 256 ^ Z.of_nat k) / 256 ^ (Z.of_nat k - 1 - Z.of_nat i) mod 256.
Proof.
  intros Hz Hl. exists (be_bytes k z). split; [|split; [apply be_bytes_length|]].
  - destruct (c29_ints sg k z 0 buf [] ltac:(lia) Hz) as (-> & _).
    destruct (Nat.leb_spec k (length buf)); [reflexivity|lia].
  - intros i b E. rewrite <- be_bytes_mod in E. now apply be_digit in E.
Qed.

(** The numbers in the specifications: [be_bytes] and [le_bytes] are the
    digits, highest and lowest first. *)
Theorem c73_specifications k z i b :
  (nth_error (be_bytes k z) i = Some b -> num b = z / 256 ^ (Z.of_nat k - 1 - Z.of_nat i) mod 256)
  /\ (nth_error (le_bytes k z) i = Some b -> num b = z / 256 ^ Z.of_nat i mod 256)
  /\ length (be_bytes k z) = k /\ length (le_bytes k z) = k.
Proof. split; [apply be_digit|]. split; [apply le_digit|]. split; [apply be_bytes_length|apply le_bytes_length]. Qed.

(** *** The hypotheses can be met *)
Example c73_example :
  fst (marshal u32 (VInt 0x01020304) (repeat x00 4)) = [x01; x02; x03; x04]
  /\ fst (marshal (TInt true 2) (VInt (-2)) [x00; x00]) = [xff; xfe]
  /\ fst (unmarshal (TInt true 2) [xff; xfe]) = Ok (VInt (-2))
  /\ in_range true 2 (-2) = true.
Proof. vm_compute. auto. Qed.
