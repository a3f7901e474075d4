(** Shared vocabulary: outcomes of Rust calls, bytes, big/little endian
    integers and a few list facts. *)
From Coq Require Import String ZArith NArith List Lia Bool.
From Coq Require Import Init.Byte Strings.Byte.
Import ListNotations.
Open Scope Z_scope.

Ltac Zify.zify_post_hook ::= Z.div_mod_to_equations.

(** Result of a Rust call: [Ok], [Err] or a panic (index out of range,
    [unreachable!], [todo!], [unwrap] of [None]). *)
Inductive outcome (E A : Type) : Type :=
| Ok (a : A)
| Err (e : E)
| Panic.
Arguments Ok {E A} _.
Arguments Err {E A} _.
Arguments Panic {E A}.

Definition is_ok {E A} (o : outcome E A) : bool :=
  match o with Ok _ => true | _ => false end.
Definition is_panic {E A} (o : outcome E A) : bool :=
  match o with Panic => true | _ => false end.

Definition omap {E A B} (f : A -> B) (o : outcome E A) : outcome E B :=
  match o with Ok a => Ok (f a) | Err e => Err e | Panic => Panic end.
Definition obind {E A B} (o : outcome E A) (f : A -> outcome E B) : outcome E B :=
  match o with Ok a => f a | Err e => Err e | Panic => Panic end.
Definition omap_err {E F A} (f : E -> F) (o : outcome E A) : outcome F A :=
  match o with Ok a => Ok a | Err e => Err (f e) | Panic => Panic end.

(** ** Bytes *)

Definition bz (b : byte) : Z := Z.of_N (Byte.to_N b).
Definition zb (z : Z) : byte :=
  match Byte.of_N (Z.to_N (z mod 256)) with Some b => b | None => x00 end.

Lemma bz_range b : 0 <= bz b < 256.
Proof. unfold bz. pose proof (Byte.to_N_bounded b). lia. Qed.

Lemma bz_zb z : bz (zb z) = z mod 256.
Proof.
  unfold bz, zb.
  destruct (Byte.of_N (Z.to_N (z mod 256))) as [b|] eqn:E.
  - apply Byte.to_of_N in E. rewrite E. rewrite Z2N.id; lia.
  - apply Byte.of_N_None_iff in E.
    assert (0 <= z mod 256 < 256) by (apply Z.mod_pos_bound; lia). lia.
Qed.

Lemma zb_bz b : zb (bz b) = b.
Proof.
  unfold zb, bz. rewrite Z.mod_small by (pose proof (bz_range b); unfold bz in *; lia).
  rewrite N2Z.id, Byte.of_to_N. reflexivity.
Qed.

Lemma bz_inj a b : bz a = bz b -> a = b.
Proof. intros H. rewrite <- (zb_bz a), <- (zb_bz b), H. reflexivity. Qed.

(** ** Big-endian integers: Rust's [to_be_bytes] / [from_be_bytes] on [k]-byte integers *)

Fixpoint be_bytes (k : nat) (z : Z) : list byte :=
  match k with
  | O => []
  | S k' => be_bytes k' (z / 256) ++ [zb z]
  end.

Definition be_val (l : list byte) : Z := fold_left (fun acc b => acc * 256 + bz b) l 0.

Definition pow256 (k : nat) : Z := 256 ^ Z.of_nat k.

Lemma pow256_S k : pow256 (S k) = 256 * pow256 k.
Proof. unfold pow256. rewrite Nat2Z.inj_succ, Z.pow_succ_r by lia. reflexivity. Qed.
Lemma pow256_pos k : 0 < pow256 k.
Proof. unfold pow256. apply Z.pow_pos_nonneg; lia. Qed.
Lemma pow256_0 : pow256 0 = 1. Proof. reflexivity. Qed.

Lemma be_bytes_length k : forall z, length (be_bytes k z) = k.
Proof. induction k; intros z; cbn [be_bytes]; [reflexivity|]. rewrite app_length, IHk. cbn. lia. Qed.

Lemma be_val_snoc l b : be_val (l ++ [b]) = be_val l * 256 + bz b.
Proof. unfold be_val. rewrite fold_left_app. reflexivity. Qed.

Lemma be_val_bytes k : forall z, be_val (be_bytes k z) = z mod pow256 k.
Proof.
  induction k; intros z; cbn [be_bytes].
  - rewrite pow256_0, Z.mod_1_r. reflexivity.
  - rewrite be_val_snoc, IHk, bz_zb, pow256_S.
    rewrite Z.rem_mul_r by (pose proof (pow256_pos k); lia). ring.
Qed.

Lemma be_val_range l : 0 <= be_val l < pow256 (length l).
Proof.
  induction l using rev_ind; [cbn; unfold pow256; cbn; lia|].
  rewrite be_val_snoc, app_length. cbn [length]. rewrite Nat.add_1_r, pow256_S.
  pose proof (bz_range x). nia.
Qed.

Lemma be_bytes_val l : be_bytes (length l) (be_val l) = l.
Proof.
  induction l using rev_ind; [reflexivity|].
  rewrite app_length. cbn [length]. rewrite Nat.add_1_r. cbn [be_bytes].
  rewrite be_val_snoc. pose proof (bz_range x).
  replace ((be_val l * 256 + bz x) / 256) with (be_val l) by lia.
  rewrite IHl. f_equal. f_equal.
  apply bz_inj. rewrite bz_zb. lia.
Qed.

Lemma be_bytes_mod k : forall z, be_bytes k (z mod pow256 k) = be_bytes k z.
Proof.
  intros z. rewrite <- (be_val_bytes k z).
  pose proof (be_bytes_val (be_bytes k z)) as H. rewrite be_bytes_length in H. exact H.
Qed.

(** ** Little-endian integers *)

Fixpoint le_bytes (k : nat) (z : Z) : list byte :=
  match k with
  | O => []
  | S k' => zb z :: le_bytes k' (z / 256)
  end.

Fixpoint le_val (l : list byte) : Z :=
  match l with [] => 0 | b :: l' => bz b + 256 * le_val l' end.

Lemma le_bytes_length k : forall z, length (le_bytes k z) = k.
Proof. induction k; intros; cbn; congruence. Qed.

Lemma le_val_bytes k : forall z, le_val (le_bytes k z) = z mod pow256 k.
Proof.
  induction k; intros z; cbn [le_bytes le_val].
  - rewrite pow256_0, Z.mod_1_r. reflexivity.
  - rewrite IHk, bz_zb, pow256_S.
    rewrite Z.rem_mul_r by (pose proof (pow256_pos k); lia). ring.
Qed.

Lemma le_bytes_val l : le_bytes (length l) (le_val l) = l.
Proof.
  induction l as [|b l IH]; [reflexivity|].
  cbn [length le_bytes le_val]. pose proof (bz_range b).
  f_equal.
  - apply bz_inj. rewrite bz_zb. lia.
  - replace ((bz b + 256 * le_val l) / 256) with (le_val l) by lia. exact IH.
Qed.

(** ** Lists *)

Lemma firstn_app_exact {A} (a b : list A) : firstn (length a) (a ++ b) = a.
Proof. rewrite firstn_app, Nat.sub_diag, firstn_all. cbn. apply app_nil_r. Qed.
Lemma skipn_app_exact {A} (a b : list A) : skipn (length a) (a ++ b) = b.
Proof. rewrite skipn_app, Nat.sub_diag, skipn_all. reflexivity. Qed.
Lemma firstn_app_exact' {A} n (a b : list A) : n = length a -> firstn n (a ++ b) = a.
Proof. intros ->. apply firstn_app_exact. Qed.
Lemma skipn_app_exact' {A} n (a b : list A) : n = length a -> skipn n (a ++ b) = b.
Proof. intros ->. apply skipn_app_exact. Qed.

Lemma skipn_app_le {A} n (a b : list A) : (n <= length a)%nat -> skipn n (a ++ b) = skipn n a ++ b.
Proof. intros. rewrite skipn_app. replace (n - length a)%nat with 0%nat by lia. reflexivity. Qed.
Lemma firstn_app_le {A} n (a b : list A) : (n <= length a)%nat -> firstn n (a ++ b) = firstn n a.
Proof.
  intros. rewrite firstn_app. replace (n - length a)%nat with 0%nat by lia.
  cbn. apply app_nil_r.
Qed.
Lemma skipn_skipn' {A} n m (l : list A) : skipn n (skipn m l) = skipn (m + n) l.
Proof.
  revert l; induction m; intros l; [reflexivity|]. destruct l; cbn; [apply skipn_nil|apply IHm].
Qed.

(** Writing [bs] over the front of [buf] (copy_from_slice into a prefix). *)
Definition overwrite (bs buf : list byte) : list byte := bs ++ skipn (length bs) buf.

Lemma overwrite_length bs buf : (length bs <= length buf)%nat -> length (overwrite bs buf) = length buf.
Proof. intros. unfold overwrite. rewrite app_length, skipn_length. lia. Qed.

Lemma firstn_overwrite bs buf : firstn (length bs) (overwrite bs buf) = bs.
Proof. unfold overwrite. apply firstn_app_exact. Qed.
Lemma skipn_overwrite bs buf : skipn (length bs) (overwrite bs buf) = skipn (length bs) buf.
Proof. unfold overwrite. apply skipn_app_exact. Qed.
