(** The low-level crate does not panic: its documentation promises to avoid
    panics, "while this cannot be statically guaranteed by Rust"
    (crates/tpm2/src/lib.rs:35-39).

    The places where the sources spell out a panic are [unreachable!] in the
    constructor of a layer's error (errors/tss_rc.rs:48) and [panic!] in the
    constructor of a TPM error (errors/tpm_rc/mod.rs:119). *)
From Coq Require Import ZArith List Lia Bool.
From Coq Require Import Strings.Byte.
From Verif Require Import Prelude Types Errors ErrorsFacts Limits LimitsFacts.
Import ListNotations.
Open Scope Z_scope.

(** What one call of the crate's public functions can be. *)
Inductive call : Type :=
| PutInt (k : nat) (z : Z) (buf : list byte)
| GetInt (sg : bool) (k : nat) (self : Z) (buf : list byte)
| PutBytes (d buf : list byte)
| PutAlg (a : Z) (buf : list byte)
| GetAlg (self : Z) (buf : list byte)
| PutHash (h : hash) (buf : list byte)
| GetHash (self : hash) (buf : list byte)
| HashFromAlg (a : Z)
| PutHa (supports : hash -> bool) (x : ha) (buf : list byte)
| GetHa (supports : hash -> bool) (self : ha) (buf : list byte)
| Asymmetric (on : error_type) (p : error_position)
| Value (on : error_type) (p : error_position)
| Size (on : error_type) (p : error_position)
| Selector (on : error_type) (p : error_position)
| LayerError (l : layer) (c : tss_code)
| ErrorFromCode (v : Z).

(** Whether the call panics. *)
Definition panics (c : call) : bool :=
  match c with
  | PutInt k z buf => is_panic (snd (marshal_int k z buf))
  | GetInt sg k self buf => is_panic (snd (unmarshal_int sg k self buf))
  | PutBytes d buf => is_panic (snd (marshal_bytes d buf))
  | PutAlg a buf => is_panic (snd (marshal_alg a buf))
  | GetAlg self buf => is_panic (snd (unmarshal_alg self buf))
  | PutHash h buf => is_panic (snd (marshal_hash h buf))
  | GetHash self buf => is_panic (snd (unmarshal_hash self buf))
  | HashFromAlg a => is_panic (hash_of_alg a)
  | PutHa supports x buf => is_panic (snd (marshal_ha supports x buf))
  | GetHa supports self buf => is_panic (snd (unmarshal_ha supports self buf))
  | Asymmetric on p => is_panic (AsymmetricFor on p)
  | Value on p => is_panic (ValueFor on p)
  | Size on p => is_panic (SizeFor on p)
  | Selector on p => is_panic (SelectorFor on p)
  | LayerError l c => is_panic (layer_error l c)
  | ErrorFromCode v => is_panic (tss_try_from v)
  end.

Lemma marshal_fixed_no_panic arr buf : is_panic (snd (marshal_fixed arr buf)) = false.
Proof. unfold marshal_fixed. destruct (_ : option _); try reflexivity. all: try destruct p; reflexivity. Qed.

Lemma unmarshal_fixed_no_panic {A} n (f : list byte -> outcome unit A) self buf :
  (forall a, is_panic (f a) = false) -> is_panic (snd (unmarshal_fixed n f self buf)) = false.
Proof.
  intros H. unfold unmarshal_fixed. destruct (split_first_chunk n buf) as [[a r]|]; [|reflexivity].
  specialize (H a). destruct (f a); [reflexivity|reflexivity|discriminate].
Qed.

Lemma hash_of_alg_no_panic a : is_panic (hash_of_alg a) = false.
Proof. pose proof (c29_try_from a) as H. destruct (hash_of_alg a); [reflexivity|reflexivity|destruct H]. Qed.

(** ** C88 *)
(** No call panics: for every value, every buffer, every target and every set
    of supported algorithms. *)
Theorem c88_no_panic c : panics c = false.
Proof.
  destruct c; cbn [panics]; unfold marshal_int, marshal_bytes, marshal_alg, marshal_hash;
    try apply marshal_fixed_no_panic;
    try (apply unmarshal_fixed_no_panic; intros ?; reflexivity).
  - apply unmarshal_fixed_no_panic. intros a. apply hash_of_alg_no_panic.
  - apply hash_of_alg_no_panic.
  - unfold marshal_ha. destruct (negb _); [reflexivity|].
    unfold marshal_hash, marshal_alg, marshal_int.
    pose proof (marshal_fixed_no_panic (be_bytes 2 (alg_of_hash (ha_hash x))) buf) as H.
    destruct (marshal_fixed _ buf) as [buf1 [n|e|]]; [|reflexivity|discriminate].
    assert (Hb : forall d b, is_panic (snd (marshal_bytes d b)) = false)
      by (intros; apply marshal_fixed_no_panic).
    destruct x; match goal with |- context [marshal_bytes ?d ?b] =>
        specialize (Hb d b); destruct (marshal_bytes d b) as [r [m|e|]] end;
      solve [reflexivity|discriminate].
  - destruct (c27_unmarshal_failure supports self buf) as [(x & r & ->)| ->]; reflexivity.
  - destruct on, p; reflexivity.
  - destruct on, p; reflexivity.
  - destruct on, p; reflexivity.
  - destruct on, p; reflexivity.
  - destruct l, c; reflexivity.
  - unfold tss_try_from, nonzero. destruct (v =? 0); reflexivity.
Qed.

(** Of the two (private) constructors whose sources spell out a panic, a TPM
    error's panics for zero only and a layer's for no code at all. *)
Theorem c88_where v l :
  (rc_new v = Panic <-> v = 0)
  /\ (0 <= v -> layer_new l v <> Panic).
Proof.
  split.
  - unfold rc_new, nonzero. destruct (Z.eqb_spec v 0); intuition (try discriminate; auto).
  - intros Hv. unfold layer_new, nonzero.
    destruct (Z.eqb_spec (Z.lor v (Z.shiftl (layer_value l) 12)) 0) as [E|]; [|discriminate].
    apply Z.lor_eq_0_iff in E. destruct E as [_ E]. destruct l; discriminate.
Qed.

Example c88_example :
  marshal_ha (fun _ => true) (HaSha1 (repeat x5a 20)) [] = ([], Err tt)
  /\ marshal_ha (fun _ => true) (HaSha1 (repeat x5a 20)) [x01; x02; x03] = ([x00; x04; x03], Err tt)
  /\ layer_error Tcs OutOfMemory = Ok 0x2005
  /\ panics (GetHash Sha1 [x00]) = false.
Proof. repeat split. Qed.
