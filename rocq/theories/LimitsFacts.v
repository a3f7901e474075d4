(** Properties of the new-style marshalling of the [tpm2] crate (C26-C29). *)
From Coq Require Import ZArith NArith List Lia Bool.
From Coq Require Import Init.Byte.
From Verif Require Import Prelude Types Marshal MarshalProofs Limits.
Import ListNotations.
Open Scope Z_scope.

(** The wire form of a digest: its algorithm identifier (TCG Algorithm
    Registry) and its bytes. *)
Definition ha_id (x : ha) : Z :=
  match x with HaSha1 _ => 0x0004 | HaSha256 _ => 0x000B | HaSha384 _ => 0x000C | HaSha512 _ => 0x000D end.
Definition ha_wire (x : ha) : list byte := be_bytes 2 (ha_id x) ++ ha_digest x.

Lemma wf_ha_digest x : wf_ha x -> length (ha_digest x) = digest_size (ha_hash x).
Proof. destruct x; cbn; auto. Qed.

Lemma split_chunk_app a b : split_first_chunk (length a) (a ++ b) = Some (a, b).
Proof.
  unfold split_first_chunk. rewrite app_length.
  destruct (Nat.leb_spec (length a) (length a + length b)); [|lia].
  rewrite firstn_app_exact, skipn_app_exact. reflexivity.
Qed.

Lemma split_chunk_app' n a b : length a = n -> split_first_chunk n (a ++ b) = Some (a, b).
Proof. intros <-. apply split_chunk_app. Qed.

Lemma split_chunk_inv n buf a b : split_first_chunk n buf = Some (a, b) ->
  buf = a ++ b /\ length a = n.
Proof.
  unfold split_first_chunk. destruct (Nat.leb_spec n (length buf)); [|discriminate].
  intros E. injection E as <- <-. rewrite firstn_skipn, firstn_length. split; [reflexivity|lia].
Qed.

Lemma marshal_fixed_spec arr buf :
  marshal_fixed arr buf
  = if (length arr <=? length buf)%nat then (overwrite arr buf, Ok (length arr)) else (buf, Err tt).
Proof.
  unfold marshal_fixed, split_first_chunk. destruct (length arr <=? length buf)%nat; reflexivity.
Qed.

(** ** C26 *)
(** Marshalling succeeds iff the limits support the hash and the buffer has
    [marshaled_size] bytes; it then uses exactly that many, stores the wire
    form there, and the returned rest is the untouched tail.  Without room the
    identifier is written if that fits, and nothing else. *)
Theorem c26_marshal supports x buf : wf_ha x ->
  length (ha_wire x) = ha_marshaled_size x
  /\ marshal_ha supports x buf
     = if supports (ha_hash x)
       then if (ha_marshaled_size x <=? length buf)%nat
            then (ha_wire x ++ skipn (ha_marshaled_size x) buf, Ok (ha_marshaled_size x))
            else ((if (2 <=? length buf)%nat then be_bytes 2 (ha_id x) ++ skipn 2 buf else buf), Err tt)
       else (buf, Err tt).
Proof.
  intros Hw. pose proof (wf_ha_digest x Hw) as Hd.
  assert (Hlen : length (ha_wire x) = ha_marshaled_size x).
  { unfold ha_wire, ha_marshaled_size. rewrite app_length, be_bytes_length, Hd. reflexivity. }
  split; [assumption|].
  assert (Hid : hash_id (ha_hash x) = ha_id x) by (destruct x; reflexivity).
  unfold marshal_ha at 1. destruct (supports (ha_hash x)) eqn:Hs; cbn [negb]; [|reflexivity].
  assert (Hm : match x with
               | HaSha1 d => marshal_bytes d | HaSha256 d => marshal_bytes d
               | HaSha384 d => marshal_bytes d | HaSha512 d => marshal_bytes d
               end = marshal_bytes (ha_digest x)) by (destruct x; reflexivity).
  unfold marshal_hash, marshal_alg, marshal_int, alg_of_hash. rewrite Hid.
  rewrite marshal_fixed_spec, be_bytes_length.
  destruct (Nat.leb_spec 2 (length buf)) as [H2|H2].
  - assert (E2 : forall n b, match x with
               | HaSha1 d => marshal_bytes d (skipn n b) | HaSha256 d => marshal_bytes d (skipn n b)
               | HaSha384 d => marshal_bytes d (skipn n b) | HaSha512 d => marshal_bytes d (skipn n b)
               end = marshal_bytes (ha_digest x) (skipn n b)) by (intros; destruct x; reflexivity).
    rewrite E2. unfold marshal_bytes. rewrite marshal_fixed_spec, skipn_length.
    rewrite overwrite_length by (rewrite be_bytes_length; lia).
    pose proof (skipn_overwrite (be_bytes 2 (ha_id x)) buf) as Hsk.
    rewrite be_bytes_length in Hsk. rewrite Hsk.
    pose proof (firstn_overwrite (be_bytes 2 (ha_id x)) buf) as Hfs.
    rewrite be_bytes_length in Hfs. rewrite Hfs.
    unfold ha_marshaled_size in *. rewrite <- Hd in *.
    destruct (Nat.leb_spec (length (ha_digest x)) (length buf - 2)),
             (Nat.leb_spec (2 + length (ha_digest x)) (length buf)); try lia;
      [|reflexivity].
    cbn [omap]. f_equal. unfold ha_wire, overwrite. rewrite <- app_assoc. f_equal. f_equal.
    rewrite skipn_skipn'; f_equal; lia.
  - unfold ha_marshaled_size. destruct (Nat.leb_spec (2 + digest_size (ha_hash x)) (length buf)); [lia|reflexivity].
Qed.

(** The same read as an equivalence. *)
Theorem c26_marshal_iff supports x buf : wf_ha x ->
  ((exists n, snd (marshal_ha supports x buf) = Ok n)
   <-> supports (ha_hash x) = true /\ (ha_marshaled_size x <= length buf)%nat).
Proof.
  intros Hw. destruct (c26_marshal supports x buf Hw) as [_ E]. rewrite E.
  destruct (supports (ha_hash x)); [|split; [intros [n H]; discriminate|intros [H _]; discriminate]].
  destruct (Nat.leb_spec (ha_marshaled_size x) (length buf)).
  - split; [auto|]. intros _. cbn. eauto.
  - split; [intros [n H']; discriminate|lia].
Qed.

(** A failed call leaves everything behind the first two bytes unchanged, and
    the buffer's length never changes. *)
Theorem c26_frame supports x buf : wf_ha x ->
  length (fst (marshal_ha supports x buf)) = length buf
  /\ (snd (marshal_ha supports x buf) = Err tt ->
      skipn 2 (fst (marshal_ha supports x buf)) = skipn 2 buf).
Proof.
  intros Hw. destruct (c26_marshal supports x buf Hw) as [Hl E].
  destruct (supports (ha_hash x)) eqn:Hs; [|rewrite E; auto].
  destruct (Nat.leb_spec (ha_marshaled_size x) (length buf)).
  - rewrite E. cbn [fst snd]. split; [rewrite app_length, skipn_length; lia|discriminate].
  - clear E. unfold marshal_ha. rewrite Hs. cbn [negb].
    unfold marshal_hash, marshal_alg, marshal_int. rewrite marshal_fixed_spec, be_bytes_length.
    destruct (Nat.leb_spec 2 (length buf)) as [H2|H2]; [|auto].
    assert (Hd : (length buf - 2 < length (ha_digest x))%nat).
    { rewrite (wf_ha_digest x Hw). unfold ha_marshaled_size in *. lia. }
    assert (Hb : forall d, d = ha_digest x ->
      marshal_bytes d (skipn 2 (overwrite (be_bytes 2 (alg_of_hash (ha_hash x))) buf))
      = (skipn 2 (overwrite (be_bytes 2 (alg_of_hash (ha_hash x))) buf), Err tt)).
    { intros d ->. unfold marshal_bytes. rewrite marshal_fixed_spec, skipn_length.
      rewrite overwrite_length by (rewrite be_bytes_length; lia).
      destruct (Nat.leb_spec (length (ha_digest x)) (length buf - 2)); [lia|reflexivity]. }
    assert (E : forall (p : list byte * outcome unit nat), p = (let '(rest, r) := match x with
       | HaSha1 d => marshal_bytes d (skipn 2 (overwrite (be_bytes 2 (alg_of_hash (ha_hash x))) buf))
       | HaSha256 d => marshal_bytes d (skipn 2 (overwrite (be_bytes 2 (alg_of_hash (ha_hash x))) buf))
       | HaSha384 d => marshal_bytes d (skipn 2 (overwrite (be_bytes 2 (alg_of_hash (ha_hash x))) buf))
       | HaSha512 d => marshal_bytes d (skipn 2 (overwrite (be_bytes 2 (alg_of_hash (ha_hash x))) buf))
       end in (firstn 2 (overwrite (be_bytes 2 (alg_of_hash (ha_hash x))) buf) ++ rest,
               omap (fun m => (2 + m)%nat) r)) ->
       p = (overwrite (be_bytes 2 (alg_of_hash (ha_hash x))) buf, Err tt)).
    { intros p ->. destruct x; rewrite Hb by reflexivity; cbn [omap]; rewrite firstn_skipn; reflexivity. }
    rewrite (E _ eq_refl). cbn [fst snd]. split; [apply overwrite_length; rewrite be_bytes_length; lia|].
    intros _. pose proof (skipn_overwrite (be_bytes 2 (alg_of_hash (ha_hash x))) buf) as Hsk.
    rewrite be_bytes_length in Hsk. exact Hsk.
Qed.

(** Unmarshalling the wire form followed by anything gives the digest and the
    exact rest, whatever the destination held. *)
Theorem c26_unmarshal supports x self rest : wf_ha x -> supports (ha_hash x) = true ->
  unmarshal_ha supports self (ha_wire x ++ rest) = (x, Ok rest).
Proof.
  intros Hw Hs. unfold unmarshal_ha, ha_wire. rewrite <- app_assoc.
  rewrite split_chunk_app' by apply be_bytes_length.
  destruct x; cbn [ha_id ha_hash ha_digest wf_ha] in *;
    match goal with |- context [hash_of_array ?a] =>
      let y := eval vm_compute in (hash_of_array a) in change (hash_of_array a) with y end;
    cbn iota; rewrite Hs; unfold take_digest; rewrite split_chunk_app' by assumption; reflexivity.
Qed.

(** Marshal then unmarshal. *)
Theorem c26_round_trip supports x self buf buf' n rest : wf_ha x ->
  marshal_ha supports x buf = (buf', Ok n) ->
  unmarshal_ha supports self (firstn n buf' ++ rest) = (x, Ok rest).
Proof.
  intros Hw Hm. destruct (c26_marshal supports x buf Hw) as [Hl E]. rewrite E in Hm.
  destruct (supports (ha_hash x)) eqn:Hs; [|discriminate].
  destruct (ha_marshaled_size x <=? length buf)%nat; [|discriminate].
  assert (buf' = ha_wire x ++ skipn (ha_marshaled_size x) buf) as -> by congruence.
  assert (n = ha_marshaled_size x) as -> by congruence.
  rewrite firstn_app_exact' by (symmetry; assumption). apply c26_unmarshal; assumption.
Qed.

Example c26_example :
  let only256 h := match h with Sha256 => true | _ => false end in
  let x := HaSha256 (repeat x5a 32) in
  wf_ha x /\ only256 (ha_hash x) = true
  /\ snd (marshal_ha only256 x (repeat x00 40)) = Ok 34%nat
  /\ snd (marshal_ha only256 x (repeat x00 33)) = Err tt
  /\ snd (marshal_ha only256 (HaSha1 (repeat x5a 20)) (repeat x00 40)) = Err tt
  /\ unmarshal_ha only256 (HaSha1 []) (x00 :: x0b :: repeat x5a 32 ++ [x01]) = (x, Ok [x01]).
Proof. repeat split. Qed.

(** ** C27 *)
(** Whatever unmarshals is allowed by the limits and is exactly the prefix
    read; on failure the destination keeps its value. *)
Theorem c27_unmarshal_limits supports self buf x rest :
  unmarshal_ha supports self buf = (x, Ok rest) ->
  supports (ha_hash x) = true /\ wf_ha x /\ buf = ha_wire x ++ rest.
Proof.
  unfold unmarshal_ha. destruct (split_first_chunk 2 buf) as [[arr b]|] eqn:E1; [|discriminate].
  apply split_chunk_inv in E1. destruct E1 as [-> Hl].
  unfold hash_of_array, hash_of_alg, int_of_be. cbn [andb].
  assert (Hv : arr = be_bytes 2 (be_val arr)).
  { rewrite <- Hl. symmetry. apply be_bytes_val. }
  assert (T : forall n mk, (forall d, ha_digest (mk d) = d) ->
     (forall d, length d = n -> wf_ha (mk d)) ->
     take_digest n mk self b = (x, Ok rest) -> exists d, x = mk d /\ wf_ha x /\ b = d ++ rest).
  { intros n mk Hd Hw E. unfold take_digest in E.
    destruct (split_first_chunk n b) as [[d r]|] eqn:E2; [|discriminate]. injection E as <- <-.
    apply split_chunk_inv in E2. destruct E2 as [-> Hn]. eauto. }
  repeat match goal with
  | |- context [if ?a =? ?n then _ else _] => destruct (Z.eqb_spec a n) as [Ev|_]
  end; cbn iota; try discriminate;
  match goal with |- (if ?c then _ else _) = _ -> _ => destruct c eqn:Hs; [|discriminate] end;
  intros E; apply T in E; try reflexivity; try (cbn; auto; fail);
  destruct E as (d & -> & Hw & ->); (split; [exact Hs|split; [exact Hw|]]);
  rewrite Hv, Ev; unfold ha_wire; rewrite <- app_assoc; reflexivity.
Qed.

Theorem c27_unmarshal_failure supports self buf :
  (exists x rest, unmarshal_ha supports self buf = (x, Ok rest))
  \/ unmarshal_ha supports self buf = (self, Err tt).
Proof.
  unfold unmarshal_ha. destruct (split_first_chunk 2 buf) as [[arr b]|]; [|auto].
  assert (T : forall n mk, (exists x rest, take_digest n mk self b = (x, Ok rest))
                           \/ take_digest n mk self b = (self, Err tt)).
  { intros n mk. unfold take_digest. destruct (split_first_chunk n b) as [[d r]|]; eauto. }
  unfold hash_of_array, hash_of_alg.
  repeat match goal with
  | |- context [if ?a =? ?n then _ else _] => destruct (a =? n)
  end; cbn iota; auto;
  match goal with |- context [if ?c then _ else _] => destruct c end; auto.
Qed.

(** Nothing the limits exclude is marshalled, and such a call writes nothing. *)
Theorem c27_marshal_limits supports x buf :
  supports (ha_hash x) = false -> marshal_ha supports x buf = (buf, Err tt).
Proof. intros H. unfold marshal_ha. rewrite H. reflexivity. Qed.

Example c27_example :
  unmarshal_ha (fun _ => false) (HaSha1 []) (x00 :: x0b :: repeat x5a 32) = (HaSha1 [], Err tt)
  /\ unmarshal_ha (fun _ => true) (HaSha1 []) (x00 :: x0b :: repeat x5a 31) = (HaSha1 [], Err tt)
  /\ unmarshal_ha (fun _ => true) (HaSha1 []) (x00 :: x27 :: repeat x5a 32) = (HaSha1 [], Err tt).
Proof. repeat split. Qed.

(** ** C28 *)
Theorem c28_max_digest_size supports :
  (forall h, supports h = true -> (digest_size h <= max_digest_size supports)%nat)
  /\ ((exists h, supports h = true /\ digest_size h = max_digest_size supports)
      \/ ((forall h, supports h = false) /\ max_digest_size supports = 0%nat)).
Proof.
  unfold max_digest_size, BY_SIZE_DESC. cbn [first_supported].
  destruct (supports Sha512) eqn:E1; [split; [intros [] _; cbn; lia|left; eauto]|].
  destruct (supports Sha3_512) eqn:E2; [split; [intros [] H; cbn; try lia; congruence|left; eauto]|].
  destruct (supports Sha384) eqn:E3; [split; [intros [] H; cbn; try lia; congruence|left; eauto]|].
  destruct (supports Sha3_384) eqn:E4; [split; [intros [] H; cbn; try lia; congruence|left; eauto]|].
  destruct (supports Sha256) eqn:E5; [split; [intros [] H; cbn; try lia; congruence|left; eauto]|].
  destruct (supports Sha3_256) eqn:E6; [split; [intros [] H; cbn; try lia; congruence|left; eauto]|].
  destruct (supports Sm3_256) eqn:E7; [split; [intros [] H; cbn; try lia; congruence|left; eauto]|].
  destruct (supports Sha1) eqn:E8; [split; [intros [] H; cbn; try lia; congruence|left; eauto]|].
  split; [intros [] H; congruence|right]. split; [intros []; assumption|reflexivity].
Qed.

Theorem c28_marshaled_size_max supports x :
  supports (ha_hash x) = true -> (ha_marshaled_size x <= ha_marshaled_size_max supports)%nat.
Proof.
  intros H. unfold ha_marshaled_size, ha_marshaled_size_max.
  pose proof (proj1 (c28_max_digest_size supports) _ H). lia.
Qed.

(** So a buffer of [marshaled_size_max] bytes is enough for every value the
    limits allow. *)
Theorem c28_buffer_suffices supports x buf :
  wf_ha x -> supports (ha_hash x) = true -> (ha_marshaled_size_max supports <= length buf)%nat ->
  exists n, snd (marshal_ha supports x buf) = Ok n /\ (n <= ha_marshaled_size_max supports)%nat.
Proof.
  intros Hw Hs Hb. pose proof (c28_marshaled_size_max supports x Hs).
  destruct (c26_marshal supports x buf Hw) as [_ E]. rewrite E, Hs.
  destruct (Nat.leb_spec (ha_marshaled_size x) (length buf)); [|lia]. cbn. eauto.
Qed.

(** And no byte of it is wasted: it is the two bytes of the identifier and the
    longest digest supported. *)
Theorem c28_no_waste supports :
  (exists h, supports h = true /\ ha_marshaled_size_max supports = (2 + digest_size h)%nat)
  \/ ((forall h, supports h = false) /\ ha_marshaled_size_max supports = 2%nat).
Proof.
  unfold ha_marshaled_size_max. destruct (c28_max_digest_size supports) as [_ [(h & S & E)|[N E]]].
  - left. exists h. now rewrite E.
  - right. now rewrite E.
Qed.

Example c28_example :
  max_digest_size (fun h => match h with Sha1 | Sm3_256 => true | _ => false end) = 32%nat
  /\ max_digest_size (fun _ => false) = 0%nat
  /\ ha_marshaled_size_max (fun h => match h with Sha384 | Sha256 => true | _ => false end) = 50%nat.
Proof. repeat split. Qed.

(** ** C29 *)
Theorem c29_hash_alg_round_trip h : hash_of_alg (alg_of_hash h) = Ok h.
Proof. destruct h; reflexivity. Qed.

(** Conversion from an identifier accepts exactly the eight hash identifiers
    of the registry. *)
Theorem c29_try_from a :
  match hash_of_alg a with
  | Ok h => alg_of_hash h = a
  | Err _ => ~ In a [0x0004; 0x000B; 0x000C; 0x000D; 0x0012; 0x0027; 0x0028; 0x0029]
  | Panic => False
  end.
Proof.
  unfold hash_of_alg.
  repeat match goal with
  | |- context [if a =? ?n then _ else _] => destruct (Z.eqb_spec a n); [subst; reflexivity|]
  end.
  cbn. intuition.
Qed.

Theorem c29_identifiers :
  map alg_of_hash [Sha1; Sha256; Sha384; Sha512; Sm3_256; Sha3_256; Sha3_384; Sha3_512]
  = [0x0004; 0x000B; 0x000C; 0x000D; 0x0012; 0x0027; 0x0028; 0x0029]
  /\ map digest_size [Sha1; Sha256; Sha384; Sha512; Sm3_256; Sha3_256; Sha3_384; Sha3_512]
     = [20; 32; 48; 64; 32; 32; 48; 64]%nat.
Proof. split; reflexivity. Qed.

(** Integers of every width marshal as their big-endian bytes, use exactly
    their width, and come back; a shorter input or buffer is an error that
    changes nothing. *)
Theorem c29_ints sg k z self buf rest :
  (0 < k)%nat -> in_range sg k z = true ->
  (marshal_int k z buf
   = if (k <=? length buf)%nat then (be_bytes k z ++ skipn k buf, Ok k) else (buf, Err tt))
  /\ unmarshal_int sg k self (be_bytes k z ++ rest) = (z, Ok rest)
  /\ ((length rest < k)%nat -> unmarshal_int sg k self rest = (self, Err tt)).
Proof.
  intros Hk Hz. repeat split.
  - unfold marshal_int. rewrite marshal_fixed_spec. unfold overwrite. rewrite be_bytes_length. reflexivity.
  - unfold unmarshal_int, unmarshal_fixed.
    rewrite split_chunk_app' by apply be_bytes_length.
    pose proof (unm_int_app sg k z [] Hz) as H. unfold unm_int, unm_bytes, buf_get in H.
    rewrite app_nil_r, be_bytes_length, Nat2N.id, N.ltb_irrefl in H.
    rewrite firstn_all2 in H by (rewrite be_bytes_length; lia). cbn [omap] in H.
    injection H as H _. rewrite H. reflexivity.
  - intros Hl. unfold unmarshal_int, unmarshal_fixed, split_first_chunk.
    destruct (Nat.leb_spec k (length rest)); [lia|reflexivity].
Qed.

(** Algorithm identifiers and arrays of bytes. *)
Theorem c29_algs a self buf rest : 0 <= a < 2 ^ 16 ->
  (marshal_alg a buf
   = if (2 <=? length buf)%nat then (be_bytes 2 a ++ skipn 2 buf, Ok 2%nat) else (buf, Err tt))
  /\ unmarshal_alg self (be_bytes 2 a ++ rest) = (a, Ok rest)
  /\ ((length rest < 2)%nat -> unmarshal_alg self rest = (self, Err tt)).
Proof.
  intros H. apply (c29_ints false 2 a self buf rest); [lia|].
  unfold in_range. change (pow256 2) with (2 ^ 16). lia.
Qed.
Theorem c29_bytes d buf :
  marshal_bytes d buf
  = if (length d <=? length buf)%nat then (d ++ skipn (length d) buf, Ok (length d)) else (buf, Err tt).
Proof. unfold marshal_bytes. rewrite marshal_fixed_spec. reflexivity. Qed.

(** Hash identifiers as values of their own. *)
Theorem c29_hash_marshal h self buf rest :
  marshal_hash h buf
  = (if (2 <=? length buf)%nat then (be_bytes 2 (alg_of_hash h) ++ skipn 2 buf, Ok 2%nat) else (buf, Err tt))
  /\ unmarshal_hash self (be_bytes 2 (alg_of_hash h) ++ rest) = (h, Ok rest).
Proof.
  split.
  - unfold marshal_hash, marshal_alg, marshal_int. rewrite marshal_fixed_spec. unfold overwrite.
    rewrite be_bytes_length. reflexivity.
  - unfold unmarshal_hash, unmarshal_fixed. rewrite split_chunk_app' by apply be_bytes_length.
    destruct h; reflexivity.
Qed.

Example c29_example :
  in_range true 4 (-2) = true
  /\ marshal_int 4 (-2) [x00;x00;x00;x00;x07] = ([xff;xff;xff;xfe;x07], Ok 4%nat)
  /\ unmarshal_int true 4 0 [xff;xff;xff;xfe;x07] = (-2, Ok [x07])
  /\ hash_of_alg 0x0010 = Err tt.
Proof. repeat split. Qed.
