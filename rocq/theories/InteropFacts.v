(** The two generations of TPMT_HA, of the base crate and of crates/tpm2, on the
    wire (C77). *)
From Coq Require Import String ZArith NArith List Lia Bool.
From Coq Require Import Init.Byte.
From Verif Require Import Prelude Types Marshal WireSpec MarshalProofs WriteSpec MarshalWrite MarshalFacts
  Catalogue Limits LimitsFacts.
Import ListNotations.
Open Scope Z_scope.

(** The value of the base crate with the same hash and digest. *)
Definition old_of (x : ha) : val := VEnum (hash_id (ha_hash x)) [VBytes (ha_digest x)].

Lemma old_wf x : wf_ha x -> wf TpmtHa (old_of x) = true.
Proof.
  destruct x; unfold old_of; cbn [wf_ha ha_hash ha_digest hash_id]; intros L;
    unfold TpmtHa, enum; cbn; rewrite L; reflexivity.
Qed.
Lemma old_enc x : enc TpmtHa (old_of x) = ha_wire x.
Proof. destruct x; unfold old_of, ha_wire, TpmtHa, enum; cbn -[be_bytes]; rewrite app_nil_r; reflexivity. Qed.

Lemma old_cases v : wf TpmtHa v = true ->
  (exists x, wf_ha x /\ v = old_of x) \/ (exists d, length d = 32%nat /\ v = VEnum (hash_id Sm3_256) [VBytes d]).
Proof.
  intros W. destruct v as [| | | | |sel args|]; try discriminate.
  unfold TpmtHa, enum in W. cbn [wf mk_variants wf_variant] in W.
  assert (A : forall n, wf_tys (TCons (TBytes n) TNil) args = true ->
            exists d, args = [VBytes d] /\ length d = N.to_nat n).
  { intros n H. destruct args as [|[| |d| | | |] [|? ?]]; cbn in H; try discriminate; try (rewrite andb_false_r in H; discriminate).
    rewrite andb_true_r in H. apply N.eqb_eq in H. exists d. split; [reflexivity|lia]. }
  repeat match type of W with
  | (if ?s =? ?a then _ else _) = true => destruct (Z.eqb_spec s a) as [->|_];
      [apply A in W as (d & -> & L)|]
  end; [left..|right|discriminate].
  - now exists (HaSha1 d).
  - now exists (HaSha256 d).
  - now exists (HaSha384 d).
  - now exists (HaSha512 d).
  - now exists d.
Qed.

(** ** C77 *)
(** What crates/tpm2 writes is what the base crate writes for the same hash and
    digest, and the base crate reads it as that. *)
Theorem c77_new_to_old supports x buf buf' n rest :
  wf_ha x -> marshal_ha supports x buf = (buf', Ok n) ->
  marshal TpmtHa (old_of x) buf = (buf', Ok n)
  /\ unmarshal TpmtHa (firstn n buf' ++ rest) = (Ok (old_of x), rest).
Proof.
  intros W M. destruct (c26_marshal supports x buf W) as (L & E). rewrite E in M.
  destruct (supports (ha_hash x)); [|discriminate].
  destruct (Nat.leb_spec (ha_marshaled_size x) (length buf)) as [B|]; [|discriminate].
  injection M as <- <-.
  assert (M' : marshal TpmtHa (old_of x) buf = (ha_wire x ++ skipn (ha_marshaled_size x) buf, Ok (ha_marshaled_size x))).
  { rewrite marshal_fits; [|apply old_wf, W|rewrite old_enc; lia].
    unfold overwrite. rewrite old_enc, L. reflexivity. }
  split; [exact M'|]. apply (c01_round_trip TpmtHa (old_of x) buf); [reflexivity|apply old_wf, W| |exact M'].
  destruct x; reflexivity.
Qed.

(** What the base crate writes is read by crates/tpm2 as the same hash and
    digest if the limits allow that hash; except that SM3_256 is never read. *)
Theorem c77_old_to_new_partial supports self v buf buf' n rest :
  wf TpmtHa v = true -> marshal TpmtHa v buf = (buf', Ok n) ->
  (exists x, wf_ha x /\ v = old_of x
     /\ unmarshal_ha supports self (firstn n buf' ++ rest)
        = if supports (ha_hash x) then (x, Ok rest) else (self, Err tt))
  \/ (exists d, v = VEnum 0x0012 [VBytes d]
     /\ unmarshal_ha supports self (firstn n buf' ++ rest) = (self, Err tt)).
Proof.
  intros W M. apply marshal_ok_inv in M; [|exact W]. destruct M as (_ & -> & ->). rewrite firstn_overwrite.
  destruct (old_cases v W) as [(x & Hx & ->)|(d & Hd & ->)]; [left|right].
  - exists x. split; [exact Hx|]. split; [reflexivity|]. rewrite old_enc.
    destruct (supports (ha_hash x)) eqn:Hs; [apply c26_unmarshal; assumption|].
    unfold unmarshal_ha, ha_wire. rewrite <- app_assoc, split_chunk_app' by apply be_bytes_length.
    destruct x; cbn [ha_id ha_hash] in *;
      match goal with |- context [hash_of_array ?a] =>
        let y := eval vm_compute in (hash_of_array a) in change (hash_of_array a) with y end;
      cbn iota; rewrite Hs; reflexivity.
  - exists d. split; [reflexivity|].
    assert (E : enc TpmtHa (VEnum (hash_id Sm3_256) [VBytes d]) = be_bytes 2 (hash_id Sm3_256) ++ d).
    { unfold TpmtHa, enum. cbn -[be_bytes]. rewrite app_nil_r. reflexivity. }
    rewrite E. unfold unmarshal_ha. rewrite <- app_assoc, split_chunk_app' by apply be_bytes_length.
    reflexivity.
Qed.

(** So an SM3_256 digest cannot be passed on, even if the limits allow it. *)
Theorem c77_interchange_refuted :
  exists v bytes, wf TpmtHa v = true
    /\ marshal TpmtHa v (repeat x00 34) = (bytes, Ok 34%nat)
    /\ forall self, unmarshal_ha (fun _ => true) self bytes = (self, Err tt).
Proof.
  exists (VEnum 0x0012 [VBytes (repeat x5a 32)]), ([x00; x12] ++ repeat x5a 32).
  split; [vm_compute; reflexivity|]. split; [vm_compute; reflexivity|]. intros self. vm_compute. reflexivity.
Qed.

(** *** The hypotheses can be met *)
Example c77_example :
  let x := HaSha256 (repeat x5a 32) in
  wf_ha x /\ snd (marshal_ha (fun _ => true) x (repeat x00 34)) = Ok 34%nat
  /\ wf TpmtHa (old_of x) = true /\ snd (marshal TpmtHa (old_of x) (repeat x00 40)) = Ok 34%nat.
Proof. vm_compute. auto. Qed.
