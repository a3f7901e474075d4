(** The three hand-written [Marshalable] implementations, statement by
    statement, over records with the names of the declarations.  The catalogue
    describes the same types by [TSplit]; the proofs below show that the two
    agree on every value, every buffer and every input. *)
From Coq Require Import String ZArith NArith List Lia Bool.
From Coq Require Import Init.Byte.
From Verif Require Import Prelude Types Marshal WireSpec Layout Catalogue.
Import ListNotations.
Open Scope Z_scope.

(** An enum value: the discriminant and the fields of the variant. *)
Record union := Union { discriminant : Z; variant_fields : list val }.

(** base/src/lib.rs:765-772 *)
Record TpmsAttest_t := {
  magic : val;
  qualified_signer : val;
  extra_data : val;
  clock_info : val;
  firmware_version : val;
  attested : union }.

(** base/src/lib.rs:1173-1178 *)
Record TpmtPublic_t := {
  name_alg : val;
  object_attributes : val;
  auth_policy : val;
  parms_and_id : union }.

(** base/src/lib.rs:1243-1247 *)
Record TpmtSensitive_t := {
  auth_value : val;
  seed_value : val;
  sensitive : union }.

(** [x.discriminant().try_marshal(..)] (the [Discriminant] derive returns the
    [repr] integer, here u16) and [x.try_marshal_variant(..)]
    (marshalable-derive/src/lib.rs:490-521). *)
Definition discriminant_try_marshal (u : union) : list byte -> mres := mar_int 2 (discriminant u).
Definition try_marshal_variant (vrs : variants) (u : union) : list byte -> mres :=
  marshal_variant vrs (discriminant u) (variant_fields u).
(** [U::try_unmarshal_variant(selector, buffer)]: marshalable-derive/src/lib.rs:686-727. *)
Definition try_unmarshal_variant (vrs : variants) (selector : Z) (buf : list byte) : ures union :=
  umap (Union selector) (unmarshal_variant vrs selector buf).

(** [written += ...?; ...]: one statement, then the rest. *)
Definition stmt (f : list byte -> mres) (k : nat -> list byte -> mres) (w : nat) (buf : list byte) : mres :=
  mthen (mseq f w buf) k.
(** [Ok(written)] *)
Definition done (w : nat) (buf : list byte) : mres := (buf, Ok w).

(** base/src/lib.rs:775-789 *)
Definition attest_try_marshal (self : TpmsAttest_t) (buffer : list byte) : mres :=
  stmt (marshal TpmGenerated (magic self)) (
  stmt (discriminant_try_marshal (attested self)) (
  stmt (marshal Tpm2bName (qualified_signer self)) (
  stmt (marshal Tpm2bData (extra_data self)) (
  stmt (marshal TpmsClockInfo (clock_info self)) (
  stmt (marshal u64 (firmware_version self)) (
  stmt (try_marshal_variant attest_variants (attested self)) done)))))) 0 buffer.

(** base/src/lib.rs:791-802 *)
Definition attest_try_unmarshal (buffer : list byte) : ures TpmsAttest_t :=
  uthen (unmarshal TpmGenerated buffer) (fun magic buffer =>
  uthen (unm_int false 2 buffer) (fun selector buffer =>
  uthen (unmarshal Tpm2bName buffer) (fun qualified_signer buffer =>
  uthen (unmarshal Tpm2bData buffer) (fun extra_data buffer =>
  uthen (unmarshal TpmsClockInfo buffer) (fun clock_info buffer =>
  uthen (unmarshal u64 buffer) (fun firmware_version buffer =>
  uthen (try_unmarshal_variant attest_variants selector buffer) (fun attested buffer =>
  (Ok {| magic := magic; qualified_signer := qualified_signer; extra_data := extra_data;
         clock_info := clock_info; firmware_version := firmware_version; attested := attested |},
   buffer)))))))).

(** base/src/lib.rs:1181-1194 *)
Definition public_try_marshal (self : TpmtPublic_t) (buffer : list byte) : mres :=
  stmt (discriminant_try_marshal (parms_and_id self)) (
  stmt (marshal TpmiAlgHash (name_alg self)) (
  stmt (marshal TpmaObject (object_attributes self)) (
  stmt (marshal Tpm2bDigest (auth_policy self)) (
  stmt (try_marshal_variant public_variants (parms_and_id self)) done)))) 0 buffer.

(** base/src/lib.rs:1195-1203 *)
Definition public_try_unmarshal (buffer : list byte) : ures TpmtPublic_t :=
  uthen (unm_int false 2 buffer) (fun selector buffer =>
  uthen (unmarshal TpmiAlgHash buffer) (fun name_alg buffer =>
  uthen (unmarshal TpmaObject buffer) (fun object_attributes buffer =>
  uthen (unmarshal Tpm2bDigest buffer) (fun auth_policy buffer =>
  uthen (try_unmarshal_variant public_variants selector buffer) (fun parms_and_id buffer =>
  (Ok {| name_alg := name_alg; object_attributes := object_attributes;
         auth_policy := auth_policy; parms_and_id := parms_and_id |}, buffer)))))).

(** base/src/lib.rs:1250-1260 *)
Definition sensitive_try_marshal (self : TpmtSensitive_t) (buffer : list byte) : mres :=
  stmt (discriminant_try_marshal (sensitive self)) (
  stmt (marshal Tpm2bDigest (auth_value self)) (
  stmt (marshal Tpm2bDigest (seed_value self)) (
  stmt (try_marshal_variant sensitive_variants (sensitive self)) done))) 0 buffer.

(** base/src/lib.rs:1262-1269 *)
Definition sensitive_try_unmarshal (buffer : list byte) : ures TpmtSensitive_t :=
  uthen (unm_int false 2 buffer) (fun selector buffer =>
  uthen (unmarshal Tpm2bDigest buffer) (fun auth_value buffer =>
  uthen (unmarshal Tpm2bDigest buffer) (fun seed_value buffer =>
  uthen (try_unmarshal_variant sensitive_variants selector buffer) (fun sensitive buffer =>
  (Ok {| auth_value := auth_value; seed_value := seed_value; sensitive := sensitive |}, buffer))))).

(** ** The same values for the catalogue *)
Definition union_val (u : union) : val := VEnum (discriminant u) (variant_fields u).
Definition attest_val (x : TpmsAttest_t) : val :=
  VStruct [VStruct [magic x];
           VStruct [qualified_signer x; extra_data x; clock_info x; firmware_version x];
           union_val (attested x)].
Definition public_val (x : TpmtPublic_t) : val :=
  VStruct [VStruct []; VStruct [name_alg x; object_attributes x; auth_policy x];
           union_val (parms_and_id x)].
Definition sensitive_val (x : TpmtSensitive_t) : val :=
  VStruct [VStruct []; VStruct [auth_value x; seed_value x]; union_val (sensitive x)].

Lemma mthen_done r : mthen r done = r.
Proof. destruct r as [b [w|e|]]; reflexivity. Qed.
Lemma mthen_assoc r f g : mthen (mthen r f) g = mthen r (fun w b => mthen (f w b) g).
Proof. destruct r as [b [w|e|]]; reflexivity. Qed.
Lemma mthen_ext r f g : (forall w b, f w b = g w b) -> mthen r f = mthen r g.
Proof. intros H. destruct r as [b [w|e|]]; cbn; auto. Qed.
Lemma uthen_umap {A B C} (f : A -> B) (r : ures A) (k : B -> list byte -> ures C) :
  uthen (umap f r) k = uthen r (fun a b => k (f a) b).
Proof. destruct r as [[a|e|] b]; reflexivity. Qed.
Lemma uthen_assoc {A B C} (r : ures A) (f : A -> list byte -> ures B) (g : B -> list byte -> ures C) :
  uthen (uthen r f) g = uthen r (fun a b => uthen (f a b) g).
Proof. destruct r as [[a|e|] b]; reflexivity. Qed.
Lemma umap_uthen {A B} (f : A -> B) (r : ures A) : umap f r = uthen r (fun a b => (Ok (f a), b)).
Proof. destruct r as [[a|e|] b]; reflexivity. Qed.
Lemma uthen_ext {A B} (r : ures A) (f g : A -> list byte -> ures B) :
  (forall a b, f a b = g a b) -> uthen r f = uthen r g.
Proof. intros H. destruct r as [[a|e|] b]; cbn; auto. Qed.

Lemma attest_try_marshal_ok x buf : attest_try_marshal x buf = marshal TpmsAttest (attest_val x) buf.
Proof.
  unfold attest_try_marshal, stmt, TpmsAttest, attest_val, union_val, discriminant_try_marshal, try_marshal_variant.
  cbn [marshal marshal_tys mk_tys].
  repeat (rewrite ?mthen_assoc; cbn [mthen]; apply mthen_ext; intros).
  rewrite mthen_done. reflexivity.
Qed.

Lemma public_try_marshal_ok x buf : public_try_marshal x buf = marshal TpmtPublic (public_val x) buf.
Proof.
  unfold public_try_marshal, stmt, TpmtPublic, public_val, union_val, discriminant_try_marshal, try_marshal_variant.
  cbn [marshal marshal_tys mk_tys mthen].
  repeat (rewrite ?mthen_assoc; cbn [mthen]; apply mthen_ext; intros).
  rewrite mthen_done. reflexivity.
Qed.

Lemma sensitive_try_marshal_ok x buf : sensitive_try_marshal x buf = marshal TpmtSensitive (sensitive_val x) buf.
Proof.
  unfold sensitive_try_marshal, stmt, TpmtSensitive, sensitive_val, union_val, discriminant_try_marshal, try_marshal_variant.
  cbn [marshal marshal_tys mk_tys mthen].
  repeat (rewrite ?mthen_assoc; cbn [mthen]; apply mthen_ext; intros).
  rewrite mthen_done. reflexivity.
Qed.

Ltac uchain :=
  repeat (repeat (rewrite ?umap_uthen, ?uthen_assoc; progress cbn [uthen]); rewrite ?umap_uthen, ?uthen_assoc; first [reflexivity | apply uthen_ext; intros]).

Lemma attest_try_unmarshal_ok buf :
  umap attest_val (attest_try_unmarshal buf) = unmarshal TpmsAttest buf.
Proof.
  unfold attest_try_unmarshal, TpmsAttest, try_unmarshal_variant.
  cbn [unmarshal unmarshal_tys mk_tys]. uchain.
Qed.

Lemma public_try_unmarshal_ok buf :
  umap public_val (public_try_unmarshal buf) = unmarshal TpmtPublic buf.
Proof.
  unfold public_try_unmarshal, TpmtPublic, try_unmarshal_variant.
  cbn [unmarshal unmarshal_tys mk_tys uthen]. uchain.
Qed.

Lemma sensitive_try_unmarshal_ok buf :
  umap sensitive_val (sensitive_try_unmarshal buf) = unmarshal TpmtSensitive buf.
Proof.
  unfold sensitive_try_unmarshal, TpmtSensitive, try_unmarshal_variant.
  cbn [unmarshal unmarshal_tys mk_tys uthen]. uchain.
Qed.
