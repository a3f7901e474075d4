(** Which alternatives of the unions are taken, against TPM 2.0 Part 2 (C94). *)
From Coq Require Import String ZArith NArith List Lia Bool.
From Coq Require Import Init.Byte.
From Verif Require Import Prelude Types Marshal WireSpec MarshalProofs Layout Catalogue Samples MarshalFacts Part2 Handwritten LayoutProofs LayoutFacts Part2Constants Part2Selectors.
Import ListNotations.
Local Open Scope string_scope.
Local Open Scope list_scope.
Open Scope Z_scope.

(** The library's union and the width of its selector; its selectors in Part 2;
    those the library takes though Part 2 does not list them; those it refuses
    though Part 2 lists them. *)
Definition part2_unions : list (ty * nat * list string * list string * list string) := [
  (TpmtHa, 2%nat, TPMI_ALG_HASH,
     [], ["TPM_ALG_SHA3_256"; "TPM_ALG_SHA3_384"; "TPM_ALG_SHA3_512"; "TPM_ALG_NULL"]);
  (TpmuAttest, 2%nat, TPMI_ST_ATTEST, [], ["TPM_ST_ATTEST_NV_DIGEST"]);
  (TpmtKeyedHashScheme, 2%nat, TPMI_ALG_KEYEDHASH_SCHEME, [], []);
  (TpmtSymDefObject, 2%nat, TPMI_ALG_SYM_OBJECT, ["TPM_ALG_XOR"], ["TPM_ALG_TDES"]);
  (TpmtSignature, 2%nat, TPMI_ALG_SIG_SCHEME,
     [], ["TPM_ALG_EDDSA"; "TPM_ALG_HASH_EDDSA"; "TPM_ALG_MLDSA"; "TPM_ALG_HASH_MLDSA"]);
  (TpmtSigScheme, 2%nat, TPMI_ALG_SIG_SCHEME,
     [], ["TPM_ALG_EDDSA"; "TPM_ALG_HASH_EDDSA"; "TPM_ALG_MLDSA"; "TPM_ALG_HASH_MLDSA"]);
  (TpmtRsaScheme, 2%nat, TPMI_ALG_RSA_SCHEME,
     ["TPM_ALG_ECDSA"; "TPM_ALG_ECDAA"; "TPM_ALG_SM2"; "TPM_ALG_ECSCHNORR"], []);
  (TpmtEccScheme, 2%nat, TPMI_ALG_ECC_SCHEME,
     ["TPM_ALG_RSASSA"; "TPM_ALG_RSAPSS"], ["TPM_ALG_EDDSA"; "TPM_ALG_HASH_EDDSA"]);
  (TpmtKdfScheme, 2%nat, TPMI_ALG_KDF, [], ["TPM_ALG_HKDF"]);
  (PublicParmsAndId, 2%nat, TPMI_ALG_PUBLIC,
     [], ["TPM_ALG_MLDSA"; "TPM_ALG_HASH_MLDSA"; "TPM_ALG_MLKEM"]);
  (TpmuSensitiveComposite, 2%nat, TPMI_ALG_PUBLIC,
     ["TPM_ALG_NULL"], ["TPM_ALG_MLDSA"; "TPM_ALG_HASH_MLDSA"; "TPM_ALG_MLKEM"]);
  (TpmsCapabilityData, 4%nat, CAPABILITIES,
     [], ["TPM_CAP_ACT"; "TPM_CAP_PUB_KEYS"; "TPM_CAP_SPDM_SESSION_INFO"; "TPM_CAP_VENDOR_PROPERTY"])].

(** Some bytes that begin with the selector are a value of the union. *)
Definition takes (t : ty) (k : nat) (sel : Z) : Prop :=
  exists body v, unmarshal t (be_bytes k sel ++ body) = (Ok v, []).

(** ** Proofs *)
Definition values (names : list string) : list Z :=
  flat_map (fun n => flat_map (fun e => if String.eqb (fst e) n then [snd e] else [])
                              (TPM_ALG ++ TPM_ST ++ TPM_CAP)) names.
Lemma values_listed names sel : In sel (values names) <-> listed names sel.
Proof.
  unfold values, listed, has_value. rewrite in_flat_map. split.
  - intros (n & Hn & H). exists n. split; [exact Hn|]. rewrite in_flat_map in H.
    destruct H as ([m z] & He & Hz). cbn [fst snd] in Hz. destruct (String.eqb m n) eqn:E; [|destruct Hz].
    apply String.eqb_eq in E. destruct Hz as [<-|[]]. subst m. exact He.
  - intros (n & Hn & H). exists n. split; [exact Hn|]. rewrite in_flat_map. exists (n, sel).
    split; [exact H|]. cbn [fst snd]. rewrite String.eqb_refl. left. reflexivity.
Qed.

Definition mem (z : Z) (l : list Z) : bool := existsb (Z.eqb z) l.
Lemma mem_In z l : mem z l = true <-> In z l.
Proof.
  unfold mem. rewrite existsb_exists. split.
  - intros (x & Hx & E). apply Z.eqb_eq in E. subst x. exact Hx.
  - intros H. exists z. split; [exact H|apply Z.eqb_refl].
Qed.
Definition within (a b : list Z) : bool := forallb (fun z => mem z b) a.
Lemma within_In a b z : within a b = true -> In z a -> In z b.
Proof. unfold within. rewrite forallb_forall. intros H Hz. apply mem_In. exact (H _ Hz). Qed.
Definition apart (a b : list Z) : bool := forallb (fun z => negb (mem z b)) a.
Lemma apart_In a b z : apart a b = true -> In z a -> ~ In z b.
Proof.
  unfold apart. rewrite forallb_forall. intros H Hz Hb. apply mem_In in Hb. specialize (H _ Hz).
  rewrite Hb in H. discriminate.
Qed.


Definition row_ok (sels : list Z) (names extra absent : list string) : bool :=
  (within sels (values names ++ values extra) && apart sels (values absent) && within (values extra) sels
   && forallb (fun z => mem z sels || mem z (values absent)) (values names)
   && apart (values extra) (values names) && within (values absent) (values names))%bool.
Lemma row t k names extra absent :
  In (t, k, names, extra, absent) part2_unions ->
  exists sels, In (t, k, sels) unions /\ row_ok sels names extra absent = true.
Proof.
  intros Hin.
  assert (F : Forall (fun x => exists sels, In (fst (fst (fst x)), sels) unions
                /\ row_ok sels (snd (fst (fst x))) (snd (fst x)) (snd x) = true) part2_unions).
  { unfold part2_unions. repeat (apply Forall_cons;
      [cbn [fst snd]; eexists; split;
         [unfold unions; cbn [In]; repeat (first [left; reflexivity | right]) | vm_compute; reflexivity]|]).
    apply Forall_nil. }
  rewrite Forall_forall in F. exact (F _ Hin).
Qed.
Lemma taken t k sels sel :
  In (t, k, sels) unions -> in_range false k sel = true -> (takes t k sel <-> In sel sels).
Proof.
  intros Hu Hr. destruct (c54_selectors_partial _ _ _ _ Hu Hr) as (Hy & Hn). split.
  - intros (body & v & E). destruct (in_dec Z.eq_dec sel sels) as [H|H]; [exact H|].
    rewrite (Hn H body) in E. discriminate.
  - intros H. destruct (Hy H) as (body & args & E). exists body, (VEnum sel args). exact E.
Qed.

(** ** C94 *)
(** Exactly the selectors of Part 2 that are not in the third list, and those of
    the second list, begin a value of the union. *)
Theorem c94_taken_partial t k names extra absent sel :
  In (t, k, names, extra, absent) part2_unions -> in_range false k sel = true ->
  (takes t k sel <-> (listed names sel /\ ~ listed absent sel) \/ listed extra sel).
Proof.
  intros Hin Hr. destruct (row _ _ _ _ _ Hin) as (sels & Hu & Hok). rewrite (taken _ _ _ _ Hu Hr).
  rewrite <- !values_listed. unfold row_ok in Hok. rewrite !andb_true_iff in Hok.
  destruct Hok as (((((A & B) & C) & D) & E) & F). split.
  - intros H. pose proof (within_In _ _ _ A H) as HA. apply in_app_iff in HA.
    destruct HA as [HA|HA]; [left; split; [exact HA|exact (apart_In _ _ _ B H)]|right; exact HA].
  - intros [(H & Hn)|H]; [|exact (within_In _ _ _ C H)]. rewrite forallb_forall in D. specialize (D _ H).
    apply orb_true_iff in D. destruct D as [D|D]; apply mem_In in D; [exact D|contradiction].
Qed.

(** The two lists are the differences: what is in the second Part 2 does not
    list, and the library takes it; what is in the third Part 2 lists, and the
    library refuses it whatever follows. *)
Theorem c94_differences_partial t k names extra absent sel :
  In (t, k, names, extra, absent) part2_unions -> in_range false k sel = true ->
  (listed extra sel -> ~ listed names sel /\ takes t k sel)
  /\ (listed absent sel -> listed names sel
        /\ forall rest, unmarshal t (be_bytes k sel ++ rest) = (Err UnknownSelector, rest)).
Proof.
  intros Hin Hr. destruct (row _ _ _ _ _ Hin) as (sels & Hu & Hok).
  rewrite (taken _ _ _ _ Hu Hr), <- !values_listed. unfold row_ok in Hok. rewrite !andb_true_iff in Hok.
  destruct Hok as (((((A & B) & C) & D) & E) & F). split.
  - intros H. split; [exact (apart_In _ _ _ E H)|exact (within_In _ _ _ C H)].
  - intros H. split; [exact (within_In _ _ _ F H)|].
    apply (c54_selectors_partial _ _ _ _ Hu Hr). intros Hs. exact (apart_In _ _ _ B Hs H).
Qed.

(** Where both lists are empty the union takes exactly what Part 2 lists. *)
Theorem c94_keyed_hash sel :
  in_range false 2 sel = true ->
  (takes TpmtKeyedHashScheme 2 sel <-> listed TPMI_ALG_KEYEDHASH_SCHEME sel).
Proof.
  intros Hr. assert (Hin : In (TpmtKeyedHashScheme, 2%nat, TPMI_ALG_KEYEDHASH_SCHEME, [], []) part2_unions)
    by (unfold part2_unions; cbn [In]; repeat (first [left; reflexivity | right])).
  rewrite (c94_taken_partial _ _ _ _ _ _ Hin Hr). unfold listed. split.
  - intros [(H & _)|(n & [] & _)]. exact H.
  - intros H. left. split; [exact H|]. intros (n & [] & _).
Qed.

(** The public area of an RSA key that names an ECDSA scheme and XOR as its
    symmetric algorithm is read, though Part 2 allows neither; its bytes, under
    the format of Part 2: the RSA key type, SHA256, attributes, an empty policy,
    XOR with SHA256, ECDSA with SHA256, 2048 bits, exponent, an empty key. *)
Theorem c94_rsa_key_refuted :
  exists b x,
    b = be_bytes 2 0x0001 ++ be_bytes 2 0x000B ++ be_bytes 4 0x40072 ++ be_bytes 2 0
        ++ be_bytes 2 0x000A ++ be_bytes 2 0x000B ++ be_bytes 2 0x0018 ++ be_bytes 2 0x000B
        ++ be_bytes 2 2048 ++ be_bytes 4 0 ++ be_bytes 2 0
    /\ public_try_unmarshal b = (Ok x, [])
    /\ ~ listed TPMI_ALG_SYM_OBJECT 0x000A /\ ~ listed TPMI_ALG_RSA_SCHEME 0x0018.
Proof.
  eexists. eexists. split; [reflexivity|]. split; [vm_compute; reflexivity|].
  rewrite <- !values_listed. split; vm_compute; intuition discriminate.
Qed.

(** The capability of the authenticated countdown timers, which Part 2 has, is
    refused whatever is in it, and so is a digest by SHA3-256. *)
Theorem c94_missing_refuted :
  listed CAPABILITIES 0x0A /\ listed TPMI_ALG_HASH 0x0027
  /\ (forall rest, unmarshal TpmsCapabilityData (be_bytes 4 0x0A ++ rest) = (Err UnknownSelector, rest))
  /\ (forall rest, unmarshal TpmtHa (be_bytes 2 0x0027 ++ rest) = (Err UnknownSelector, rest)).
Proof.
  rewrite <- !values_listed. split; [vm_compute; tauto|]. split; [vm_compute; tauto|].
  assert (Hin : forall t k sels sel, In (t, k, sels) unions -> in_range false k sel = true -> ~ In sel sels ->
            forall rest, unmarshal t (be_bytes k sel ++ rest) = (Err UnknownSelector, rest))
    by (intros t k sels sel H Hr; apply (c54_selectors_partial t k sels sel H Hr)).
  split; eapply Hin;
    [unfold unions; cbn [In]; repeat (first [left; reflexivity | right])|reflexivity|vm_compute; intuition discriminate
    |unfold unions; cbn [In]; repeat (first [left; reflexivity | right])|reflexivity|vm_compute; intuition discriminate].
Qed.

(** Every name of the table has a value, and one only. *)
Example c94_named :
  forallb (fun x => forallb (fun n => Nat.eqb (length (values [n])) 1)
                            (snd (fst (fst x)) ++ snd (fst x) ++ snd x)) part2_unions = true.
Proof. vm_compute. reflexivity. Qed.
