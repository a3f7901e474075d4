(** The library's constants against the tables of TPM 2.0 Part 2. *)
From Coq Require Import String Ascii ZArith List Bool Lia.
From Verif Require Import Prelude Errors Part2 Constants Part2Constants ConstantsSpec.
Import ListNotations.
Local Open Scope string_scope.
Local Open Scope list_scope.
Open Scope Z_scope.

Definition pair_eqb (a b : string * string) : bool :=
  (fst a =? fst b)%string && (snd a =? snd b)%string.
Lemma pair_eqb_eq a b : pair_eqb a b = true <-> a = b.
Proof.
  destruct a as [a1 a2], b as [b1 b2]. unfold pair_eqb. cbn [fst snd].
  rewrite andb_true_iff, !String.eqb_eq. split; [intros [-> ->]; reflexivity|intros E; now injection E].
Qed.

(** A row of the table with the constant's name and value. *)
Definition value_ok (e : enumeration) (c : string * Z) : bool :=
  match find (fun m => pair_eqb (fst m) (e_name e, fst c)) misspelt with
  | Some (_, _, s) => existsb (fun r => if snd r =? snd c then (fst r =? s)%string else false) (e_spec e)
  | None =>
      existsb (fun r => if snd r =? snd c then (letters (fst r) =? letters (e_prefix e ++ fst c))%string else false) (e_spec e)
  end.
Lemma value_ok_spec e c : value_ok e c = true ->
  exists s, spec_name e (fst c) s /\ In (s, snd c) (e_spec e).
Proof.
  unfold value_ok. destruct (find _ misspelt) as [[[a b] s]|] eqn:F; intros H;
    apply existsb_exists in H; destruct H as ([s' v] & Hin & E); cbn [fst snd] in E;
    apply andb_true_iff in E; destruct E as [E1 E2]; apply Z.eqb_eq in E1; apply String.eqb_eq in E2; subst v; exists s';
    (split; [|exact Hin]).
  - subst s'. apply find_some in F. destruct F as [F1 F2].
    apply pair_eqb_eq in F2. cbn in F2. injection F2 as -> ->. left. exact F1.
  - right. split; [|exact E2].
    intros s Hs. apply (find_none _ _ F) in Hs. cbn [fst] in Hs.
    assert (pair_eqb (e_name e, fst c) (e_name e, fst c) = true) by (now apply pair_eqb_eq). congruence.
Qed.

(** Membership by computation. *)
Definition has (l : constants) (c : string * Z) : bool :=
  existsb (fun r => (fst r =? fst c)%string && (snd r =? snd c)) l.
Lemma has_in l n v : has l (n, v) = true -> In (n, v) l.
Proof.
  intros H. apply existsb_exists in H. destruct H as ([n' v'] & Hin & E). cbn [fst snd] in E.
  apply andb_true_iff in E. destruct E as [E1 E2]. apply String.eqb_eq in E1. apply Z.eqb_eq in E2.
  now subst.
Qed.

(** A table gives one value to a name. *)
Definition functional (l : constants) : bool :=
  let k := map (fun a => (letters (fst a), snd a)) l in
  forallb (fun a => forallb (fun b =>
    implb (fst a =? fst b)%string (snd a =? snd b)) k) k.
Lemma functional_spec l : functional l = true -> forall n m v w,
  In (n, v) l -> In (m, w) l -> letters n = letters m -> v = w.
Proof.
  intros H n m v w Hn Hm E. unfold functional in H. cbv zeta in H. rewrite forallb_forall in H.
  specialize (H _ (in_map (fun a => (letters (fst a), snd a)) _ _ Hn)). rewrite forallb_forall in H.
  specialize (H _ (in_map (fun a => (letters (fst a), snd a)) _ _ Hm)). cbn [fst snd] in H.
  rewrite E, String.eqb_refl in H. now apply Z.eqb_eq in H.
Qed.
Definition injective (l : constants) : bool :=
  forallb (fun a => forallb (fun b =>
    implb (snd a =? snd b) (fst a =? fst b)%string) l) l.
Lemma injective_spec l : injective l = true -> forall n m v,
  In (n, v) l -> In (m, v) l -> n = m.
Proof.
  intros H n m v Hn Hm. unfold injective in H. rewrite forallb_forall in H.
  specialize (H _ Hn). rewrite forallb_forall in H. specialize (H _ Hm). cbn [fst snd] in H.
  rewrite Z.eqb_refl in H. now apply String.eqb_eq in H.
Qed.

(** A constant of the library with a name and a value of the table. *)
Definition named (e : enumeration) (name sname : string) : bool :=
  existsb (fun m => pair_eqb (fst m) (e_name e, name) && (snd m =? sname)%string) misspelt
  || (negb (existsb (fun m => pair_eqb (fst m) (e_name e, name)) misspelt)
      && (letters sname =? letters (e_prefix e ++ name))%string).
Lemma named_spec e name sname : named e name sname = true <-> spec_name e name sname.
Proof.
  unfold named, spec_name. rewrite orb_true_iff, andb_true_iff, negb_true_iff, String.eqb_eq. split.
  - intros [H|[H E]].
    + left. apply existsb_exists in H as ([[a b] c] & Hin & H). apply andb_true_iff in H as [H1 H2].
      apply pair_eqb_eq in H1. apply String.eqb_eq in H2. cbn [fst snd] in *. now rewrite <- H1, <- H2.
    + right. split; [|exact E]. intros s Hs.
      assert (X : existsb (fun m => pair_eqb (fst m) (e_name e, name)) misspelt = true).
      { apply existsb_exists. exists (e_name e, name, s). split; [exact Hs|]. now apply pair_eqb_eq. }
      congruence.
  - intros [H|[H E]].
    + left. apply existsb_exists. exists (e_name e, name, sname). split; [exact H|]. cbn [fst snd].
      apply andb_true_iff. split; [now apply pair_eqb_eq|apply String.eqb_refl].
    + right. split; [|exact E]. destruct (existsb _ misspelt) eqn:X; [|reflexivity]. exfalso.
      apply existsb_exists in X as ([[a b] c] & Hin & X). apply pair_eqb_eq in X. cbn [fst] in X. injection X as -> ->. exact (H c Hin).
Qed.
Definition there (e : enumeration) (r : string * Z) : bool :=
  existsb (fun c => if snd r =? snd c then named e (fst c) (fst r) else false) (e_lib e).
Lemma there_spec e sname v : there e (sname, v) = true <-> exists name, spec_name e name sname /\ In (name, v) (e_lib e).
Proof.
  unfold there. rewrite existsb_exists. cbn [fst snd]. split.
  - intros ([n w] & Hin & H). cbn [fst snd] in H. destruct (Z.eqb_spec v w) as [->|]; [|discriminate].
    apply named_spec in H. eauto.
  - intros (n & H & Hin). exists (n, v). split; [exact Hin|]. cbn [fst snd]. rewrite Z.eqb_refl. now apply named_spec.
Qed.
Definition lacks (e : enumeration) (sname : string) : bool :=
  existsb (fun a => if (fst a =? e_name e)%string then existsb (String.eqb sname) (snd a) else false) absent.
Lemma lacks_spec e sname : lacks e sname = true <-> is_absent e sname.
Proof.
  unfold lacks, is_absent. rewrite existsb_exists. split.
  - intros ([n l] & Hin & H). cbn [fst snd] in H. destruct (String.eqb_spec n (e_name e)) as [->|]; [|discriminate].
    exists l. split; [exact Hin|]. apply existsb_exists in H as (x & Hx & E). apply String.eqb_eq in E. now subst.
  - intros (l & Hin & Hs). exists (e_name e, l). split; [exact Hin|]. cbn [fst snd]. rewrite String.eqb_refl.
    apply existsb_exists. exists sname. split; [exact Hs|apply String.eqb_refl].
Qed.

(** ** C64 *)
(** Every constant of every enumeration and attribute word has the value that
    the specification's table gives under its name. *)
Theorem c64_values (e : enumeration) (name : string) (v : Z) :
  In e base_enumerations -> In (name, v) (e_lib e) ->
  exists sname, spec_name e name sname /\ In (sname, v) (e_spec e).
Proof.
  intros He Hc.
  assert (H : forallb (fun e => forallb (value_ok e) (e_lib e)) base_enumerations = true)
    by (vm_compute; reflexivity).
  rewrite forallb_forall in H. specialize (H _ He). rewrite forallb_forall in H.
  apply (value_ok_spec e (name, v)), H, Hc.
Qed.

(** And the library has every constant of these tables, except for those that
    [absent] lists, of which it has none. *)
Theorem c64_complete (e : enumeration) (sname : string) (v : Z) :
  In e base_enumerations -> In (sname, v) (e_spec e) ->
  (exists name, spec_name e name sname /\ In (name, v) (e_lib e)) <-> ~ is_absent e sname.
Proof.
  intros He Hc.
  assert (H : forallb (fun e => forallb (fun r => xorb (there e r) (lacks e (fst r))) (e_spec e)) base_enumerations = true)
    by (vm_compute; reflexivity).
  rewrite forallb_forall in H. specialize (H _ He). rewrite forallb_forall in H. specialize (H _ Hc). cbn [fst] in H.
  rewrite <- there_spec, <- lacks_spec. destruct (there e (sname, v)), (lacks e sname); cbn in H; try discriminate; split; congruence.
Qed.

(** That determines the value: a table does not list a name twice with different
    values. *)
Theorem c64_tables_functional (e : enumeration) (n m : string) (v w : Z) :
  In e base_enumerations -> In (n, v) (e_spec e) -> In (m, w) (e_spec e) ->
  letters n = letters m -> v = w.
Proof.
  intros He. apply functional_spec.
  assert (H : forallb (fun e => functional (e_spec e)) base_enumerations = true)
    by (vm_compute; reflexivity).
  rewrite forallb_forall in H. now apply H.
Qed.

(** Distinct names of one enumeration are distinct values, so that comparing the
    value read from the wire with a named constant tells the names apart. *)
Theorem c64_distinct (e : enumeration) (n m : string) (v : Z) :
  In e (tpm2_rc :: base_enumerations) -> In (n, v) (e_lib e) -> In (m, v) (e_lib e) -> n = m.
Proof.
  intros He. apply injective_spec.
  assert (H : forallb (fun e => injective (e_lib e)) (tpm2_rc :: base_enumerations) = true)
    by (vm_compute; reflexivity).
  rewrite forallb_forall in H. now apply H.
Qed.

(** The response codes of crates/tpm2: all but [Sequence]. *)
Theorem c64_rc_values_partial (name : string) (v : Z) :
  In (name, v) (e_lib tpm2_rc) -> name <> "Sequence" ->
  exists sname, spec_name tpm2_rc name sname /\ In (sname, v) (e_spec tpm2_rc).
Proof.
  intros Hc Hn.
  assert (H : forallb (fun c => (fst c =? "Sequence")%string || value_ok tpm2_rc c) (e_lib tpm2_rc)
              = true) by (vm_compute; reflexivity).
  rewrite forallb_forall in H. specialize (H _ Hc). cbn [fst] in H.
  apply orb_true_iff in H. destruct H as [H|H]; [apply String.eqb_eq in H; contradiction|].
  exact (value_ok_spec tpm2_rc (name, v) H).
Qed.

(** [TpmRcError::Sequence] is documented as TPM_RC_SEQUENCE, but no row of the
    table has its value; the code for TPM_RC_SEQUENCE is 0x103, which is what
    [TpmRc::Sequence] of tpm2-rs-base is. *)
Theorem c64_sequence_refuted :
  exists v, In ("Sequence", v) TpmRcError
  /\ (forall sname, ~ In (sname, v) TPM_RC)
  /\ exists w, In ("TPM_RC_SEQUENCE", w) TPM_RC /\ In ("Sequence", w) TpmRc /\ w <> v.
Proof.
  exists rc_Sequence. split; [apply has_in; vm_compute; reflexivity|split].
  - assert (H : forallb (fun r => negb (snd r =? rc_Sequence)) TPM_RC = true) by (vm_compute; reflexivity).
    intros s Hs. rewrite forallb_forall in H. specialize (H _ Hs). cbn [snd] in H.
    rewrite Z.eqb_refl in H. discriminate.
  - exists 0x103. split; [|split; [|discriminate]]; apply has_in; vm_compute; reflexivity.
Qed.

(** The two crates agree about the algorithms, and about the response codes
    except for that one. *)
Theorem c64_crates_agree (n m : string) (v w : Z) : letters n = letters m ->
  (In (n, v) Alg -> In (m, w) TpmAlgId -> v = w)
  /\ (In (n, v) TpmRcError -> In (m, w) TpmRc -> n <> "Sequence" -> v = w).
Proof.
  intros E. split.
  - assert (H : functional (Alg ++ TpmAlgId) = true) by (vm_compute; reflexivity).
    intros Hn Hm. apply (functional_spec _ H n m); [apply in_or_app; auto..|exact E].
  - assert (H : functional (filter (fun c => negb (fst c =? "Sequence")%string) (TpmRcError ++ TpmRc)) = true)
      by (vm_compute; reflexivity).
    intros Hn Hm Hs. apply (functional_spec _ H n m); [| |exact E]; apply filter_In; split.
    1, 3: apply in_or_app; auto.
    + cbn. apply negb_true_iff. now apply String.eqb_neq.
    + cbn [fst]. apply negb_true_iff, String.eqb_neq. intros ->. apply Hs.
      assert (G : forallb (fun c => implb (letters (fst c) =? letters "Sequence")%string
                                          (fst c =? "Sequence")%string) TpmRcError = true)
        by (vm_compute; reflexivity).
      rewrite forallb_forall in G. specialize (G _ Hn). cbn [fst] in G.
      rewrite E, String.eqb_refl in G. now apply String.eqb_eq in G.
Qed.

(** The constants of the layouts (Part2.v) are those of the tables. *)
Theorem c64_layout_constants (name : string) (v : Z) :
  In (name, v) [
    ("TPM_ALG_RSA", TPM_ALG_RSA); ("TPM_ALG_SHA1", TPM_ALG_SHA1); ("TPM_ALG_HMAC", TPM_ALG_HMAC);
    ("TPM_ALG_AES", TPM_ALG_AES); ("TPM_ALG_MGF1", TPM_ALG_MGF1);
    ("TPM_ALG_KEYEDHASH", TPM_ALG_KEYEDHASH); ("TPM_ALG_XOR", TPM_ALG_XOR);
    ("TPM_ALG_SHA256", TPM_ALG_SHA256); ("TPM_ALG_SHA384", TPM_ALG_SHA384);
    ("TPM_ALG_SHA512", TPM_ALG_SHA512); ("TPM_ALG_NULL", TPM_ALG_NULL);
    ("TPM_ALG_SM3_256", TPM_ALG_SM3_256); ("TPM_ALG_SM4", TPM_ALG_SM4);
    ("TPM_ALG_RSASSA", TPM_ALG_RSASSA); ("TPM_ALG_RSAES", TPM_ALG_RSAES);
    ("TPM_ALG_RSAPSS", TPM_ALG_RSAPSS); ("TPM_ALG_OAEP", TPM_ALG_OAEP);
    ("TPM_ALG_ECDSA", TPM_ALG_ECDSA); ("TPM_ALG_ECDH", TPM_ALG_ECDH); ("TPM_ALG_ECDAA", TPM_ALG_ECDAA);
    ("TPM_ALG_SM2", TPM_ALG_SM2); ("TPM_ALG_ECSCHNORR", TPM_ALG_ECSCHNORR);
    ("TPM_ALG_ECMQV", TPM_ALG_ECMQV); ("TPM_ALG_KDF1_SP800_56A", TPM_ALG_KDF1_SP800_56A);
    ("TPM_ALG_KDF2", TPM_ALG_KDF2); ("TPM_ALG_KDF1_SP800_108", TPM_ALG_KDF1_SP800_108);
    ("TPM_ALG_ECC", TPM_ALG_ECC); ("TPM_ALG_SYMCIPHER", TPM_ALG_SYMCIPHER);
    ("TPM_ALG_CAMELLIA", TPM_ALG_CAMELLIA);
    ("TPM_ST_ATTEST_NV", TPM_ST_ATTEST_NV); ("TPM_ST_ATTEST_COMMAND_AUDIT", TPM_ST_ATTEST_COMMAND_AUDIT);
    ("TPM_ST_ATTEST_SESSION_AUDIT", TPM_ST_ATTEST_SESSION_AUDIT);
    ("TPM_ST_ATTEST_CERTIFY", TPM_ST_ATTEST_CERTIFY); ("TPM_ST_ATTEST_QUOTE", TPM_ST_ATTEST_QUOTE);
    ("TPM_ST_ATTEST_TIME", TPM_ST_ATTEST_TIME); ("TPM_ST_ATTEST_CREATION", TPM_ST_ATTEST_CREATION);
    ("TPM_CAP_ALGS", 0); ("TPM_CAP_HANDLES", 1); ("TPM_CAP_COMMANDS", 2); ("TPM_CAP_PP_COMMANDS", 3);
    ("TPM_CAP_AUDIT_COMMANDS", 4); ("TPM_CAP_PCRS", 5); ("TPM_CAP_TPM_PROPERTIES", 6);
    ("TPM_CAP_PCR_PROPERTIES", 7); ("TPM_CAP_ECC_CURVES", 8); ("TPM_CAP_AUTH_POLICIES", 9)] ->
  In (name, v) (TPM_ALG ++ TPM_ST ++ TPM_CAP).
Proof.
  intros H. apply has_in.
  match type of H with In _ ?l =>
    assert (G : forallb (has (TPM_ALG ++ TPM_ST ++ TPM_CAP)) l = true) by (vm_compute; reflexivity) end.
  rewrite forallb_forall in G. exact (G _ H).
Qed.

Example c64_example :
  In ("GetRandom", 0x17B) TpmCc /\ In ("TPM_CC_GetRandom", 0x17B) TPM_CC
  /\ letters ("TPM_CC_" ++ "GetRandom") = letters "TPM_CC_GetRandom"
  /\ letters ("TPM_ALG_" ++ "KDF1SP80056A") = letters "TPM_ALG_KDF1_SP800_56A"
  /\ letters ("TPM_" ++ "RHOwner") = letters "TPM_RH_OWNER"
  /\ letters ("TPM_CC_" ++ "GetRandom") <> letters "TPM_CC_GetTime"
  /\ length TpmCc = 117%nat /\ length TpmRc = 96%nat.
Proof.
  split; [apply has_in; vm_compute; reflexivity|].
  split; [apply has_in; vm_compute; reflexivity|].
  do 3 (split; [vm_compute; reflexivity|]).
  split; [vm_compute; discriminate|]. split; vm_compute; reflexivity.
Qed.
