(** Equality of values and equality on the wire (C71). *)
From Coq Require Import String ZArith NArith List Lia Bool.
From Coq Require Import Init.Byte.
From Verif Require Import Prelude Types Marshal WireSpec MarshalProofs WriteSpec MarshalWrite
  Layout Catalogue Samples Errors ListSpec Tpml Tpm2b MarshalFacts Tpm2bFacts TpmlFacts Equality.
Import ListNotations.
Open Scope Z_scope.

Fixpoint derived_eq_spec (a : val) {struct a} : forall b, derived_eq a b = true <-> a = b.
Proof.
  assert (All : forall xs, Forall (fun x => forall y, derived_eq x y = true <-> x = y) xs -> forall ys,
    (fix all (xs ys : list val) {struct xs} : bool :=
      match xs, ys with
      | [], [] => true
      | x :: xs', y :: ys' => derived_eq x y && all xs' ys'
      | _, _ => false
      end) xs ys = true <-> xs = ys).
  { induction 1 as [|x xs Hx _ IH]; intros [|y ys]; split; intros E; try discriminate; auto.
    - apply andb_true_iff in E. destruct E as [E1 E2]. apply Hx in E1. apply IH in E2. congruence.
    - injection E as -> ->. apply andb_true_iff. split; [now apply Hx|now apply IH]. }
  assert (Every : forall xs, Forall (fun x => forall y, derived_eq x y = true <-> x = y) xs ->
    Forall (fun x => forall y, derived_eq x y = true <-> x = y) xs) by auto.
  destruct a as [x| |x|xs|xs|s xs|n x]; intros [y| |y|ys|ys|s' ys|n' y]; cbn [derived_eq];
    try (split; [discriminate|congruence]).
  - rewrite Z.eqb_eq. split; congruence.
  - split; reflexivity.
  - destruct (list_eq_dec Byte.byte_eq_dec x y); split; congruence.
  - rewrite All; [split; congruence|]. clear - derived_eq_spec.
    induction xs as [|x xs IH]; constructor; [apply derived_eq_spec|exact IH].
  - rewrite All; [split; congruence|]. clear - derived_eq_spec.
    induction xs as [|x xs IH]; constructor; [apply derived_eq_spec|exact IH].
  - rewrite andb_true_iff, Z.eqb_eq, All; [split; [intros [-> ->]; reflexivity|intros E; injection E; auto]|].
    clear - derived_eq_spec. induction xs as [|x xs IH]; constructor; [apply derived_eq_spec|exact IH].
  - rewrite andb_true_iff, Z.eqb_eq. destruct (list_eq_dec Byte.byte_eq_dec x y); split; intros E;
      try (destruct E; congruence); injection E; auto.
Qed.

(** ** Values a program can come by *)
Lemma members_wf vrs sel ts args : members vrs sel = Some ts -> wf_variant vrs sel args = wf_tys ts args.
Proof.
  induction vrs as [|s ts' rest IH]; cbn; [discriminate|]. destruct (sel =? s); [congruence|exact IH].
Qed.
Lemma members_canon vrs sel ts args : members vrs sel = Some ts -> canon_variant vrs sel args = canon_tys ts args.
Proof.
  induction vrs as [|s ts' rest IH]; cbn; [discriminate|]. destruct (sel =? s); [congruence|exact IH].
Qed.
Lemma members_ok k vrs sel ts : members vrs sel = Some ts -> wf_ty_variants k vrs = true -> wf_ty_tys ts = true.
Proof.
  induction vrs as [|s ts' rest IH]; cbn; [discriminate|]. rewrite !andb_true_iff.
  destruct (sel =? s); intros E H; [injection E as <-|apply IH]; tauto.
Qed.
Lemma wrapped_ok t tb : In (t, tb) wrapped -> wf_ty t = true /\ (size_of t < 65536)%N /\ tb = TTpm2b (size_of t).
Proof. intros [E|[E|[E|[]]]]; injection E as <- <-; vm_compute; auto. Qed.
Lemma sized_form max data : (length data <= N.to_nat max)%nat -> Z.of_nat (length data) < 65536 ->
  let v := VTpm2b (Z.of_nat (length data)) (data ++ repeat x00 (N.to_nat max - length data)) in
  wf (TTpm2b max) v = true /\ canon (TTpm2b max) v = v.
Proof.
  intros Hm Hl. cbn zeta. split.
  - cbn [wf]. rewrite app_length, repeat_length, !andb_true_iff. repeat split.
    + apply in_range_iff. change (pow256 2) with 65536. lia.
    + apply N.leb_le. lia.
    + apply N.eqb_eq. lia.
  - cbn [canon]. rewrite Nat2Z.id, firstn_app_exact. reflexivity.
Qed.
Lemma list_form name cap t l : (N.of_nat (length l) <= cap)%N -> (cap < 2 ^ 32)%N ->
  Forall (fun v => wf t v = true /\ canon t v = v) l -> wf t (zero_of t) = true ->
  let v := VStruct [VInt (Z.of_nat (length l)); VArr (l ++ repeat (zero_of t) (N.to_nat cap - length l))] in
  wf (tpml name cap t) v = true /\ canon (tpml name cap t) v = v.
Proof.
  intros Hl Hc Hf Hz. cbn zeta. split.
  - unfold tpml, struct, fld, larr. cbn [mk_fields wf wf_fields bind_len u32].
    rewrite !andb_true_iff. repeat split.
    + apply in_range_iff. change (pow256 4) with (2 ^ 32). lia.
    + apply N.eqb_eq. rewrite app_length, repeat_length. lia.
    + apply forallb_forall. intros e He. apply in_app_or in He. destruct He as [He|He].
      * rewrite Forall_forall in Hf. now apply Hf.
      * apply repeat_spec in He. now subst.
    + unfold len_ok. cbn [lookup_len]. rewrite String.eqb_refl. apply N.leb_le.
      unfold usize. rewrite Z.mod_small by lia. lia.
  - rewrite canon_tpml by lia. rewrite Nat2Z.id, firstn_app_exact.
    rewrite (proj2 (Forall_canon_map t l Hf)). reflexivity.
Qed.

Lemma built_ok :
  (forall t v, built t v -> wf_ty t = true -> wf t v = true /\ canon t v = v)
  /\ (forall ts vs, built_each ts vs -> wf_ty_tys ts = true -> wf_tys ts vs = true /\ canon_tys ts vs = vs)
  /\ (forall t l, built_all t l -> wf_ty t = true -> Forall (fun v => wf t v = true /\ canon t v = v) l)
  /\ (forall env fs vs, built_fields env fs vs -> forall names, wf_ty_fields names fs = true ->
      wf_fields env fs vs = true /\ canon_fields env fs vs = vs).
Proof.
  apply built_mutind.
  - intros t b v rest E Ht. apply unm_inv in E; tauto.
  - intros sg k z Hz _. split; [exact Hz|reflexivity].
  - auto.
  - intros l _. cbn. rewrite N.eqb_refl. auto.
  - intros max data v E _. pose proof (c15_from_bytes max data) as H.
    destruct (N.of_nat (length data) <=? N.min 65535 max)%N.
    + destruct H as (b & E' & Hw & Hc & _). rewrite E in E'. injection E' as <-. auto.
    + congruence.
  - intros max _. split; [apply c15_default|]. cbn [canon tpm2b_default]. cbn. rewrite Nat.sub_0_r. reflexivity.
  - intros t tb v b Hin _ IH E _. apply wrapped_ok in Hin. destruct Hin as (Ht & Hs & ->).
    destruct (IH Ht) as [Hw Hc]. pose proof (enc_size_of t v Hw) as L.
    rewrite from_struct_spec in E by assumption. injection E as <-. apply sized_form; lia.
  - intros t tb v b Hin _ IH E Ht. apply wrapped_ok in Hin. destruct Hin as (_ & Hs & ->).
    destruct (IH eq_refl) as [Hw _]. unfold to_struct in E.
    destruct (as_ref b) as [bytes|?|]; try discriminate. cbn [obind] in E.
    destruct (unmarshal t bytes) as [r rest] eqn:Eu. cbn [fst] in E. subst r. apply unm_inv in Eu; tauto.
  - intros name cap t ops Hin _ IH Ht. destruct (c16_capacities _ _ _ Hin) as (Hc & _ & _ & Hz).
    assert (Ht' : wf_ty t = true).
    { unfold tpml, struct, fld, larr in Ht. cbn in Ht. rewrite !andb_true_iff in Ht. tauto. }
    specialize (IH Ht').
    destruct (rep_run (N.to_nat cap) (zero_of t) ops Hc _ _ (rep_default _ _)) as [_ [Hl ->]].
    unfold val_of_tpml. cbn [count_ list_].
    apply (list_form name cap t); [lia|lia| |exact Hz].
    apply spec_elements; [constructor|exact IH].
  - intros fs vs _ IH Ht. cbn [wf canon]. destruct (IH [] Ht) as [-> ->]. auto.
  - intros ts vs _ IH Ht. cbn [wf canon]. destruct (IH Ht) as [-> ->]. auto.
  - intros k vrs sel ts args Hm _ IH Ht. cbn [wf canon wf_ty] in *. apply andb_true_iff in Ht.
    rewrite (members_wf _ _ _ _ Hm), (members_canon _ _ _ _ Hm).
    destruct (IH (members_ok k _ _ _ Hm (proj2 Ht))) as [-> ->]. auto.
  - intros pre k mid vrs sel ts a b args _ IHa _ IHb Hm _ IH Ht. cbn [wf canon wf_ty] in *.
    rewrite !andb_true_iff in Ht. destruct Ht as [[[H1 H2] _] H3].
    rewrite (members_wf _ _ _ _ Hm), (members_canon _ _ _ _ Hm).
    destruct (IHa H1) as [-> ->]. destruct (IHb H2) as [-> ->].
    destruct (IH (members_ok k _ _ _ Hm H3)) as [-> ->]. auto.
  - auto.
  - intros t rest v vs _ IH _ IHr Ht. cbn [wf_ty_tys wf_tys canon_tys] in *. apply andb_true_iff in Ht.
    destruct (IH (proj1 Ht)) as [-> ->]. destruct (IHr (proj2 Ht)) as [-> ->]. auto.
  - constructor.
  - intros t v vs _ IH _ IHr Ht. constructor; auto.
  - auto.
  - intros env name t rest v vs _ IH _ IHr names Ht. cbn [wf_ty_fields wf_fields canon_fields] in *.
    rewrite !andb_true_iff in Ht. destruct Ht as [[H1 _] H2].
    destruct (IH H1) as [-> ->]. destruct (IHr _ H2) as [-> ->]. auto.
  - intros env name t rest l vs _ IH _ IHr names Ht. cbn [wf_ty_fields wf_fields canon_fields] in *.
    rewrite !andb_true_iff in Ht. destruct Ht as [[H1 _] H2]. specialize (IH H1).
    destruct (IHr _ H2) as [-> ->]. rewrite N.eqb_refl, (proj2 (Forall_canon_map t l IH)).
    split; [|reflexivity]. rewrite andb_true_r. cbn [andb]. apply forallb_forall. intros e He.
    rewrite Forall_forall in IH. now apply IH.
  - intros env name n len dflt t rest l vs El Hb Hl _ IH _ IHr names Ht.
    cbn [wf_ty_fields wf_fields canon_fields] in *.
    rewrite !andb_true_iff in Ht. destruct Ht as [[H1 [_ Hd]] H2]. specialize (IH H1).
    destruct (IHr _ H2) as [-> ->].
    assert (Hu : usize (Z.of_nat (length l)) = N.of_nat (length l)).
    { unfold usize. rewrite Z.mod_small by lia. lia. }
    unfold len_ok, counted. rewrite El, Hu, Nat2N.id, firstn_app_exact, (proj2 (Forall_canon_map t l IH)).
    split; [|reflexivity]. rewrite app_length, repeat_length, !andb_true_iff. repeat split.
    + apply N.eqb_eq. lia.
    + apply forallb_forall. intros e He. apply in_app_or in He. destruct He as [He|He].
      * rewrite Forall_forall in IH. now apply IH.
      * apply repeat_spec in He. now subst.
    + apply N.leb_le. lia.
Qed.

(** ** C71 *)
(** Two decoded values compare equal exactly if the bytes they were read from
    were the same; what followed does not matter. *)
Theorem c71_decoded t b1 v1 r1 b2 v2 r2 :
  wf_ty t = true ->
  unmarshal t (b1 ++ r1) = (Ok v1, r1) -> unmarshal t (b2 ++ r2) = (Ok v2, r2) ->
  (derived_eq v1 v2 = true <-> b1 = b2).
Proof.
  intros Ht E1 E2. rewrite derived_eq_spec.
  apply unm_inv in E1; [|exact Ht]. apply unm_inv in E2; [|exact Ht].
  destruct E1 as (W1 & C1 & E1), E2 as (W2 & C2 & E2).
  apply app_inv_tail in E1. apply app_inv_tail in E2. subst b1 b2.
  split; [now intros ->|]. intros E.
  destruct (c10_unique_decodability t v1 v2 [] [] Ht W1 W2) as [H _]; [now rewrite E|]. congruence.
Qed.

(** Values a program comes by through the interface compare equal exactly if
    they are written as the same bytes. *)
Theorem c71_equality_partial t v1 v2 :
  wf_ty t = true -> built t v1 -> built t v2 ->
  (derived_eq v1 v2 = true
   <-> exists n, firstn n (fst (marshal t v1 (repeat x00 (N.to_nat (size_of t)))))
                 = firstn n (fst (marshal t v2 (repeat x00 (N.to_nat (size_of t)))))
       /\ snd (marshal t v1 (repeat x00 (N.to_nat (size_of t)))) = Ok n
       /\ snd (marshal t v2 (repeat x00 (N.to_nat (size_of t)))) = Ok n).
Proof.
  intros Ht B1 B2. rewrite derived_eq_spec.
  destruct (proj1 built_ok t v1 B1 Ht) as [W1 C1]. destruct (proj1 built_ok t v2 B2 Ht) as [W2 C2].
  pose proof (enc_size_of t v1 W1) as L1. pose proof (enc_size_of t v2 W2) as L2.
  rewrite !marshal_fits by (try assumption; rewrite repeat_length; lia). cbn [fst snd]. split.
  - intros ->. eauto.
  - intros (n & E & N1 & N2). injection N1 as N1. injection N2 as N2.
    rewrite <- N1 in E at 1. rewrite <- N2 in E. rewrite !firstn_overwrite in E.
    destruct (c10_unique_decodability t v1 v2 [] [] Ht W1 W2) as [H _]; [now rewrite E|]. congruence.
Qed.

(** Every such value survives the wire unchanged. *)
Theorem c71_survives t v buf buf' n rest :
  wf_ty t = true -> built t v -> marshal t v buf = (buf', Ok n) ->
  unmarshal t (firstn n buf' ++ rest) = (Ok v, rest).
Proof.
  intros Ht B. destruct (proj1 built_ok t v B Ht) as [W C]. now apply c01_round_trip.
Qed.

(** Exactly how far equality on the wire goes, for all values of all types: two
    values are the same on the wire exactly if they are equal once what stands
    behind counts and sizes is blanked ([canon] of WireSpec.v), and a value comes
    back from the wire as its blanked self, hence equal to itself exactly if
    nothing was there to blank. *)
Theorem c71_exact t v1 v2 :
  wf_ty t = true -> wf t v1 = true -> wf t v2 = true ->
  (derived_eq (canon t v1) (canon t v2) = true
   <-> exists n, firstn n (fst (marshal t v1 (repeat x00 (N.to_nat (size_of t)))))
                 = firstn n (fst (marshal t v2 (repeat x00 (N.to_nat (size_of t)))))
       /\ snd (marshal t v1 (repeat x00 (N.to_nat (size_of t)))) = Ok n
       /\ snd (marshal t v2 (repeat x00 (N.to_nat (size_of t)))) = Ok n).
Proof.
  intros Ht W1 W2. rewrite derived_eq_spec.
  assert (S : forall v, wf t v = true -> enc t v = enc t (canon t v)).
  { intros v W. pose proof (unm_enc t v [] Ht W) as E. apply unm_inv in E; [|exact Ht].
    destruct E as (_ & _ & E). rewrite !app_nil_r in E. exact E. }
  pose proof (enc_size_of t v1 W1) as L1. pose proof (enc_size_of t v2 W2) as L2.
  rewrite !marshal_fits by (try assumption; rewrite repeat_length; lia). cbn [fst snd]. split.
  - intros E. assert (E' : enc t v1 = enc t v2) by (rewrite S, (S v2), E; auto).
    exists (length (enc t v1)). rewrite E'. auto.
  - intros (n & E & N1 & N2). injection N1 as N1. injection N2 as N2.
    rewrite <- N1 in E at 1. rewrite <- N2 in E. rewrite !firstn_overwrite in E.
    apply (c10_unique_decodability t v1 v2 [] [] Ht W1 W2). now rewrite E.
Qed.
Theorem c71_returns t v buf buf' n rest :
  wf_ty t = true -> wf t v = true -> marshal t v buf = (buf', Ok n) ->
  exists v', unmarshal t (firstn n buf' ++ rest) = (Ok v', rest) /\ v' = canon t v
    /\ (derived_eq v' v = true <-> canonical t v).
Proof.
  intros Ht W E. exists (canon t v). split; [|split; [reflexivity|rewrite derived_eq_spec; reflexivity]].
  destruct (Nat.leb_spec (length (enc t v)) (length buf)) as [L|L].
  - rewrite marshal_fits in E by assumption. injection E as <- <-.
    rewrite firstn_overwrite. now apply unm_enc.
  - destruct (marshal_short t v buf W L) as (pre & c & post & _ & _ & E'). rewrite E' in E.
    destruct (is_payload c); discriminate.
Qed.
(** Two PCR selections of one form on the wire that differ behind the count. *)
Example c71_exact_example :
  let v1 := VStruct [VStruct [VInt 11]; VInt 1; VArr [VInt 7; VInt 1; VInt 0; VInt 0]] in
  let v2 := VStruct [VStruct [VInt 11]; VInt 1; VArr [VInt 7; VInt 2; VInt 0; VInt 0]] in
  wf_ty TpmsPcrSelection = true /\ wf TpmsPcrSelection v1 = true /\ wf TpmsPcrSelection v2 = true
  /\ derived_eq v1 v2 = false /\ derived_eq (canon TpmsPcrSelection v1) (canon TpmsPcrSelection v2) = true
  /\ canon TpmsPcrSelection v1 = VStruct [VStruct [VInt 11]; VInt 1; VArr [VInt 7; VInt 0; VInt 0; VInt 0]].
Proof. vm_compute. repeat split. Qed.

(** Without the restriction on the entries behind a public count it fails:
    two PCR selections that differ there are different values, but one on the
    wire, and reading it back gives neither. *)
Theorem c71_equality_refuted :
  exists v1 v2 n v,
    wf TpmsPcrSelection v1 = true /\ wf TpmsPcrSelection v2 = true
    /\ derived_eq v1 v2 = false
    /\ marshal TpmsPcrSelection v1 (repeat x00 8) = marshal TpmsPcrSelection v2 (repeat x00 8)
    /\ snd (marshal TpmsPcrSelection v1 (repeat x00 8)) = Ok n
    /\ fst (unmarshal TpmsPcrSelection (firstn n (fst (marshal TpmsPcrSelection v1 (repeat x00 8))))) = Ok v
    /\ derived_eq v v1 = false /\ derived_eq v v2 = false.
Proof.
  exists (VStruct [VStruct [VInt 11]; VInt 1; VArr [VInt 7; VInt 1; VInt 0; VInt 0]]),
    (VStruct [VStruct [VInt 11]; VInt 1; VArr [VInt 7; VInt 2; VInt 0; VInt 0]]), 4%nat,
    (VStruct [VStruct [VInt 11]; VInt 1; VArr [VInt 7; VInt 0; VInt 0; VInt 0]]).
  vm_compute. repeat split.
Qed.

(** *** The hypotheses can be met *)
(** A list of two PCR selections, made with [add], in a structure with a
    digest made from bytes. *)
Definition pcr (alg n : Z) : val := VStruct [VStruct [VInt alg]; VInt 1; VArr [VInt n; VInt 0; VInt 0; VInt 0]].
Example c71_example :
  exists v1 v2, built TpmsQuoteInfo v1 /\ built TpmsQuoteInfo v2
  /\ wf_ty TpmsQuoteInfo = true /\ derived_eq v1 v1 = true /\ derived_eq v1 v2 = false.
Proof.
  assert (B : forall alg n, 0 <= alg < 65536 -> 0 <= n < 256 -> built TpmsPcrSelection (pcr alg n)).
  { intros alg n Ha Hn. unfold TpmsPcrSelection, struct, fld, larr. cbn [mk_fields]. apply BStruct.
    apply BPlain; [apply BTuple; apply BNext; [apply BInt, in_range_iff; change (pow256 2) with 65536; lia|apply BNone]|].
    apply BPlain; [apply BInt; reflexivity|].
    refine (BCounted _ _ _ _ _ _ _ [VInt n] [] _ _ _ _ _); [reflexivity|reflexivity|vm_compute; lia| |apply BLast].
    apply BMore; [apply BInt, in_range_iff; change (pow256 1) with 256; lia|apply BEmpty]. }
  assert (Q : forall n data b, 0 <= n < 256 -> from_bytes 64 data = Ok b ->
    built TpmsQuoteInfo (VStruct [val_of_tpml (fst (tpml_run 16 (zero_of TpmsPcrSelection)
      (tpml_default 16 (zero_of TpmsPcrSelection)) [OpAdd (pcr 11 n); OpAdd (pcr 12 3)])); b])).
  { intros n data b Hn E. unfold TpmsQuoteInfo, struct, fld. cbn [mk_fields]. apply BStruct. apply BPlain.
    - refine (BList "pcr_selections" 16%N TpmsPcrSelection _ _ _); [cbn; auto|].
      cbn. apply BMore; [apply B; lia|]. apply BMore; [apply B; lia|]. apply BEmpty.
    - apply BPlain; [|apply BLast]. exact (BFromBytes 64 _ _ E). }
  eexists _, _. split; [eapply (Q 1 [x01; x02]); [lia|vm_compute; reflexivity]|].
  split; [eapply (Q 2 [x01; x02]); [lia|vm_compute; reflexivity]|].
  split; [vm_compute; reflexivity|]. split; vm_compute; reflexivity.
Qed.
