(** Properties of [Marshalable] for every type the derive macro accepts
    (C01-C12, C22, C53).  [wf], [enc], [canon] are in WireSpec.v; [base_types] lists
    the library's types (Catalogue.v). *)
From Coq Require Import String ZArith NArith List Lia Bool.
From Coq Require Import Init.Byte.
From Verif Require Import Prelude Types Marshal WireSpec MarshalProofs WriteSpec MarshalWrite
  Layout Catalogue Samples Errors.
Import ListNotations.
Open Scope Z_scope.

(** ** Auxiliary facts *)

Ltac in_base := unfold base_types; repeat (first [left; reflexivity | right]).

Lemma in_range_iff k z : in_range false k z = true <-> 0 <= z < pow256 k.
Proof. unfold in_range. rewrite andb_true_iff. lia. Qed.

Lemma marshal_ok_inv t v buf buf' n : wf t v = true -> marshal t v buf = (buf', Ok n) ->
  (length (enc t v) <= length buf)%nat /\ n = length (enc t v) /\ buf' = overwrite (enc t v) buf.
Proof.
  intros Hv E. destruct (le_lt_dec (length (enc t v)) (length buf)) as [Hl|Hl].
  - rewrite marshal_fits in E by assumption. injection E as <- <-. auto.
  - destruct (marshal_short t v buf Hv Hl) as (pre & c & post & _ & _ & E').
    rewrite E' in E. destruct (is_payload c); discriminate.
Qed.

(** ** C01 *)
(** Marshal into any buffer, then unmarshal what was written followed by
    anything: the value comes back and the rest is left unread. *)
Theorem c01_round_trip t v buf buf' n rest :
  wf_ty t = true -> wf t v = true -> canonical t v ->
  marshal t v buf = (buf', Ok n) ->
  unmarshal t (firstn n buf' ++ rest) = (Ok v, rest).
Proof.
  intros Ht Hv Hc E. apply marshal_ok_inv in E; [|assumption].
  destruct E as (_ & -> & ->). rewrite firstn_overwrite, unm_enc by assumption.
  rewrite Hc. reflexivity.
Qed.

(** Values with unobservable bytes behind a size or count (only
    [TpmsPcrSelection] and [TpmsTaggedPcrSelect] let a caller set such bytes)
    come back with those bytes cleared and everything else unchanged. *)
Theorem c01_round_trip_general t v buf buf' n rest :
  wf_ty t = true -> wf t v = true ->
  marshal t v buf = (buf', Ok n) ->
  unmarshal t (firstn n buf' ++ rest) = (Ok (canon t v), rest)
  /\ enc t (canon t v) = enc t v.
Proof.
  intros Ht Hv E. apply marshal_ok_inv in E; [|assumption].
  destruct E as (_ & -> & ->). rewrite firstn_overwrite.
  pose proof (unm_enc t v rest Ht Hv) as H. rewrite H. split; [reflexivity|].
  pose proof (unm_enc t v [] Ht Hv) as H'. apply unm_inv in H'; [|assumption].
  destruct H' as (_ & _ & H'). rewrite !app_nil_r in H'. symmetry. exact H'.
Qed.

(** The same for the types of the library. *)
Theorem c01_round_trip_base t v buf buf' n rest :
  In t base_types -> wf t v = true -> canonical t v ->
  marshal t v buf = (buf', Ok n) ->
  unmarshal t (firstn n buf' ++ rest) = (Ok v, rest).
Proof. intros Ht. apply c01_round_trip. apply base_type_wf, Ht. Qed.

Example c01_example :
  In TpmsAttest base_types /\ wf TpmsAttest sample_attest = true
  /\ canonical TpmsAttest sample_attest
  /\ snd (marshal TpmsAttest sample_attest (repeat x00 200)) = Ok 83%nat
  /\ unmarshal TpmsAttest
       (firstn 83 (fst (marshal TpmsAttest sample_attest (repeat x00 200))) ++ [x01; x02])
     = (Ok sample_attest, [x01; x02]).
Proof.
  split; [in_base|vm_compute; auto 10].
Qed.

(** ** C02 *)
Theorem c02_canonical t b v rest buf :
  wf_ty t = true -> unmarshal t b = (Ok v, rest) ->
  exists consumed, b = consumed ++ rest
    /\ ((length consumed <= length buf)%nat ->
        marshal t v buf = (consumed ++ skipn (length consumed) buf, Ok (length consumed))).
Proof.
  intros Ht E. apply unm_inv in E; [|assumption]. destruct E as (Hv & _ & ->).
  exists (enc t v). split; [reflexivity|]. intros Hl.
  rewrite marshal_fits by assumption. reflexivity.
Qed.

Example c02_example :
  exists v rest, unmarshal TpmlPcrSelection
    [x00;x00;x00;x01; x00;x0b; x03; x01;x02;x03; xee] = (Ok v, rest) /\ rest = [xee].
Proof. eexists _, _. vm_compute. auto. Qed.

(** ** C03 *)
Theorem c03_unmarshal_total t b :
  wf_ty t = true ->
  (exists v rest consumed, unmarshal t b = (Ok v, rest) /\ b = consumed ++ rest)
  \/ (exists e rest consumed, unmarshal t b = (Err e, rest) /\ b = consumed ++ rest).
Proof.
  intros Ht. destruct (proj1 unm_total_all t Ht b) as [Hp [c Hc]].
  destruct (unmarshal t b) as [[v|e|] rest]; cbn in *; [left|right|discriminate]; eauto.
Qed.

Example c03_example :
  fst (unmarshal TpmsAttest [xff; x54]) = Err UnexpectedEndOfBuffer
  /\ is_ok (fst (unmarshal TpmsAttest (enc TpmsAttest sample_attest))) = true.
Proof. vm_compute. auto. Qed.

(** ** C04 *)
Theorem c04_ok_iff_fits t v buf :
  wf t v = true ->
  ((length (enc t v) <= length buf)%nat <-> exists n, snd (marshal t v buf) = Ok n)
  /\ forall n, snd (marshal t v buf) = Ok n ->
       n = length (enc t v) /\ firstn n (fst (marshal t v buf)) = enc t v.
Proof.
  intros Hv. split; [split|].
  - intros Hl. rewrite marshal_fits by assumption. cbn. eauto.
  - intros [n E]. destruct (marshal t v buf) as [b r] eqn:Em. cbn in E. subst r.
    apply marshal_ok_inv in Em; tauto.
  - intros n E. destruct (marshal t v buf) as [b r] eqn:Em. cbn in E. subst r.
    apply marshal_ok_inv in Em; [|assumption]. destruct Em as (Hl & -> & ->).
    cbn [fst]. rewrite firstn_overwrite. auto.
Qed.

Example c04_example :
  length (enc TpmtPublic sample_public) = 88%nat
  /\ is_ok (snd (marshal TpmtPublic sample_public (repeat x00 88))) = true
  /\ is_ok (snd (marshal TpmtPublic sample_public (repeat x00 87))) = false.
Proof. vm_compute. auto. Qed.

(** ** C05 *)
(** Types without sized buffers keep the documented contract ... *)
Theorem c05_short_buffer_partial t v buf :
  no_sized t = true -> wf t v = true -> (length buf < length (enc t v))%nat ->
  snd (marshal t v buf) = Err UnexpectedEndOfBuffer.
Proof.
  intros Hn Hv Hl. destruct (marshal_short t v buf Hv Hl) as (pre & c & post & Ec & _ & ->).
  pose proof (proj1 no_sized_all t Hn v) as Hp. unfold no_payload in Hp.
  rewrite Ec, forallb_app in Hp. apply andb_true_iff in Hp. destruct Hp as [_ Hp].
  cbn in Hp. apply andb_true_iff in Hp. destruct Hp as [Hp _].
  destruct (is_payload c); [discriminate|reflexivity].
Qed.

(** ... every short buffer is an error or a panic, never a success ... *)
Theorem c05_short_never_ok_partial t v buf :
  wf t v = true -> (length buf < length (enc t v))%nat ->
  snd (marshal t v buf) = Err UnexpectedEndOfBuffer \/ snd (marshal t v buf) = Panic.
Proof.
  intros Hv Hl. destruct (marshal_short t v buf Hv Hl) as (pre & c & post & Ec & _ & ->).
  destruct (is_payload c); auto.
Qed.

(** ... a sized buffer panics exactly when the two size bytes fit and the
    payload does not ... *)
Theorem c05_sized_buffer_panics max size data buf :
  wf (TTpm2b max) (VTpm2b size data) = true ->
  (is_panic (snd (marshal (TTpm2b max) (VTpm2b size data) buf)) = true
   <-> 2 <= Z.of_nat (length buf) < 2 + size).
Proof.
  intros Hv. pose proof Hv as Hw. cbn [wf] in Hw. bsplit.
  apply in_range_u16 in H. apply N.leb_le in H1. apply N.eqb_eq in H0.
  assert (He : length (enc (TTpm2b max) (VTpm2b size data)) = (2 + Z.to_nat size)%nat).
  { cbn [enc]. rewrite app_length, be_bytes_length, firstn_length. lia. }
  rewrite marshal_chunks. cbn [chunks]. unfold chunks_tpm2b. rewrite Z.mod_small by lia.
  destruct (N.ltb_spec max (Z.to_N size)); [lia|].
  destruct (N.ltb_spec (N.of_nat (length data)) (Z.to_N size)); [lia|].
  cbn [write_chunks]. rewrite be_bytes_length.
  destruct (Nat.leb_spec 2 (length buf)).
  - rewrite skipn_length, firstn_length.
    match goal with |- context [(?a <=? ?b)%nat] => destruct (Nat.leb_spec a b) end;
      cbn [fst snd omap is_panic]; split; intros; try discriminate; try reflexivity; lia.
  - cbn [fst snd omap is_panic]. split; intros; [discriminate|lia].
Qed.

(** ... so the contract is false for the library's types. *)
Theorem c05_short_buffer_refuted :
  exists t v buf, In t base_types /\ wf t v = true /\ canonical t v
    /\ (length buf < length (enc t v))%nat /\ snd (marshal t v buf) = Panic.
Proof.
  exists Tpm2bDigest, (v2b 64 [x01; x02; x03]), (repeat x00 4).
  split; [in_base|].
  vm_compute. repeat split; lia.
Qed.

Example c05_example :
  no_sized TpmlHandle = true /\ wf TpmlHandle (zero_of TpmlHandle) = true
  /\ snd (marshal TpmlHandle (zero_of TpmlHandle) [x00; x00]) = Err UnexpectedEndOfBuffer.
Proof. vm_compute. auto. Qed.

(** ** C06 *)
(** Whatever the value and the outcome, the buffer keeps its length; on
    success everything behind the written bytes is untouched; otherwise the
    buffer holds a prefix of the encoding followed by its old contents. *)
Theorem c06_length t v buf : length (fst (marshal t v buf)) = length buf.
Proof. rewrite marshal_chunks. apply write_chunks_length. Qed.

Theorem c06_frame t v buf :
  wf t v = true ->
  exists k, (k <= length (enc t v))%nat
    /\ fst (marshal t v buf) = firstn k (enc t v) ++ skipn k buf
    /\ forall n, snd (marshal t v buf) = Ok n -> k = n.
Proof.
  intros Hv. destruct (le_lt_dec (length (enc t v)) (length buf)) as [Hl|Hl].
  - rewrite marshal_fits by assumption. exists (length (enc t v)).
    rewrite firstn_all. cbn. repeat split; [lia|]. intros n E. injection E as <-. reflexivity.
  - destruct (marshal_short t v buf Hv Hl) as (pre & c & post & Ec & Hb & E).
    destruct (proj1 chunks_enc_all t v Hv) as [_ He].
    rewrite Ec, bytes_of_app in He.
    exists (length (bytes_of pre)). rewrite E, <- He. cbn [fst snd].
    rewrite firstn_app_exact. repeat split.
    + rewrite app_length. lia.
    + destruct (is_payload c); discriminate.
Qed.

Example c06_example :
  fst (marshal Tpm2bDigest (v2b 64 [x01; x02]) (repeat xee 6)) = [x00; x02; x01; x02; xee; xee]
  /\ fst (marshal TpmsEccPoint (VStruct [v2b 128 [x01]; v2b 128 [x02]]) (repeat xee 4))
     = [x00; x01; x01; xee].
Proof. vm_compute. auto. Qed.

(** ** C07 *)
Theorem c07_truncated t v p q :
  wf_ty t = true -> wf t v = true -> enc t v = p ++ q -> q <> [] ->
  fst (unmarshal t p) = Err UnexpectedEndOfBuffer.
Proof. intros Ht Hv E Hq. exact (proj1 truncation_all t Ht v p q Hv E Hq). Qed.

Example c07_example :
  fst (unmarshal TpmtPublic (firstn 87 (enc TpmtPublic sample_public))) = Err UnexpectedEndOfBuffer.
Proof. vm_compute. reflexivity. Qed.

(** ** C08 *)
Theorem c08_consumed_only t consumed rest rest' v :
  wf_ty t = true -> unmarshal t (consumed ++ rest) = (Ok v, rest) ->
  unmarshal t (consumed ++ rest') = (Ok v, rest').
Proof.
  intros Ht E. apply unm_inv in E; [|assumption]. destruct E as (Hv & Hc & E).
  apply app_inv_tail in E. subst consumed. rewrite unm_enc by assumption. rewrite Hc. reflexivity.
Qed.

Example c08_example :
  wf_ty TpmsSensitiveCreate = true
  /\ unmarshal TpmsSensitiveCreate ([x00; x01; xaa; x00; x02; xbb; xcc] ++ [x01])
     = (Ok (VStruct [v2b 64 [xaa]; v2b 256 [xbb; xcc]]), [x01])
  /\ unmarshal TpmsSensitiveCreate ([x00; x01; xaa; x00; x02; xbb; xcc] ++ [])
     = (Ok (VStruct [v2b 64 [xaa]; v2b 256 [xbb; xcc]]), []).
Proof. vm_compute. auto. Qed.

(** ** C09 *)
Theorem c09_invariants t b v rest :
  wf_ty t = true -> unmarshal t b = (Ok v, rest) -> wf t v = true /\ canonical t v.
Proof. intros Ht E. apply unm_inv in E; [|assumption]. unfold canonical. tauto. Qed.

(** Spelled out for sized buffers and lists. *)
Theorem c09_sized_buffer max b v rest :
  unmarshal (TTpm2b max) b = (Ok v, rest) ->
  exists data, v = VTpm2b (Z.of_nat (length data)) (data ++ repeat x00 (N.to_nat max - length data))
    /\ (N.of_nat (length data) <= max)%N /\ Z.of_nat (length data) < 65536
    /\ b = be_bytes 2 (Z.of_nat (length data)) ++ data ++ rest.
Proof.
  intros E. apply unm_inv in E; [|reflexivity]. destruct E as (Hv & Hc & ->).
  destruct v; try discriminate. cbn [wf canon enc] in *. bsplit.
  apply in_range_u16 in H. apply N.leb_le in H1. apply N.eqb_eq in H0.
  exists (firstn (Z.to_nat size) buf).
  assert (Hl : length (firstn (Z.to_nat size) buf) = Z.to_nat size) by (rewrite firstn_length; lia).
  rewrite Hl, Z2Nat.id by lia. repeat split; try lia.
  symmetry. exact Hc.
Qed.

Lemma wf_tpml name cap t v : wf (tpml name cap t) v = true ->
  exists c l, v = VStruct [VInt c; VArr l] /\ 0 <= c < 2 ^ 32 /\ (Z.to_N c <= cap)%N
    /\ N.of_nat (length l) = cap /\ forallb (wf t) l = true.
Proof.
  intros Hv. unfold tpml, struct, fld, larr in Hv. cbn [mk_fields] in Hv.
  destruct v as [| | |vs| | |]; try discriminate. cbn [wf wf_fields] in Hv.
  destruct vs as [|[c| | | | | |] vs]; try discriminate.
  apply andb_true_iff in Hv. destruct Hv as [Hc Hv]. cbn [bind_len] in Hv.
  destruct vs as [|[| | | |l| |] [|]]; cbn [wf_fields] in Hv; try discriminate;
    try (rewrite andb_false_r in Hv; discriminate).
  bsplit. apply N.eqb_eq in H. cbn [wf u32] in Hc.
  unfold in_range in Hc. change (pow256 4) with (2 ^ 32) in Hc. bsplit.
  unfold len_ok in H1. cbn [lookup_len] in H1. rewrite String.eqb_refl in H1.
  apply N.leb_le in H1. unfold usize in H1. rewrite Z.mod_small in H1 by lia.
  exists c, l. repeat split; try assumption; lia.
Qed.

Lemma canon_tpml name cap t c l : 0 <= c < 2 ^ 32 ->
  canon (tpml name cap t) (VStruct [VInt c; VArr l])
  = VStruct [VInt c; VArr (map (canon t) (firstn (Z.to_nat c) l)
      ++ repeat (zero_of t) (N.to_nat cap - length (firstn (Z.to_nat c) l)))].
Proof.
  intros Hc. unfold tpml, struct, fld, larr.
  cbn [mk_fields canon canon_fields bind_len]. unfold counted. cbn [lookup_len].
  rewrite String.eqb_refl. unfold usize. rewrite Z.mod_small by lia.
  rewrite Z_N_nat. reflexivity.
Qed.

Lemma enc_tpml name cap t c l : 0 <= c < 2 ^ 32 ->
  enc (tpml name cap t) (VStruct [VInt c; VArr l])
  = be_bytes 4 c ++ flat_map (enc t) (firstn (Z.to_nat c) l).
Proof.
  intros Hc. unfold tpml, struct, fld, larr.
  cbn [mk_fields enc enc_fields bind_len u32]. unfold counted. cbn [lookup_len].
  rewrite String.eqb_refl. unfold usize. rewrite Z.mod_small by lia.
  rewrite Z_N_nat, app_nil_r. reflexivity.
Qed.

Theorem c09_list name cap t b v rest :
  wf_ty (tpml name cap t) = true ->
  unmarshal (tpml name cap t) b = (Ok v, rest) ->
  exists l, v = VStruct [VInt (Z.of_nat (length l));
                         VArr (l ++ repeat (zero_of t) (N.to_nat cap - length l))]
    /\ (N.of_nat (length l) <= cap)%N
    /\ Forall (fun e => wf t e = true /\ canonical t e) l
    /\ b = be_bytes 4 (Z.of_nat (length l)) ++ flat_map (enc t) l ++ rest.
Proof.
  intros Ht E. apply unm_inv in E; [|assumption]. destruct E as (Hv & Hc & ->).
  apply wf_tpml in Hv. destruct Hv as (c & l & -> & Hr & Hcap & Hl & Hf).
  rewrite canon_tpml in Hc by assumption. rewrite enc_tpml by assumption.
  injection Hc as Hc.
  assert (Hlen : length (firstn (Z.to_nat c) l) = Z.to_nat c) by (rewrite firstn_length; lia).
  assert (Hm : map (canon t) (firstn (Z.to_nat c) l) = firstn (Z.to_nat c) l).
  { apply (f_equal (firstn (Z.to_nat c))) in Hc.
    rewrite firstn_app_exact' in Hc by (rewrite map_length, Hlen; reflexivity). exact Hc. }
  exists (firstn (Z.to_nat c) l). rewrite Hlen in *.
  rewrite Z2Nat.id by lia. repeat split.
  - rewrite <- Hc at 1. rewrite Hm. reflexivity.
  - lia.
  - apply Forall_forall. intros e He.
    assert (Hin : In e l) by (rewrite <- (firstn_skipn (Z.to_nat c) l); apply in_or_app; auto).
    split; [eapply forallb_In; eassumption|].
    unfold canonical. apply ext_in_map with (l := firstn (Z.to_nat c) l) (g := fun x => x); [|assumption].
    rewrite map_id. exact Hm.
Qed.

Example c09_example :
  exists v, unmarshal TpmlEccCurve [x00;x00;x00;x02; x00;x03; x00;x04] = (Ok v, [])
    /\ firstn 3 (match v with VStruct [_; VArr l] => l | _ => [] end) = [vi 3; vi 4; vi 0].
Proof. eexists. vm_compute. auto. Qed.

(** ** C10 *)
Theorem c10_unique_decodability t v1 v2 r1 r2 :
  wf_ty t = true -> wf t v1 = true -> wf t v2 = true ->
  enc t v1 ++ r1 = enc t v2 ++ r2 -> canon t v1 = canon t v2 /\ r1 = r2.
Proof.
  intros Ht H1 H2 E. pose proof (unm_enc t v1 r1 Ht H1) as E1.
  rewrite E, unm_enc in E1 by assumption. injection E1 as -> ->. auto.
Qed.

Example c10_example :
  wf Tpm2bDigest (v2b 64 [x01]) = true /\ wf Tpm2bDigest (v2b 64 [x01; x00]) = true
  /\ enc Tpm2bDigest (v2b 64 [x01]) <> enc Tpm2bDigest (v2b 64 [x01; x00]).
Proof. vm_compute. repeat split. discriminate. Qed.

(** ** C11 *)
(** A list is accepted only if its count is at most the capacity. *)
Theorem c11_list_count name cap t c rest :
  0 <= c < 2 ^ 32 -> (cap < Z.to_N c)%N ->
  unmarshal (tpml name cap t) (be_bytes 4 c ++ rest) = (Err ArrayLengthExceeded, rest).
Proof.
  intros Hc Hcap. unfold tpml, struct, fld, larr. cbn [mk_fields unmarshal unmarshal_fields u32].
  rewrite unm_int_app.
  2:{ unfold in_range. change (pow256 4) with (2 ^ 32). apply andb_true_iff. lia. }
  cbn [umap omap fst snd uthen bind_len lookup_len]. rewrite String.eqb_refl.
  unfold usize. rewrite Z.mod_small by lia.
  destruct (N.ltb_spec cap (Z.to_N c)); [reflexivity|lia].
Qed.

(** A sized buffer is accepted iff its size is at most both the maximum and
    what is left of the input. *)
Theorem c11_sized_buffer max size rest :
  0 <= size < 65536 ->
  let r := fst (unmarshal (TTpm2b max) (be_bytes 2 size ++ rest)) in
  if (size <=? Z.of_N max) && (size <=? Z.of_nat (length rest))
  then exists v, r = Ok v
  else r = Err UnexpectedEndOfBuffer.
Proof.
  intros Hs. cbn [unmarshal]. unfold unm_tpm2b.
  rewrite unm_int_app by (apply in_range_iff; assumption). unfold buf_get.
  destruct (N.ltb_spec (N.of_nat (length rest)) (Z.to_N size));
    destruct (Z.leb_spec size (Z.of_N max));
    destruct (Z.leb_spec size (Z.of_nat (length rest))); cbn [andb fst]; try lia; try reflexivity.
  all: rewrite firstn_length;
    match goal with |- context [(?a <? ?b)%N] => destruct (N.ltb_spec a b) end;
    cbn [fst]; eauto; lia.
Qed.

(** An enum is rejected with UnknownSelector exactly when ... the selector is
    none of the declared ones. *)
Lemma unknown_selector vrs sel b : ~ In sel (selectors vrs) ->
  unmarshal_variant vrs sel b = (Err UnknownSelector, b).
Proof.
  induction vrs as [|s ts rest IH]; cbn; intros H; [reflexivity|].
  destruct (Z.eqb_spec sel s); [exfalso; apply H; auto|]. apply IH. auto.
Qed.

Theorem c11_selector k vrs sel rest :
  in_range false k sel = true -> ~ In sel (selectors vrs) ->
  unmarshal (TEnum k vrs) (be_bytes k sel ++ rest) = (Err UnknownSelector, rest).
Proof.
  intros Hr Hs. cbn [unmarshal]. rewrite unm_int_app by assumption. cbn [uthen].
  rewrite unknown_selector by assumption. reflexivity.
Qed.

(** How these surface as TPM response codes: 0x095 TPM_RC_SIZE, 0x904
    TPM_RC_MEMORY, 0x098 TPM_RC_SELECTOR. *)
Theorem c11_response_codes :
  tss_of_merr ArrayLengthExceeded = 0x095
  /\ tss_of_merr UnexpectedEndOfBuffer = 0x904
  /\ tss_of_merr UnknownSelector = 0x098.
Proof. repeat split. Qed.

Example c11_example :
  fst (unmarshal TpmlDigest [x00;x00;x00;x09]) = Err ArrayLengthExceeded
  /\ fst (unmarshal Tpm2bIv ([x00;x11] ++ repeat x00 17)) = Err UnexpectedEndOfBuffer
  /\ fst (unmarshal TpmtHa [x00;x27]) = Err UnknownSelector.
Proof. vm_compute. auto. Qed.

(** ** C12 *)
Theorem c12_size_of t v :
  wf t v = true -> (N.of_nat (length (enc t v)) <= size_of t)%N.
Proof. apply enc_size_of. Qed.

Theorem c12_size_of_buffer t v buf :
  wf t v = true -> (size_of t <= N.of_nat (length buf))%N ->
  exists n, snd (marshal t v buf) = Ok n.
Proof.
  intros Hv Hl. pose proof (enc_size_of t v Hv).
  rewrite marshal_fits by (try assumption; lia). cbn. eauto.
Qed.

Example c12_example :
  size_of TpmsAttest = 2304%N /\ size_of TpmtPublic = 616%N /\ size_of TpmtHa = 66%N.
Proof. vm_compute. auto. Qed.

(** ** C22 *)
(** Wire layout of the three structures whose selector is apart from the
    union, with [body] the encoding of the selected member. *)
Theorem c22_attest_layout magic name data clock fw sel args :
  enc TpmsAttest (VStruct [VStruct [magic]; VStruct [name; data; clock; fw]; VEnum sel args])
  = enc TpmGenerated magic ++ be_bytes 2 sel ++ enc Tpm2bName name ++ enc Tpm2bData data
    ++ enc TpmsClockInfo clock ++ enc u64 fw ++ enc_variant attest_variants sel args.
Proof. cbn -[enc_variant enc attest_variants]. cbn [TpmsAttest enc mk_tys enc_tys]. rewrite !app_nil_r, <- !app_assoc. reflexivity. Qed.

Theorem c22_public_layout nalg attrs policy sel args :
  enc TpmtPublic (VStruct [VStruct []; VStruct [nalg; attrs; policy]; VEnum sel args])
  = be_bytes 2 sel ++ enc TpmiAlgHash nalg ++ enc TpmaObject attrs ++ enc Tpm2bDigest policy
    ++ enc_variant public_variants sel args.
Proof. cbn [TpmtPublic enc mk_tys enc_tys]. rewrite !app_nil_r, <- !app_assoc. reflexivity. Qed.

Theorem c22_sensitive_layout auth seed sel args :
  enc TpmtSensitive (VStruct [VStruct []; VStruct [auth; seed]; VEnum sel args])
  = be_bytes 2 sel ++ enc Tpm2bDigest auth ++ enc Tpm2bDigest seed
    ++ enc_variant sensitive_variants sel args.
Proof. cbn [TpmtSensitive enc mk_tys enc_tys]. rewrite !app_nil_r, <- !app_assoc. reflexivity. Qed.

(** Decoding picks the member by the selector it read; the value's selector
    is the one on the wire, at the position after the leading fields. *)
Theorem c22_selector_consistent pre k mid vrs b v rest :
  wf_ty (TSplit pre k mid vrs) = true ->
  unmarshal (TSplit pre k mid vrs) b = (Ok v, rest) ->
  exists a m sel args, v = VStruct [VStruct a; VStruct m; VEnum sel args]
    /\ In sel (selectors vrs)
    /\ firstn k (skipn (length (enc_tys pre a)) b) = be_bytes k sel
    /\ wf_variant vrs sel args = true
    /\ forall r, unmarshal (TSplit pre k mid vrs) (enc (TSplit pre k mid vrs) v ++ r) = (Ok v, r).
Proof.
  intros Ht E. pose proof E as E0. apply unm_inv in E; [|assumption].
  destruct E as (Hv & Hc & Eb).
  destruct v as [| | |vs| | |]; try discriminate.
  destruct vs as [|[| | |a| | |] [|[| | |m| | |] [|[| | | | |sel args|] [|]]]]; try discriminate.
  exists a, m, sel, args. split; [reflexivity|].
  pose proof Hv as Hw. cbn [wf] in Hw. bsplit. repeat split.
  - clear - H0. induction vrs as [|s ts r IH]; cbn in *; [discriminate|].
    destruct (Z.eqb_spec sel s); auto.
  - rewrite Eb. cbn [enc]. rewrite <- !app_assoc, skipn_app_exact.
    apply firstn_app_exact'. rewrite be_bytes_length. reflexivity.
  - assumption.
  - intros r. rewrite unm_enc by assumption. rewrite Hc. reflexivity.
Qed.

(** An undeclared selector is rejected once the fixed fields were parsed. *)
Theorem c22_undeclared pre k mid vrs a sel m rest :
  wf_ty (TSplit pre k mid vrs) = true -> in_range false k sel = true ->
  wf_tys pre a = true -> wf_tys mid m = true -> ~ In sel (selectors vrs) ->
  unmarshal (TSplit pre k mid vrs) (enc_tys pre a ++ be_bytes k sel ++ enc_tys mid m ++ rest)
  = (Err UnknownSelector, rest).
Proof.
  intros Ht Hr Ha Hm Hs. cbn [wf_ty] in Ht. bsplit. cbn [unmarshal].
  rewrite (proj1 (proj2 (proj2 unm_enc_all))) by assumption. cbn [uthen].
  rewrite unm_int_app by assumption. cbn [uthen].
  rewrite (proj1 (proj2 (proj2 unm_enc_all))) by assumption. cbn [uthen].
  rewrite unknown_selector by assumption. reflexivity.
Qed.

(** The members of the three unions. *)
Theorem c22_members :
  selectors attest_variants = [0x8017; 0x801A; 0x8018; 0x8015; 0x8016; 0x8019; 0x8014]
  /\ selectors public_variants = [0x08; 0x25; 0x01; 0x23]
  /\ selectors sensitive_variants = [0x01; 0x23; 0x08; 0x25; 0x10].
Proof. repeat split. Qed.

Example c22_example :
  unmarshal TpmsAttest (enc TpmsAttest sample_attest) = (Ok sample_attest, [])
  /\ firstn 2 (skipn 4 (enc TpmsAttest sample_attest)) = [x80; x18]
  /\ ~ In st_AttestNVDigest (selectors attest_variants).
Proof.
  split; [vm_compute; reflexivity|]. split; [vm_compute; reflexivity|].
  vm_compute. intuition discriminate.
Qed.

(** ** C53 *)
Theorem c53_capability_data v :
  wf TpmsCapabilityData v = true ->
  (N.of_nat (length (enc TpmsCapabilityData v)) <= TPM2_MAX_CAP_BUFFER)%N.
Proof.
  intros Hv. etransitivity; [exact (proj1 enc_max_all _ v Hv)|]. vm_compute. discriminate.
Qed.

(** The bound is reached. *)
Example c53_example :
  let v := VEnum 6 [VStruct [VInt 127; VArr (repeat (zero_of TpmsTaggedProperty) 127)]] in
  wf TpmsCapabilityData v = true /\ length (enc TpmsCapabilityData v) = N.to_nat 1024.
Proof. vm_compute. auto. Qed.
