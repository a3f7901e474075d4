(** The trait [MarshalableVariant] (marshalable/src/lib.rs:38-66) as derived for
    enums (C106): members without their selector.  The model is in Marshal.v, the
    format in WireSpec.v. *)
From Coq Require Import String ZArith NArith List Lia Bool.
From Coq Require Import Init.Byte.
From Verif Require Import Prelude Types Marshal WireSpec MarshalProofs WriteSpec MarshalWrite
  MarshalFacts Layout Catalogue Samples Errors VariantSpec.
Import ListNotations.
Open Scope Z_scope.

Lemma body_enc k vrs sel args : body k vrs sel args = enc_variant vrs sel args.
Proof.
  unfold body. cbn [enc]. rewrite <- (be_bytes_length k sel) at 1. apply skipn_app_exact.
Qed.

(** The variant's fields as a tuple struct: the generated code is the same. *)
Lemma variant_tuple vrs : forall sel args buf, wf_variant vrs sel args = true ->
  exists ts, wf_tys ts args = true /\ marshal_variant vrs sel args buf = marshal (TTuple ts) (VStruct args) buf
    /\ enc_variant vrs sel args = enc (TTuple ts) (VStruct args).
Proof.
  induction vrs as [|s ts rest IH]; intros sel args buf; cbn [wf_variant marshal_variant enc_variant];
    [discriminate|].
  destruct (sel =? s); [|apply IH]. intros H. exists ts. auto.
Qed.

(** ** C106 *)
(** [try_marshal_variant] writes what [try_marshal] writes behind the selector:
    into every buffer with room for it, into no other, and nothing else. *)
Theorem c106_marshal k vrs sel args buf :
  wf (TEnum k vrs) (VEnum sel args) = true ->
  if (length (body k vrs sel args) <=? length buf)%nat
  then marshal_variant vrs sel args buf
       = (body k vrs sel args ++ skipn (length (body k vrs sel args)) buf,
          Ok (length (body k vrs sel args)))
  else is_ok (snd (marshal_variant vrs sel args buf)) = false.
Proof.
  rewrite body_enc. intros Hv. destruct (variant_tuple vrs sel args buf Hv) as (ts & Ht & -> & ->).
  assert (Ht' : wf (TTuple ts) (VStruct args) = true) by exact Ht.
  destruct (Nat.leb_spec (length (enc (TTuple ts) (VStruct args))) (length buf)) as [Hl|Hl].
  - rewrite marshal_fits by assumption. reflexivity.
  - destruct (marshal_short _ _ buf Ht' Hl) as (pre & c & post & _ & _ & ->).
    cbn [snd]. destruct (is_payload c); reflexivity.
Qed.

(** Selector and variant, marshalled one after the other by the caller, are the
    marshalled enum. *)
Theorem c106_apart k vrs sel args buf b1 n b2 m :
  marshal (TInt false k) (VInt sel) buf = (b1, Ok n) ->
  marshal_variant vrs sel args (skipn n b1) = (b2, Ok m) ->
  marshal (TEnum k vrs) (VEnum sel args) buf = (firstn n b1 ++ b2, Ok (n + m)%nat).
Proof.
  intros E1 E2. cbn [marshal] in *. unfold mseq at 1. cbn [length Nat.ltb Nat.leb skipn firstn app].
  rewrite E1. cbn [omap mthen Nat.add].
  assert (Hn : (n <= length b1)%nat).
  { unfold mar_int, mar_bytes in E1. destruct (Nat.leb_spec (length (be_bytes k sel)) (length buf)); [|discriminate].
    injection E1 as <- <-. rewrite overwrite_length; lia. }
  unfold mseq. destruct (Nat.ltb_spec (length b1) n); [lia|]. rewrite E2. reflexivity.
Qed.

(** [try_unmarshal_variant], told the selector, reads the value back and takes
    nothing behind it. *)
Theorem c106_round_trip k vrs sel args rest :
  wf_ty (TEnum k vrs) = true -> wf (TEnum k vrs) (VEnum sel args) = true ->
  canonical (TEnum k vrs) (VEnum sel args) ->
  unmarshal_variant vrs sel (body k vrs sel args ++ rest) = (Ok args, rest).
Proof.
  intros Ht Hv Hc. rewrite body_enc.
  pose proof (unm_enc (TEnum k vrs) (VEnum sel args) rest Ht Hv) as H.
  cbn [enc unmarshal wf_ty wf] in *. bsplit. rewrite <- app_assoc in H.
  rewrite unm_int_app in H by (eapply variant_sel_range; eassumption). cbn [uthen] in H.
  rewrite Hc in H.
  destruct (unmarshal_variant vrs sel (enc_variant vrs sel args ++ rest)) as [[a|e|] r]; cbn in H;
    try discriminate. injection H as -> ->. reflexivity.
Qed.

(** Told a selector it does what [try_unmarshal] does after reading it. *)
Theorem c106_told k vrs sel b :
  in_range false k sel = true ->
  unmarshal (TEnum k vrs) (be_bytes k sel ++ b)
  = (omap (VEnum sel) (fst (unmarshal_variant vrs sel b)), snd (unmarshal_variant vrs sel b)).
Proof.
  intros Hs. cbn [unmarshal]. rewrite unm_int_app by assumption. reflexivity.
Qed.

(** It never panics; a selector that is not declared is refused as such, before
    anything is read; what is accepted is the body of a valid value. *)
Theorem c106_total k vrs sel b :
  wf_ty (TEnum k vrs) = true -> in_range false k sel = true ->
  match unmarshal_variant vrs sel b with
  | (Ok args, rest) => In sel (selectors vrs) /\ wf (TEnum k vrs) (VEnum sel args) = true
      /\ canonical (TEnum k vrs) (VEnum sel args) /\ b = body k vrs sel args ++ rest
  | (Err e, rest) => (exists consumed, b = consumed ++ rest)
      /\ (~ In sel (selectors vrs) -> e = UnknownSelector /\ rest = b)
  | (Panic, _) => False
  end.
Proof.
  intros Ht Hs.
  assert (Hu : ~ In sel (selectors vrs) -> unmarshal_variant vrs sel b = (Err UnknownSelector, b))
    by apply unknown_selector.
  pose proof (c106_told k vrs sel b Hs) as E.
  destruct (unmarshal_variant vrs sel b) as [[args|e|] rest] eqn:Ev; cbn [fst snd omap] in E.
  - apply unm_inv in E; [|assumption]. destruct E as (Hv & Hc & E).
    cbn [enc] in E. rewrite <- app_assoc in E. apply app_inv_head in E.
    split; [|split; [exact Hv|split; [exact Hc|rewrite body_enc; exact E]]].
    destruct (in_dec Z.eq_dec sel (selectors vrs)) as [|H]; [assumption|]. specialize (Hu H). discriminate.
  - split; [|intros H; specialize (Hu H); injection Hu as -> ->; auto].
    cbn [wf_ty] in Ht. bsplit.
    destruct (proj2 (proj2 (proj2 unm_total_all)) vrs k ltac:(assumption) sel b) as [_ [c Hc]].
    rewrite Ev in Hc. eauto.
  - cbn [wf_ty] in Ht. bsplit.
    destruct (proj2 (proj2 (proj2 unm_total_all)) vrs k ltac:(assumption) sel b) as [Hp _].
    rewrite Ev in Hp. discriminate.
Qed.

(** A quote of TPMU_ATTEST, a signature scheme without data, and a selector that
    TPMU_ATTEST does not have. *)
Definition sample_quote : list val := [VStruct [sample_pcrs; v2b 64 (repeat xaa 32)]].
Example c106_example :
  wf_ty TpmuAttest = true /\ wf TpmuAttest (VEnum 0x8018 sample_quote) = true
  /\ canonical TpmuAttest (VEnum 0x8018 sample_quote)
  /\ length (body 2 attest_variants 0x8018 sample_quote) = 44%nat
  /\ firstn 6 (body 2 attest_variants 0x8018 sample_quote) = [x00; x00; x00; x01; x00; x0b]
  /\ in_range false 2 0x8018 = true /\ ~ In 0x801C (selectors attest_variants)
  /\ in_range false 2 0x801C = true
  /\ unmarshal_variant attest_variants 0x801C [x00; x01] = (Err UnknownSelector, [x00; x01]).
Proof. repeat split; try (vm_compute; reflexivity).
  vm_compute. intros H. repeat (destruct H as [H|H]; [discriminate|]). exact H.
Qed.
Example c106_no_data_example :
  let vrs := mk_variants [(0x10, []); (0x14, [u16])] in
  wf (TEnum 2 vrs) (VEnum 0x10 []) = true /\ marshal_variant vrs 0x10 [] [] = ([], Ok 0%nat)
  /\ marshal_variant vrs 0x14 [VInt 0xB] [x00; x00; xff] = ([x00; x0b; xff], Ok 2%nat).
Proof. vm_compute. auto. Qed.
Example c106_apart_example :
  let vrs := mk_variants [(0x10, []); (0x14, [u16])] in
  marshal (TInt false 2) (VInt 0x14) (repeat xee 5) = ([x00; x14; xee; xee; xee], Ok 2%nat)
  /\ marshal_variant vrs 0x14 [VInt 0xB] [xee; xee; xee] = ([x00; x0b; xee], Ok 2%nat).
Proof. vm_compute. auto. Qed.
