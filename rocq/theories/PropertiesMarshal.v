(** Properties of [Marshalable] for every type the derive macro accepts
    (C01-C12, C22, C53).  [wf], [enc], [canon] are in WireSpec.v; [base_types] lists
    the library's types (Catalogue.v). *)
(* Restates the theorems of MarshalFacts.v; proofs are there. *)
From Coq Require Import String ZArith NArith List Lia Bool.
From Coq Require Import Init.Byte.
From Verif Require Import Prelude Types Marshal WireSpec MarshalProofs WriteSpec MarshalWrite
  Layout Catalogue Samples Errors.
From Verif Require Import MarshalFacts.
Import ListNotations.
Open Scope Z_scope.

(** ** C01 *)
(** Marshal into any buffer, then unmarshal what was written followed by
    anything: the value comes back and the rest is left unread. *)
Theorem C01_round_trip t v buf buf' n rest :
  wf_ty t = true -> wf t v = true -> canonical t v ->
  marshal t v buf = (buf', Ok n) ->
  unmarshal t (firstn n buf' ++ rest) = (Ok v, rest).
Proof. exact (c01_round_trip t v buf buf' n rest). Qed.
Print Assumptions C01_round_trip.

(** Values with unobservable bytes behind a size or count (only
    [TpmsPcrSelection] and [TpmsTaggedPcrSelect] let a caller set such bytes)
    come back with those bytes cleared and everything else unchanged. *)
Theorem C01_round_trip_general t v buf buf' n rest :
  wf_ty t = true -> wf t v = true ->
  marshal t v buf = (buf', Ok n) ->
  unmarshal t (firstn n buf' ++ rest) = (Ok (canon t v), rest)
  /\ enc t (canon t v) = enc t v.
Proof. exact (c01_round_trip_general t v buf buf' n rest). Qed.
Print Assumptions C01_round_trip_general.

(** The same for the types of the library. *)
Theorem C01_round_trip_base t v buf buf' n rest :
  In t base_types -> wf t v = true -> canonical t v ->
  marshal t v buf = (buf', Ok n) ->
  unmarshal t (firstn n buf' ++ rest) = (Ok v, rest).
Proof. exact (c01_round_trip_base t v buf buf' n rest). Qed.
Print Assumptions C01_round_trip_base.

Example C01_example :
  In TpmsAttest base_types /\ wf TpmsAttest sample_attest = true
  /\ canonical TpmsAttest sample_attest
  /\ snd (marshal TpmsAttest sample_attest (repeat x00 200)) = Ok 83%nat
  /\ unmarshal TpmsAttest
       (firstn 83 (fst (marshal TpmsAttest sample_attest (repeat x00 200))) ++ [x01; x02])
     = (Ok sample_attest, [x01; x02]).
Proof. exact c01_example. Qed.


(** ** C02 *)
Theorem C02_canonical t b v rest buf :
  wf_ty t = true -> unmarshal t b = (Ok v, rest) ->
  exists consumed, b = consumed ++ rest
    /\ ((length consumed <= length buf)%nat ->
        marshal t v buf = (consumed ++ skipn (length consumed) buf, Ok (length consumed))).
Proof. exact (c02_canonical t b v rest buf). Qed.
Print Assumptions C02_canonical.

Example C02_example :
  exists v rest, unmarshal TpmlPcrSelection
    [x00;x00;x00;x01; x00;x0b; x03; x01;x02;x03; xee] = (Ok v, rest) /\ rest = [xee].
Proof. exact c02_example. Qed.


(** ** C03 *)
Theorem C03_unmarshal_total t b :
  wf_ty t = true ->
  (exists v rest consumed, unmarshal t b = (Ok v, rest) /\ b = consumed ++ rest)
  \/ (exists e rest consumed, unmarshal t b = (Err e, rest) /\ b = consumed ++ rest).
Proof. exact (c03_unmarshal_total t b). Qed.
Print Assumptions C03_unmarshal_total.

Example C03_example :
  fst (unmarshal TpmsAttest [xff; x54]) = Err UnexpectedEndOfBuffer
  /\ is_ok (fst (unmarshal TpmsAttest (enc TpmsAttest sample_attest))) = true.
Proof. exact c03_example. Qed.


(** ** C04 *)
Theorem C04_ok_iff_fits t v buf :
  wf t v = true ->
  ((length (enc t v) <= length buf)%nat <-> exists n, snd (marshal t v buf) = Ok n)
  /\ forall n, snd (marshal t v buf) = Ok n ->
       n = length (enc t v) /\ firstn n (fst (marshal t v buf)) = enc t v.
Proof. exact (c04_ok_iff_fits t v buf). Qed.
Print Assumptions C04_ok_iff_fits.

Example C04_example :
  length (enc TpmtPublic sample_public) = 88%nat
  /\ is_ok (snd (marshal TpmtPublic sample_public (repeat x00 88))) = true
  /\ is_ok (snd (marshal TpmtPublic sample_public (repeat x00 87))) = false.
Proof. exact c04_example. Qed.


(** ** C05 *)
(** Types without sized buffers keep the documented contract ... *)
Theorem C05_short_buffer_partial t v buf :
  no_sized t = true -> wf t v = true -> (length buf < length (enc t v))%nat ->
  snd (marshal t v buf) = Err UnexpectedEndOfBuffer.
Proof. exact (c05_short_buffer_partial t v buf). Qed.
Print Assumptions C05_short_buffer_partial.

(** ... every short buffer is an error or a panic, never a success ... *)
Theorem C05_short_never_ok_partial t v buf :
  wf t v = true -> (length buf < length (enc t v))%nat ->
  snd (marshal t v buf) = Err UnexpectedEndOfBuffer \/ snd (marshal t v buf) = Panic.
Proof. exact (c05_short_never_ok_partial t v buf). Qed.
Print Assumptions C05_short_never_ok_partial.

(** ... a sized buffer panics exactly when the two size bytes fit and the
    payload does not ... *)
Theorem C05_sized_buffer_panics max size data buf :
  wf (TTpm2b max) (VTpm2b size data) = true ->
  (is_panic (snd (marshal (TTpm2b max) (VTpm2b size data) buf)) = true
   <-> 2 <= Z.of_nat (length buf) < 2 + size).
Proof. exact (c05_sized_buffer_panics max size data buf). Qed.
Print Assumptions C05_sized_buffer_panics.

(** ... so the contract is false for the library's types. *)
Theorem C05_short_buffer_refuted :
  exists t v buf, In t base_types /\ wf t v = true /\ canonical t v
    /\ (length buf < length (enc t v))%nat /\ snd (marshal t v buf) = Panic.
Proof. exact c05_short_buffer_refuted. Qed.
Print Assumptions C05_short_buffer_refuted.

Example C05_example :
  no_sized TpmlHandle = true /\ wf TpmlHandle (zero_of TpmlHandle) = true
  /\ snd (marshal TpmlHandle (zero_of TpmlHandle) [x00; x00]) = Err UnexpectedEndOfBuffer.
Proof. exact c05_example. Qed.


(** ** C06 *)
(** Whatever the value and the outcome, the buffer keeps its length; on
    success everything behind the written bytes is untouched; otherwise the
    buffer holds a prefix of the encoding followed by its old contents. *)
Theorem C06_length t v buf : length (fst (marshal t v buf)) = length buf.
Proof. exact (c06_length t v buf). Qed.
Print Assumptions C06_length.

Theorem C06_frame t v buf :
  wf t v = true ->
  exists k, (k <= length (enc t v))%nat
    /\ fst (marshal t v buf) = firstn k (enc t v) ++ skipn k buf
    /\ forall n, snd (marshal t v buf) = Ok n -> k = n.
Proof. exact (c06_frame t v buf). Qed.
Print Assumptions C06_frame.

Example C06_example :
  fst (marshal Tpm2bDigest (v2b 64 [x01; x02]) (repeat xee 6)) = [x00; x02; x01; x02; xee; xee]
  /\ fst (marshal TpmsEccPoint (VStruct [v2b 128 [x01]; v2b 128 [x02]]) (repeat xee 4))
     = [x00; x01; x01; xee].
Proof. exact c06_example. Qed.


(** ** C07 *)
Theorem C07_truncated t v p q :
  wf_ty t = true -> wf t v = true -> enc t v = p ++ q -> q <> [] ->
  fst (unmarshal t p) = Err UnexpectedEndOfBuffer.
Proof. exact (c07_truncated t v p q). Qed.
Print Assumptions C07_truncated.

Example C07_example :
  fst (unmarshal TpmtPublic (firstn 87 (enc TpmtPublic sample_public))) = Err UnexpectedEndOfBuffer.
Proof. exact c07_example. Qed.


(** ** C08 *)
Theorem C08_consumed_only t consumed rest rest' v :
  wf_ty t = true -> unmarshal t (consumed ++ rest) = (Ok v, rest) ->
  unmarshal t (consumed ++ rest') = (Ok v, rest').
Proof. exact (c08_consumed_only t consumed rest rest' v). Qed.
Print Assumptions C08_consumed_only.

Example C08_example :
  wf_ty TpmsSensitiveCreate = true
  /\ unmarshal TpmsSensitiveCreate ([x00; x01; xaa; x00; x02; xbb; xcc] ++ [x01])
     = (Ok (VStruct [v2b 64 [xaa]; v2b 256 [xbb; xcc]]), [x01])
  /\ unmarshal TpmsSensitiveCreate ([x00; x01; xaa; x00; x02; xbb; xcc] ++ [])
     = (Ok (VStruct [v2b 64 [xaa]; v2b 256 [xbb; xcc]]), []).
Proof. exact c08_example. Qed.


(** ** C09 *)
Theorem C09_invariants t b v rest :
  wf_ty t = true -> unmarshal t b = (Ok v, rest) -> wf t v = true /\ canonical t v.
Proof. exact (c09_invariants t b v rest). Qed.
Print Assumptions C09_invariants.

(** Spelled out for sized buffers and lists. *)
Theorem C09_sized_buffer max b v rest :
  unmarshal (TTpm2b max) b = (Ok v, rest) ->
  exists data, v = VTpm2b (Z.of_nat (length data)) (data ++ repeat x00 (N.to_nat max - length data))
    /\ (N.of_nat (length data) <= max)%N /\ Z.of_nat (length data) < 65536
    /\ b = be_bytes 2 (Z.of_nat (length data)) ++ data ++ rest.
Proof. exact (c09_sized_buffer max b v rest). Qed.
Print Assumptions C09_sized_buffer.

Theorem C09_list name cap t b v rest :
  wf_ty (tpml name cap t) = true ->
  unmarshal (tpml name cap t) b = (Ok v, rest) ->
  exists l, v = VStruct [VInt (Z.of_nat (length l));
                         VArr (l ++ repeat (zero_of t) (N.to_nat cap - length l))]
    /\ (N.of_nat (length l) <= cap)%N
    /\ Forall (fun e => wf t e = true /\ canonical t e) l
    /\ b = be_bytes 4 (Z.of_nat (length l)) ++ flat_map (enc t) l ++ rest.
Proof. exact (c09_list name cap t b v rest). Qed.
Print Assumptions C09_list.

Example C09_example :
  exists v, unmarshal TpmlEccCurve [x00;x00;x00;x02; x00;x03; x00;x04] = (Ok v, [])
    /\ firstn 3 (match v with VStruct [_; VArr l] => l | _ => [] end) = [vi 3; vi 4; vi 0].
Proof. exact c09_example. Qed.


(** ** C10 *)
Theorem C10_unique_decodability t v1 v2 r1 r2 :
  wf_ty t = true -> wf t v1 = true -> wf t v2 = true ->
  enc t v1 ++ r1 = enc t v2 ++ r2 -> canon t v1 = canon t v2 /\ r1 = r2.
Proof. exact (c10_unique_decodability t v1 v2 r1 r2). Qed.
Print Assumptions C10_unique_decodability.

Example C10_example :
  wf Tpm2bDigest (v2b 64 [x01]) = true /\ wf Tpm2bDigest (v2b 64 [x01; x00]) = true
  /\ enc Tpm2bDigest (v2b 64 [x01]) <> enc Tpm2bDigest (v2b 64 [x01; x00]).
Proof. exact c10_example. Qed.


(** ** C11 *)
(** A list is accepted only if its count is at most the capacity. *)
Theorem C11_list_count name cap t c rest :
  0 <= c < 2 ^ 32 -> (cap < Z.to_N c)%N ->
  unmarshal (tpml name cap t) (be_bytes 4 c ++ rest) = (Err ArrayLengthExceeded, rest).
Proof. exact (c11_list_count name cap t c rest). Qed.
Print Assumptions C11_list_count.

(** A sized buffer is accepted iff its size is at most both the maximum and
    what is left of the input. *)
Theorem C11_sized_buffer max size rest :
  0 <= size < 65536 ->
  let r := fst (unmarshal (TTpm2b max) (be_bytes 2 size ++ rest)) in
  if (size <=? Z.of_N max) && (size <=? Z.of_nat (length rest))
  then exists v, r = Ok v
  else r = Err UnexpectedEndOfBuffer.
Proof. exact (c11_sized_buffer max size rest). Qed.
Print Assumptions C11_sized_buffer.

Theorem C11_selector k vrs sel rest :
  in_range false k sel = true -> ~ In sel (selectors vrs) ->
  unmarshal (TEnum k vrs) (be_bytes k sel ++ rest) = (Err UnknownSelector, rest).
Proof. exact (c11_selector k vrs sel rest). Qed.
Print Assumptions C11_selector.

(** How these surface as TPM response codes: 0x095 TPM_RC_SIZE, 0x904
    TPM_RC_MEMORY, 0x098 TPM_RC_SELECTOR. *)
Theorem C11_response_codes :
  tss_of_merr ArrayLengthExceeded = 0x095
  /\ tss_of_merr UnexpectedEndOfBuffer = 0x904
  /\ tss_of_merr UnknownSelector = 0x098.
Proof. exact c11_response_codes. Qed.
Print Assumptions C11_response_codes.

Example C11_example :
  fst (unmarshal TpmlDigest [x00;x00;x00;x09]) = Err ArrayLengthExceeded
  /\ fst (unmarshal Tpm2bIv ([x00;x11] ++ repeat x00 17)) = Err UnexpectedEndOfBuffer
  /\ fst (unmarshal TpmtHa [x00;x27]) = Err UnknownSelector.
Proof. exact c11_example. Qed.


(** ** C12 *)
Theorem C12_size_of t v :
  wf t v = true -> (N.of_nat (length (enc t v)) <= size_of t)%N.
Proof. exact (c12_size_of t v). Qed.
Print Assumptions C12_size_of.

Theorem C12_size_of_buffer t v buf :
  wf t v = true -> (size_of t <= N.of_nat (length buf))%N ->
  exists n, snd (marshal t v buf) = Ok n.
Proof. exact (c12_size_of_buffer t v buf). Qed.
Print Assumptions C12_size_of_buffer.

Example C12_example :
  size_of TpmsAttest = 2304%N /\ size_of TpmtPublic = 616%N /\ size_of TpmtHa = 66%N.
Proof. exact c12_example. Qed.


(** ** C22 *)
(** Wire layout of the three structures whose selector is apart from the
    union, with [body] the encoding of the selected member. *)
Theorem C22_attest_layout magic name data clock fw sel args :
  enc TpmsAttest (VStruct [VStruct [magic]; VStruct [name; data; clock; fw]; VEnum sel args])
  = enc TpmGenerated magic ++ be_bytes 2 sel ++ enc Tpm2bName name ++ enc Tpm2bData data
    ++ enc TpmsClockInfo clock ++ enc u64 fw ++ enc_variant attest_variants sel args.
Proof. exact (c22_attest_layout magic name data clock fw sel args). Qed.
Print Assumptions C22_attest_layout.

Theorem C22_public_layout nalg attrs policy sel args :
  enc TpmtPublic (VStruct [VStruct []; VStruct [nalg; attrs; policy]; VEnum sel args])
  = be_bytes 2 sel ++ enc TpmiAlgHash nalg ++ enc TpmaObject attrs ++ enc Tpm2bDigest policy
    ++ enc_variant public_variants sel args.
Proof. exact (c22_public_layout nalg attrs policy sel args). Qed.
Print Assumptions C22_public_layout.

Theorem C22_sensitive_layout auth seed sel args :
  enc TpmtSensitive (VStruct [VStruct []; VStruct [auth; seed]; VEnum sel args])
  = be_bytes 2 sel ++ enc Tpm2bDigest auth ++ enc Tpm2bDigest seed
    ++ enc_variant sensitive_variants sel args.
Proof. exact (c22_sensitive_layout auth seed sel args). Qed.
Print Assumptions C22_sensitive_layout.

(** Decoding picks the member by the selector it read; the value's selector
    is the one on the wire, at the position after the leading fields. *)
Theorem C22_selector_consistent pre k mid vrs b v rest :
  wf_ty (TSplit pre k mid vrs) = true ->
  unmarshal (TSplit pre k mid vrs) b = (Ok v, rest) ->
  exists a m sel args, v = VStruct [VStruct a; VStruct m; VEnum sel args]
    /\ In sel (selectors vrs)
    /\ firstn k (skipn (length (enc_tys pre a)) b) = be_bytes k sel
    /\ wf_variant vrs sel args = true
    /\ forall r, unmarshal (TSplit pre k mid vrs) (enc (TSplit pre k mid vrs) v ++ r) = (Ok v, r).
Proof. exact (c22_selector_consistent pre k mid vrs b v rest). Qed.
Print Assumptions C22_selector_consistent.

(** An undeclared selector is rejected once the fixed fields were parsed. *)
Theorem C22_undeclared pre k mid vrs a sel m rest :
  wf_ty (TSplit pre k mid vrs) = true -> in_range false k sel = true ->
  wf_tys pre a = true -> wf_tys mid m = true -> ~ In sel (selectors vrs) ->
  unmarshal (TSplit pre k mid vrs) (enc_tys pre a ++ be_bytes k sel ++ enc_tys mid m ++ rest)
  = (Err UnknownSelector, rest).
Proof. exact (c22_undeclared pre k mid vrs a sel m rest). Qed.
Print Assumptions C22_undeclared.

(** The members of the three unions. *)
Theorem C22_members :
  selectors attest_variants = [0x8017; 0x801A; 0x8018; 0x8015; 0x8016; 0x8019; 0x8014]
  /\ selectors public_variants = [0x08; 0x25; 0x01; 0x23]
  /\ selectors sensitive_variants = [0x01; 0x23; 0x08; 0x25; 0x10].
Proof. exact c22_members. Qed.
Print Assumptions C22_members.

Example C22_example :
  unmarshal TpmsAttest (enc TpmsAttest sample_attest) = (Ok sample_attest, [])
  /\ firstn 2 (skipn 4 (enc TpmsAttest sample_attest)) = [x80; x18]
  /\ ~ In st_AttestNVDigest (selectors attest_variants).
Proof. exact c22_example. Qed.


(** ** C53 *)
Theorem C53_capability_data v :
  wf TpmsCapabilityData v = true ->
  (N.of_nat (length (enc TpmsCapabilityData v)) <= TPM2_MAX_CAP_BUFFER)%N.
Proof. exact (c53_capability_data v). Qed.
Print Assumptions C53_capability_data.

(** The bound is reached. *)
Example C53_example :
  let v := VEnum 6 [VStruct [VInt 127; VArr (repeat (zero_of TpmsTaggedProperty) 127)]] in
  wf TpmsCapabilityData v = true /\ length (enc TpmsCapabilityData v) = N.to_nat 1024.
Proof. exact c53_example. Qed.
