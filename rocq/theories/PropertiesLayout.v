(** Layout of the structures against TPM 2.0 Part 2 (C54). *)
(* Restates the theorems of LayoutFacts.v; proofs are there. *)
From Coq Require Import String ZArith NArith List Lia Bool.
From Coq Require Import Init.Byte.
From Verif Require Import Prelude Types Marshal WireSpec MarshalProofs MarshalWrite Layout Catalogue Samples MarshalFacts Part2 Handwritten LayoutProofs.
From Verif Require Import LayoutFacts.
Import ListNotations.
Local Open Scope string_scope.
Local Open Scope list_scope.
Open Scope Z_scope.

(** ** C54 *)
(** Marshalling writes the specified bytes and nothing else, and reports their number. *)
Theorem C54_layout t f v buf :
  In (t, f) part2 -> wf t v = true -> (length (f (view t v)) <= length buf)%nat ->
  marshal t v buf = (f (view t v) ++ skipn (length (f (view t v))) buf, Ok (length (f (view t v)))).
Proof. exact (c54_layout t f v buf). Qed.
Print Assumptions C54_layout.

(** Unmarshalling the specified bytes gives the value. *)
Theorem C54_decoding t f v rest :
  In (t, f) part2 -> wf t v = true -> canonical t v ->
  unmarshal t (f (view t v) ++ rest) = (Ok v, rest).
Proof. exact (c54_decoding t f v rest). Qed.
Print Assumptions C54_decoding.

(** No type is left out. *)
Theorem C54_complete t :
  In t base_types -> In t (map fst part2) \/ t = TpmsAttest \/ t = TpmtPublic \/ t = TpmtSensitive.
Proof. exact (c54_complete t). Qed.
Print Assumptions C54_complete.

(** The hand-written implementations. *)
Theorem C54_attest x buf :
  attest_wf x -> (length (TPMS_ATTEST (attest_view x)) <= length buf)%nat ->
  attest_try_marshal x buf
  = (TPMS_ATTEST (attest_view x) ++ skipn (length (TPMS_ATTEST (attest_view x))) buf,
     Ok (length (TPMS_ATTEST (attest_view x)))).
Proof. exact (c54_attest x buf). Qed.
Print Assumptions C54_attest.

Theorem C54_public x buf :
  public_wf x -> (length (TPMT_PUBLIC (public_view x)) <= length buf)%nat ->
  public_try_marshal x buf
  = (TPMT_PUBLIC (public_view x) ++ skipn (length (TPMT_PUBLIC (public_view x))) buf,
     Ok (length (TPMT_PUBLIC (public_view x)))).
Proof. exact (c54_public x buf). Qed.
Print Assumptions C54_public.

Theorem C54_sensitive x buf :
  sensitive_wf x -> (length (TPMT_SENSITIVE (sensitive_view x)) <= length buf)%nat ->
  sensitive_try_marshal x buf
  = (TPMT_SENSITIVE (sensitive_view x) ++ skipn (length (TPMT_SENSITIVE (sensitive_view x))) buf,
     Ok (length (TPMT_SENSITIVE (sensitive_view x)))).
Proof. exact (c54_sensitive x buf). Qed.
Print Assumptions C54_sensitive.

(** What they decode is encoded, by the specification, as the bytes consumed. *)
Theorem C54_attest_decoding b x rest :
  attest_try_unmarshal b = (Ok x, rest) -> attest_wf x /\ b = TPMS_ATTEST (attest_view x) ++ rest.
Proof. exact (c54_attest_decoding b x rest). Qed.
Print Assumptions C54_attest_decoding.

Theorem C54_public_decoding b x rest :
  public_try_unmarshal b = (Ok x, rest) -> public_wf x /\ b = TPMT_PUBLIC (public_view x) ++ rest.
Proof. exact (c54_public_decoding b x rest). Qed.
Print Assumptions C54_public_decoding.

Theorem C54_sensitive_decoding b x rest :
  sensitive_try_unmarshal b = (Ok x, rest) -> sensitive_wf x /\ b = TPMT_SENSITIVE (sensitive_view x) ++ rest.
Proof. exact (c54_sensitive_decoding b x rest). Qed.
Print Assumptions C54_sensitive_decoding.

(** Capacities: a sized buffer takes its capacity and no byte more. *)
Theorem C54_capacity_partial t max l rest :
  In (t, max) sized_buffers -> Z.of_nat (length l) < 65536 ->
  if (N.of_nat (length l) <=? max)%N
  then exists v, unmarshal t (be_bytes 2 (Z.of_nat (length l)) ++ l ++ rest) = (Ok v, rest)
                 /\ view t v = Sized l
  else unmarshal t (be_bytes 2 (Z.of_nat (length l)) ++ l ++ rest) = (Err UnexpectedEndOfBuffer, rest).
Proof. exact (c54_capacity_partial t max l rest). Qed.
Print Assumptions C54_capacity_partial.

(** Bounds: a count up to the bound is followed by that many entries, whatever
    they are, and no count above it is taken. *)
Theorem C54_list_bounds t item max c :
  In (t, item, max) lists -> 0 <= c < 2 ^ 32 ->
  if c <=? max
  then forall entries rest, Z.of_nat (length entries) = c -> Forall (fun e => wf item e = true) entries ->
       exists padding,
         unmarshal t (be_bytes 4 c ++ flat_map (enc item) entries ++ rest)
         = (Ok (VStruct [VInt c; VArr (map (canon item) entries ++ padding)]), rest)
  else forall rest, unmarshal t (be_bytes 4 c ++ rest) = (Err ArrayLengthExceeded, rest).
Proof. exact (c54_list_bounds t item max c). Qed.
Print Assumptions C54_list_bounds.

(** Unions: every declared selector can be decoded, at its width; any other is refused. *)
Theorem C54_selectors_partial t k sels sel :
  In (t, k, sels) unions -> in_range false k sel = true ->
  (In sel sels -> exists body args, unmarshal t (be_bytes k sel ++ body) = (Ok (VEnum sel args), []))
  /\ (~ In sel sels -> forall rest, unmarshal t (be_bytes k sel ++ rest) = (Err UnknownSelector, rest)).
Proof. exact (c54_selectors_partial t k sels sel). Qed.
Print Assumptions C54_selectors_partial.

(** Part 2 gives TPM2B_DATA room for a TPMT_HA; the library's has two bytes less,
    so that a TPM2B_DATA holding a SHA-512 TPMT_HA is refused. *)
Theorem C54_data_capacity_refuted :
  exists v, wf TpmtHa v = true
    /\ fst (unmarshal Tpm2bData (be_bytes 2 (Z.of_nat (length (TPMT_HA (view TpmtHa v)))) ++ TPMT_HA (view TpmtHa v)))
       = Err UnexpectedEndOfBuffer
    /\ is_ok (fst (unmarshal Tpm2bName (be_bytes 2 (Z.of_nat (length (TPMT_HA (view TpmtHa v)))) ++ TPMT_HA (view TpmtHa v))))
       = true.
Proof. exact c54_data_capacity_refuted. Qed.
Print Assumptions C54_data_capacity_refuted.

(** Part 2 allows TPM_ALG_NULL, with no digest, in a TPMT_HA; the library refuses it,
    and with it a list of authorization policies that holds one. *)
Theorem C54_null_digest_refuted :
  exists policies,
    policies = be_bytes 4 0x9 ++ be_bytes 4 1 ++ be_bytes 4 0x40000001 ++ be_bytes 2 TPM_ALG_NULL
    /\ fst (unmarshal TpmsCapabilityData policies) = Err UnknownSelector.
Proof. exact c54_null_digest_refuted. Qed.
Print Assumptions C54_null_digest_refuted.

Example C54_example :
  In (TpmsClockInfo, TPMS_CLOCK_INFO) part2 /\ wf TpmsClockInfo clock_sample = true
  /\ TPMS_CLOCK_INFO (view TpmsClockInfo clock_sample)
     = [x01;x02;x03;x04;x05;x06;x07;x08; x00;x00;x00;x09; x00;x00;x00;x0a; x01].
Proof. exact c54_example. Qed.

Example C54_public_example :
  exists x, public_val x = sample_public /\ public_wf x
    /\ firstn 10 (TPMT_PUBLIC (public_view x)) = [x00;x23; x00;x0b; x00;x06;x04;x72; x00;x00].
Proof. exact c54_public_example. Qed.

Example C54_attest_example :
  exists x rest, attest_try_unmarshal (enc TpmsAttest sample_attest ++ [x77]) = (Ok x, rest) /\ rest = [x77].
Proof. exact c54_attest_example. Qed.
