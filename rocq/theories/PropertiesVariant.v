(** The trait [MarshalableVariant] (marshalable/src/lib.rs:38-66) as derived for
    enums (C106): members without their selector.  The model is in Marshal.v, the
    format in WireSpec.v. *)
(* Restates the theorems of VariantFacts.v; proofs are there. *)
From Coq Require Import String ZArith NArith List Lia Bool.
From Coq Require Import Init.Byte.
From Verif Require Import Prelude Types Marshal WireSpec MarshalProofs WriteSpec MarshalWrite
  MarshalFacts Layout Catalogue Samples Errors VariantSpec.
From Verif Require Import VariantFacts.
Import ListNotations.
Open Scope Z_scope.

(** ** C106 *)
(** [try_marshal_variant] writes what [try_marshal] writes behind the selector:
    into every buffer with room for it, into no other, and nothing else. *)
Theorem C106_marshal k vrs sel args buf :
  wf (TEnum k vrs) (VEnum sel args) = true ->
  if (length (body k vrs sel args) <=? length buf)%nat
  then marshal_variant vrs sel args buf
       = (body k vrs sel args ++ skipn (length (body k vrs sel args)) buf,
          Ok (length (body k vrs sel args)))
  else is_ok (snd (marshal_variant vrs sel args buf)) = false.
Proof. exact (c106_marshal k vrs sel args buf). Qed.
Print Assumptions C106_marshal.

(** Selector and variant, marshalled one after the other by the caller, are the
    marshalled enum. *)
Theorem C106_apart k vrs sel args buf b1 n b2 m :
  marshal (TInt false k) (VInt sel) buf = (b1, Ok n) ->
  marshal_variant vrs sel args (skipn n b1) = (b2, Ok m) ->
  marshal (TEnum k vrs) (VEnum sel args) buf = (firstn n b1 ++ b2, Ok (n + m)%nat).
Proof. exact (c106_apart k vrs sel args buf b1 n b2 m). Qed.
Print Assumptions C106_apart.

(** [try_unmarshal_variant], told the selector, reads the value back and takes
    nothing behind it. *)
Theorem C106_round_trip k vrs sel args rest :
  wf_ty (TEnum k vrs) = true -> wf (TEnum k vrs) (VEnum sel args) = true ->
  canonical (TEnum k vrs) (VEnum sel args) ->
  unmarshal_variant vrs sel (body k vrs sel args ++ rest) = (Ok args, rest).
Proof. exact (c106_round_trip k vrs sel args rest). Qed.
Print Assumptions C106_round_trip.

(** Told a selector it does what [try_unmarshal] does after reading it. *)
Theorem C106_told k vrs sel b :
  in_range false k sel = true ->
  unmarshal (TEnum k vrs) (be_bytes k sel ++ b)
  = (omap (VEnum sel) (fst (unmarshal_variant vrs sel b)), snd (unmarshal_variant vrs sel b)).
Proof. exact (c106_told k vrs sel b). Qed.
Print Assumptions C106_told.

(** It never panics; a selector that is not declared is refused as such, before
    anything is read; what is accepted is the body of a valid value. *)
Theorem C106_total k vrs sel b :
  wf_ty (TEnum k vrs) = true -> in_range false k sel = true ->
  match unmarshal_variant vrs sel b with
  | (Ok args, rest) => In sel (selectors vrs) /\ wf (TEnum k vrs) (VEnum sel args) = true
      /\ canonical (TEnum k vrs) (VEnum sel args) /\ b = body k vrs sel args ++ rest
  | (Err e, rest) => (exists consumed, b = consumed ++ rest)
      /\ (~ In sel (selectors vrs) -> e = UnknownSelector /\ rest = b)
  | (Panic, _) => False
  end.
Proof. exact (c106_total k vrs sel b). Qed.
Print Assumptions C106_total.

Example C106_example :
  wf_ty TpmuAttest = true /\ wf TpmuAttest (VEnum 0x8018 sample_quote) = true
  /\ canonical TpmuAttest (VEnum 0x8018 sample_quote)
  /\ length (body 2 attest_variants 0x8018 sample_quote) = 44%nat
  /\ firstn 6 (body 2 attest_variants 0x8018 sample_quote) = [x00; x00; x00; x01; x00; x0b]
  /\ in_range false 2 0x8018 = true /\ ~ In 0x801C (selectors attest_variants)
  /\ in_range false 2 0x801C = true
  /\ unmarshal_variant attest_variants 0x801C [x00; x01] = (Err UnknownSelector, [x00; x01]).
Proof. exact c106_example. Qed.

Example C106_no_data_example :
  let vrs := mk_variants [(0x10, []); (0x14, [u16])] in
  wf (TEnum 2 vrs) (VEnum 0x10 []) = true /\ marshal_variant vrs 0x10 [] [] = ([], Ok 0%nat)
  /\ marshal_variant vrs 0x14 [VInt 0xB] [x00; x00; xff] = ([x00; x0b; xff], Ok 2%nat).
Proof. exact c106_no_data_example. Qed.

Example C106_apart_example :
  let vrs := mk_variants [(0x10, []); (0x14, [u16])] in
  marshal (TInt false 2) (VInt 0x14) (repeat xee 5) = ([x00; x14; xee; xee; xee], Ok 2%nat)
  /\ marshal_variant vrs 0x14 [VInt 0xB] [xee; xee; xee] = ([x00; x0b; xee], Ok 2%nat).
Proof. exact c106_apart_example. Qed.
