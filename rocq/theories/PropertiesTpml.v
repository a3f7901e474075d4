(** Properties of the TPML lists (C16-C18).  ListSpec.v has the
    specification. *)
(* Restates the theorems of TpmlFacts.v; proofs are there. *)
From Coq Require Import String ZArith NArith List Lia Bool.
From Coq Require Import Init.Byte.
From Verif Require Import Prelude Types Marshal WireSpec MarshalProofs WriteSpec MarshalWrite
  Layout Catalogue Samples Errors ListSpec Tpml MarshalFacts.
From Verif Require Import TpmlFacts.
Import ListNotations.
Open Scope Z_scope.

(** ** C16 *)
(** Any history of calls on a new list shows exactly what a list of that
    capacity shows; in particular nothing panics. *)
Theorem C16_bounded_list cap dflt ops :
  Z.of_nat cap < 2 ^ 32 ->
  snd (tpml_run cap dflt (tpml_default cap dflt) ops) = snd (spec_run cap [] ops).
Proof. exact (c16_bounded_list cap dflt ops). Qed.
Print Assumptions C16_bounded_list.

Theorem C16_no_panic cap dflt ops :
  Z.of_nat cap < 2 ^ 32 ->
  ~ In ObsPanic (snd (tpml_run cap dflt (tpml_default cap dflt) ops)).
Proof. exact (c16_no_panic cap dflt ops). Qed.
Print Assumptions C16_no_panic.

(** All capacities in use are small enough. *)
Theorem C16_capacities name cap t : In (name, cap, t) tpml_types ->
  Z.of_nat (N.to_nat cap) < 2 ^ 32 /\ In (tpml name cap t) base_types
  /\ wf_ty (tpml name cap t) = true /\ wf t (zero_of t) = true.
Proof. exact (c16_capacities name cap t). Qed.
Print Assumptions C16_capacities.

Example C16_example :
  snd (tpml_run 2 (VInt 0) (tpml_default 2 (VInt 0))
        [OpAdd (VInt 7); OpAdd (VInt 8); OpAdd (VInt 9); OpElements; OpCount;
         OpNew [VInt 1; VInt 2; VInt 3]; OpNew [VInt 5]; OpElements])
  = [ObsDone; ObsDone; ObsErr 0x95; ObsElements [VInt 7; VInt 8]; ObsCount 2; ObsErr 0x95;
     ObsDone; ObsElements [VInt 5]].
Proof. exact c16_example. Qed.


(** ** C17 *)
(** After any history of calls with well-formed elements the list marshals,
    into any buffer that is large enough, as the 4-byte count and the elements
    the accessor shows; unmarshalling gives a list with the same elements
    (their observable parts). *)
Theorem C17_marshal name cap t ops :
  let T := tpml name cap t in
  wf_ty T = true -> wf t (zero_of t) = true -> (cap < 2 ^ 32)%N ->
  Forall (fun e => wf t e = true) (flat_map op_elements ops) ->
  let x := fst (tpml_run (N.to_nat cap) (zero_of t) (tpml_default (N.to_nat cap) (zero_of t)) ops) in
  exists l, tpml_elements (N.to_nat cap) x = Ok l
    /\ l = fst (spec_run (N.to_nat cap) [] ops)
    /\ let wire := be_bytes 4 (Z.of_nat (length l)) ++ flat_map (enc t) l in
       (forall buf, (length wire <= length buf)%nat ->
          marshal T (val_of_tpml x) buf = (overwrite wire buf, Ok (length wire)))
       /\ (forall rest, exists y, unmarshal T (wire ++ rest) = (Ok (val_of_tpml y), rest)
            /\ tpml_elements (N.to_nat cap) y = Ok (map (canon t) l)).
Proof. exact (c17_marshal name cap t ops). Qed.
Print Assumptions C17_marshal.

(** The same for the nine list types of the library. *)
Theorem C17_marshal_base name cap t ops :
  In (name, cap, t) tpml_types ->
  Forall (fun e => wf t e = true) (flat_map op_elements ops) ->
  let x := fst (tpml_run (N.to_nat cap) (zero_of t) (tpml_default (N.to_nat cap) (zero_of t)) ops) in
  exists l, tpml_elements (N.to_nat cap) x = Ok l
    /\ l = fst (spec_run (N.to_nat cap) [] ops)
    /\ let wire := be_bytes 4 (Z.of_nat (length l)) ++ flat_map (enc t) l in
       (forall buf, (length wire <= length buf)%nat ->
          marshal (tpml name cap t) (val_of_tpml x) buf = (overwrite wire buf, Ok (length wire)))
       /\ (forall rest, exists y, unmarshal (tpml name cap t) (wire ++ rest) = (Ok (val_of_tpml y), rest)
            /\ tpml_elements (N.to_nat cap) y = Ok (map (canon t) l)).
Proof. exact (c17_marshal_base name cap t ops). Qed.
Print Assumptions C17_marshal_base.

Example C17_example :
  let x := fst (tpml_run 8 (zero_of Tpm2bDigest) (tpml_default 8 (zero_of Tpm2bDigest))
                 [OpAdd (v2b 64 [x01]); OpAdd (v2b 64 [x02; x03])]) in
  firstn 11 (fst (marshal TpmlDigest (val_of_tpml x) (repeat xee 20)))
  = [x00;x00;x00;x02; x00;x01;x01; x00;x02;x02;x03].
Proof. exact c17_example. Qed.


(** ** C18 *)
(** A count within the capacity never panics in a large enough buffer ... *)
Theorem C18_count_in_range_partial name cap t c l buf :
  0 <= c < 2 ^ 32 -> (Z.to_N c <= cap)%N -> N.of_nat (length l) = cap -> forallb (wf t) l = true ->
  (4 + length (flat_map (enc t) (firstn (Z.to_nat c) l)) <= length buf)%nat ->
  snd (marshal (tpml name cap t) (VStruct [VInt c; VArr l]) buf)
  = Ok (4 + length (flat_map (enc t) (firstn (Z.to_nat c) l)))%nat.
Proof. exact (c18_count_in_range_partial name cap t c l buf). Qed.
Print Assumptions C18_count_in_range_partial.

(** ... and a count above the capacity always does, for every list type: *)
Theorem C18_count_above_panics name cap t c l buf :
  0 <= c < 2 ^ 32 -> (cap < Z.to_N c)%N -> N.of_nat (length l) = cap -> forallb (wf t) l = true ->
  (4 + length (flat_map (enc t) l) <= length buf)%nat ->
  snd (marshal (tpml name cap t) (VStruct [VInt c; VArr l]) buf) = Panic.
Proof. exact (c18_count_above_panics name cap t c l buf). Qed.
Print Assumptions C18_count_above_panics.

(** the public [count] of TpmlTaggedTpmProperty and the public
    [sizeof_select] of TpmsPcrSelection can be set so. *)
Theorem C18_public_counts_refuted :
  (exists buf, snd (marshal TpmlTaggedTpmProperty
      (VStruct [VInt 128; VArr (repeat (zero_of TpmsTaggedProperty) 127)]) buf) = Panic)
  /\ (exists buf, snd (marshal TpmsPcrSelection
      (VStruct [vi 0xB; VInt 5; VArr [VInt 1; VInt 2; VInt 3; VInt 4]]) buf) = Panic).
Proof. exact c18_public_counts_refuted. Qed.
Print Assumptions C18_public_counts_refuted.

(** Values obtained by unmarshalling never have such counts, see C09. *)
Example C18_example :
  wf TpmsTaggedProperty (zero_of TpmsTaggedProperty) = true
  /\ snd (marshal TpmlTaggedTpmProperty
      (VStruct [VInt 127; VArr (repeat (zero_of TpmsTaggedProperty) 127)]) (repeat x00 2000))
     = Ok 1020%nat.
Proof. exact c18_example. Qed.
