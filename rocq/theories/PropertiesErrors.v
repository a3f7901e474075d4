(** Properties of the error codes (C23-C25). *)
(* Restates the theorems of ErrorsFacts.v; proofs are there. *)
From Coq Require Import ZArith List Lia Bool.
From Verif Require Import Prelude Marshal Errors.
From Verif Require Import ErrorsFacts.
Import ListNotations.
Open Scope Z_scope.

(** ** C23 *)
Theorem C23_try_from v :
  (v <> 0 -> tss_try_from v = Ok v) /\ (v = 0 -> tss_try_from v = Err tt).
Proof. exact (c23_try_from v). Qed.
Print Assumptions C23_try_from.

(** TPM response codes are nonzero, fit twelve bits and convert unchanged. *)
Theorem C23_rc_codes c : is_rc_error c ->
  0 < c < 2 ^ 12 /\ tss_try_from (tss_of_rc c) = Ok c.
Proof. exact (c23_rc_codes c). Qed.
Print Assumptions C23_rc_codes.

(** The constructors never panic. *)
Theorem C23_constructors_total f on p : In f rc_constructors -> exists c, f on p = Ok c.
Proof. exact (c23_constructors_total f on p). Qed.
Print Assumptions C23_constructors_total.

(** A layer error is the layer in bits 12 and up and the common code below;
    it converts to a TssError with the same code. *)
Theorem C23_layer_error l c :
  exists v, layer_error l c = Ok v
    /\ v / 2 ^ 12 = layer_value l /\ v mod 2 ^ 12 = tss_code_value c
    /\ tss_try_from (tss_of_layer v) = Ok v.
Proof. exact (c23_layer_error l c). Qed.
Print Assumptions C23_layer_error.

(** The common codes are those of the TCG Software Stack (TSS 1.2, 2.8 and
    tss_error_basics.h: TSS_E_FAIL, TSS_E_BAD_PARAMETER and so on). *)
Theorem C23_common_codes :
  map (layer_error Tcs) [GeneralFailure; BadParameter; InternalError; OutOfMemory; NotImplemented; KeyAlredyRegistered;
                         TpmUnexpected; CommFailure; Timeout; Unsupported; Canceled]
  = map Ok [0x2002; 0x2003; 0x2004; 0x2005; 0x2006; 0x2008; 0x2010; 0x2011; 0x2012; 0x2014; 0x2016].
Proof. exact c23_common_codes. Qed.
Print Assumptions C23_common_codes.

(** Layer errors are pairwise different, and different from every TPM_RC. *)
Theorem C23_layer_injective l1 c1 l2 c2 :
  layer_error l1 c1 = layer_error l2 c2 -> l1 = l2 /\ c1 = c2.
Proof. exact (c23_layer_injective l1 c1 l2 c2). Qed.
Print Assumptions C23_layer_injective.

Theorem C23_layer_not_rc l c v : is_rc_error v -> layer_error l c <> Ok v.
Proof. exact (c23_layer_not_rc l c v). Qed.
Print Assumptions C23_layer_not_rc.

Example C23_example :
  layer_error Tcs OutOfMemory = Ok 0x2005 /\ layer_error Tcs OutOfMemory = Ok (tcs_code OutOfMemory)
  /\ SizeFor OnParameter Pos2 = Ok 0x2D5
  /\ is_rc_error 0x2D5.
Proof. exact c23_example. Qed.


(** ** C24 *)
(** An error is built as Part 1 and Part 2 have it: format one, with the number
    of the error, the subject and the position.  Positions above seven there are
    only for parameters. *)
Theorem C24_encoded f e on p :
  In (f, e) [(AsymmetricFor, 0x081); (ValueFor, 0x084); (SizeFor, 0x095); (SelectorFor, 0x098)] ->
  exists c, f on p = Ok c /\ 0 <= c < 2 ^ 12 /\ Z.land c 0x0BF = e
    /\ (on = OnParameter \/ pos_val p < 8 -> spec_subject c = on /\ spec_position c = pos_val p).
Proof. exact (c24_encoded f e on p). Qed.
Print Assumptions C24_encoded.

(** Parameters are decoded as they were encoded. *)
Theorem C24_parameter_partial f p c : In f rc_constructors -> f OnParameter p = Ok c ->
  format1_parameter c = Some (OnParameter, p)
  /\ spec_subject c = OnParameter /\ spec_position c = pos_val p.
Proof. exact (c24_parameter_partial f p c). Qed.
Print Assumptions C24_parameter_partial.

(** Errors about handles are always decoded as errors about a session ... *)
Theorem C24_handle_misread f p c : In f rc_constructors -> f OnHandle p = Ok c ->
  format1_parameter c = Some (OnSession, p).
Proof. exact (c24_handle_misread f p c). Qed.
Print Assumptions C24_handle_misread.

(** ... and the position of an error about one of the sessions 1 to 7 is
    decoded with eight added. *)
Theorem C24_session_misread f p c : In f rc_constructors -> pos_val p < 8 -> f OnSession p = Ok c ->
  spec_subject c = OnSession /\ spec_position c = pos_val p
  /\ exists q, format1_parameter c = Some (OnSession, q) /\ pos_val q = pos_val p + 8.
Proof. exact (c24_session_misread f p c). Qed.
Print Assumptions C24_session_misread.

(** So decoding does not invert encoding, for any of the four error kinds. *)
Theorem C24_decode_refuted f : In f rc_constructors ->
  exists on p c, f on p = Ok c /\ format1_parameter c <> Some (on, p).
Proof. exact (c24_decode_refuted f). Qed.
Print Assumptions C24_decode_refuted.

(** The position of a session above seven is decoded as it was given. *)
Theorem C24_session_high f p c : In f rc_constructors -> 8 <= pos_val p -> f OnSession p = Ok c ->
  format1_parameter c = Some (OnSession, p).
Proof. exact (c24_session_high f p c). Qed.
Print Assumptions C24_session_high.

(** What is made of each code there is: a code is decoded exactly if it is
    format one (bit 7) and bits 8 to 11 are not all clear; these four bits are
    the position, whatever the subject, and the subject is a parameter if bit
    6 is set and a session otherwise. *)
Theorem C24_all_codes c on p :
  format1_parameter c = Some (on, p)
  <-> Z.testbit c 7 = true /\ Z.land (Z.shiftr c 8) 0xF = pos_val p
      /\ on = (if Z.testbit c 6 then OnParameter else OnSession).
Proof. exact (c24_all_codes c on p). Qed.
Print Assumptions C24_all_codes.

(** So a decoded code is read as Part 1 reads it exactly if it is about a
    parameter. *)
Theorem C24_right_iff_parameter c on p : 0 <= c < 2 ^ 32 ->
  format1_parameter c = Some (on, p) ->
  (on = spec_subject c /\ pos_val p = spec_position c <-> spec_subject c = OnParameter).
Proof. exact (c24_right_iff_parameter c on p). Qed.
Print Assumptions C24_right_iff_parameter.

(** No format-zero code is decoded as format one. *)
Theorem C24_format_zero c : Z.testbit c 7 = false -> format1_parameter c = None.
Proof. exact (c24_format_zero c). Qed.
Print Assumptions C24_format_zero.

Example C24_example :
  ValueFor OnParameter PosF = Ok 0xFC4 /\ format1_parameter 0xFC4 = Some (OnParameter, PosF)
  /\ ValueFor OnSession Pos1 = Ok 0x984 /\ format1_parameter 0x984 = Some (OnSession, Pos9)
  /\ ValueFor OnHandle Pos1 = Ok 0x184 /\ format1_parameter 0x184 = Some (OnSession, Pos1)
  /\ In ValueFor rc_constructors.
Proof. exact c24_example. Qed.


(** ** C25 *)
(** Warnings are exactly the codes with bits 8 and 11 set and bit 7 clear. *)
Theorem C25_is_warning c :
  is_warning c = (Z.testbit c 11 && Z.testbit c 8 && negb (Z.testbit c 7)).
Proof. exact (c25_is_warning c). Qed.
Print Assumptions C25_is_warning.

(** No format-one error is a warning, and the named warnings are the memory
    and context ones. *)
Theorem C25_not_format_one f on p c :
  In f rc_constructors -> f on p = Ok c -> is_warning c = false.
Proof. exact (c25_not_format_one f on p c). Qed.
Print Assumptions C25_not_format_one.

Theorem C25_named c : In c rc_named ->
  (is_warning c = true <-> In c [rc_ContextGap; rc_ObjectMemory; rc_SessionMemory; rc_Memory]).
Proof. exact (c25_named c). Qed.
Print Assumptions C25_named.

Example C25_example : is_warning rc_Memory = true /\ is_warning rc_Value = false /\ is_warning 0x984 = false.
Proof. exact c25_example. Qed.
