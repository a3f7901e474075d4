(** Properties of the error codes (C23-C25). *)
From Coq Require Import ZArith List Lia Bool.
From Verif Require Import Prelude Marshal Errors.
Import ListNotations.
Open Scope Z_scope.

(** Every public constant of [TpmRcError], errors/tpm_rc/mod.rs:16-85. *)
Definition rc_named : list Z :=
  [rc_Asymmetric; rc_Value; rc_Size; rc_Selector; rc_BadTag; rc_Initialize; rc_Failure;
   rc_Sequence; rc_CommandSize; rc_CommandCode; rc_ContextGap; rc_ObjectMemory;
   rc_SessionMemory; rc_Memory].
(** The four constructors that take a subject and a position. *)
Definition rc_constructors : list (error_type -> error_position -> outcome unit Z) :=
  [AsymmetricFor; ValueFor; SizeFor; SelectorFor].

(** A [TpmRcError] a program can hold. *)
Inductive is_rc_error : Z -> Prop :=
| rc_const c : In c rc_named -> is_rc_error c
| rc_built f on p c : In f rc_constructors -> f on p = Ok c -> is_rc_error c.

(** ** C23 *)
Theorem c23_try_from v :
  (v <> 0 -> tss_try_from v = Ok v) /\ (v = 0 -> tss_try_from v = Err tt).
Proof.
  unfold tss_try_from, nonzero. split; intros H.
  - destruct (Z.eqb_spec v 0); [contradiction|reflexivity].
  - subst. reflexivity.
Qed.

(** TPM response codes are nonzero, fit twelve bits and convert unchanged. *)
Theorem c23_rc_codes c : is_rc_error c ->
  0 < c < 2 ^ 12 /\ tss_try_from (tss_of_rc c) = Ok c.
Proof.
  intros H. assert (Hr : 0 < c < 2 ^ 12).
  { destruct H as [c H|f on p c Hf H].
    - cbn in H. repeat (destruct H as [<-|H]; [vm_compute; auto|]). destruct H.
    - cbn in Hf. repeat (destruct Hf as [<-|Hf];
        [destruct on, p; vm_compute in H; injection H as <-; vm_compute; auto|]). destruct Hf. }
  split; [assumption|]. apply c23_try_from. unfold tss_of_rc. lia.
Qed.

(** The constructors never panic. *)
Theorem c23_constructors_total f on p : In f rc_constructors -> exists c, f on p = Ok c.
Proof.
  intros Hf. cbn in Hf.
  repeat (destruct Hf as [<-|Hf]; [destruct on, p; eexists; reflexivity|]). destruct Hf.
Qed.

(** A layer error is the layer in bits 12 and up and the common code below;
    it converts to a TssError with the same code. *)
Theorem c23_layer_error l c :
  exists v, layer_error l c = Ok v
    /\ v / 2 ^ 12 = layer_value l /\ v mod 2 ^ 12 = tss_code_value c
    /\ tss_try_from (tss_of_layer v) = Ok v.
Proof.
  exists (layer_value l * 2 ^ 12 + tss_code_value c). destruct l, c; repeat split.
Qed.

(** The common codes are those of the TCG Software Stack (TSS 1.2, 2.8 and
    tss_error_basics.h: TSS_E_FAIL, TSS_E_BAD_PARAMETER and so on). *)
Theorem c23_common_codes :
  map (layer_error Tcs) [GeneralFailure; BadParameter; InternalError; OutOfMemory; NotImplemented; KeyAlredyRegistered;
                         TpmUnexpected; CommFailure; Timeout; Unsupported; Canceled]
  = map Ok [0x2002; 0x2003; 0x2004; 0x2005; 0x2006; 0x2008; 0x2010; 0x2011; 0x2012; 0x2014; 0x2016].
Proof. reflexivity. Qed.

(** Layer errors are pairwise different, and different from every TPM_RC. *)
Theorem c23_layer_injective l1 c1 l2 c2 :
  layer_error l1 c1 = layer_error l2 c2 -> l1 = l2 /\ c1 = c2.
Proof.
  intros E. destruct (c23_layer_error l1 c1) as (v & E1 & H1 & M1 & _).
  destruct (c23_layer_error l2 c2) as (w & E2 & H2 & M2 & _).
  rewrite E1, E2 in E. injection E as <-. rewrite H1 in H2. rewrite M1 in M2. split.
  - destruct l1, l2; try reflexivity; vm_compute in H2; discriminate.
  - destruct c1, c2; try reflexivity; vm_compute in M2; discriminate.
Qed.

Theorem c23_layer_not_rc l c v : is_rc_error v -> layer_error l c <> Ok v.
Proof.
  intros Hv E. apply c23_rc_codes in Hv. destruct Hv as [Hv _].
  destruct (c23_layer_error l c) as (w & E1 & H1 & _). rewrite E in E1. injection E1 as <-.
  rewrite Z.div_small in H1 by lia. destruct l; discriminate.
Qed.

Example c23_example :
  layer_error Tcs OutOfMemory = Ok 0x2005 /\ layer_error Tcs OutOfMemory = Ok (tcs_code OutOfMemory)
  /\ SizeFor OnParameter Pos2 = Ok 0x2D5
  /\ is_rc_error 0x2D5.
Proof.
  repeat split. apply rc_built with SizeFor OnParameter Pos2; [cbn; auto|reflexivity].
Qed.

(** ** C24 *)
(** How the code distinguishes subjects, TPM 2.0 Part 1, "Response Code
    Formats": bit 6 set: parameter, position in bits 11..8; else bit 11 set:
    session, position in bits 10..8; else handle, position in bits 10..8. *)
Definition spec_subject (c : Z) : error_type :=
  if Z.testbit c 6 then OnParameter else if Z.testbit c 11 then OnSession else OnHandle.
Definition spec_position (c : Z) : Z :=
  if Z.testbit c 6 then Z.land (Z.shiftr c 8) 0xF else Z.land (Z.shiftr c 8) 0x7.

(** An error is built as Part 1 and Part 2 have it: format one, with the number
    of the error, the subject and the position.  Positions above seven there are
    only for parameters. *)
Theorem c24_encoded f e on p :
  In (f, e) [(AsymmetricFor, 0x081); (ValueFor, 0x084); (SizeFor, 0x095); (SelectorFor, 0x098)] ->
  exists c, f on p = Ok c /\ 0 <= c < 2 ^ 12 /\ Z.land c 0x0BF = e
    /\ (on = OnParameter \/ pos_val p < 8 -> spec_subject c = on /\ spec_position c = pos_val p).
Proof.
  intros H. cbn [In] in H.
  repeat (destruct H as [H|H];
    [injection H as <- <-; destruct on, p; eexists; (split; [vm_compute; reflexivity|]);
     (split; [vm_compute; intuition congruence|]); (split; [reflexivity|]); intros [?|?];
     first [discriminate | exfalso; vm_compute in *; discriminate | split; reflexivity]|]).
  destruct H.
Qed.

(** Parameters are decoded as they were encoded. *)
Theorem c24_parameter_partial f p c : In f rc_constructors -> f OnParameter p = Ok c ->
  format1_parameter c = Some (OnParameter, p)
  /\ spec_subject c = OnParameter /\ spec_position c = pos_val p.
Proof.
  intros Hf E. cbn in Hf.
  repeat (destruct Hf as [<-|Hf];
    [destruct p; vm_compute in E; injection E as <-; repeat split|]). destruct Hf.
Qed.

(** Errors about handles are always decoded as errors about a session ... *)
Theorem c24_handle_misread f p c : In f rc_constructors -> f OnHandle p = Ok c ->
  format1_parameter c = Some (OnSession, p).
Proof.
  intros Hf E. cbn in Hf.
  repeat (destruct Hf as [<-|Hf];
    [destruct p; vm_compute in E; injection E as <-; reflexivity|]). destruct Hf.
Qed.

(** ... and the position of an error about one of the sessions 1 to 7 is
    decoded with eight added. *)
Theorem c24_session_misread f p c : In f rc_constructors -> pos_val p < 8 -> f OnSession p = Ok c ->
  spec_subject c = OnSession /\ spec_position c = pos_val p
  /\ exists q, format1_parameter c = Some (OnSession, q) /\ pos_val q = pos_val p + 8.
Proof.
  intros Hf Hp E.
  assert (E' : exists q, pos_val q = pos_val p + 8
      /\ forall g, In g rc_constructors -> forall c, g OnSession p = Ok c ->
         spec_subject c = OnSession /\ spec_position c = pos_val p
         /\ format1_parameter c = Some (OnSession, q)).
  { destruct p; cbn in Hp; try lia;
      [exists Pos9|exists PosA|exists PosB|exists PosC|exists PosD|exists PosE|exists PosF];
      (split; [reflexivity|]); intros g Hg c' Ec; cbn in Hg;
      repeat (destruct Hg as [<-|Hg]; [vm_compute in Ec; injection Ec as <-; repeat split|]);
      destruct Hg. }
  destruct E' as (q & Hq & H). destruct (H f Hf c E) as (A & B & C). eauto.
Qed.

(** So decoding does not invert encoding, for any of the four error kinds. *)
Theorem c24_decode_refuted f : In f rc_constructors ->
  exists on p c, f on p = Ok c /\ format1_parameter c <> Some (on, p).
Proof.
  intros Hf. destruct (c23_constructors_total f OnHandle Pos1 Hf) as [c E].
  exists OnHandle, Pos1, c. split; [assumption|].
  rewrite (c24_handle_misread f Pos1 c Hf E). discriminate.
Qed.

(** The position of a session above seven is decoded as it was given. *)
Theorem c24_session_high f p c : In f rc_constructors -> 8 <= pos_val p -> f OnSession p = Ok c ->
  format1_parameter c = Some (OnSession, p).
Proof.
  intros Hf Hp E. cbn in Hf.
  repeat (destruct Hf as [<-|Hf];
    [destruct p; cbn in Hp; try lia; vm_compute in E; injection E as <-; reflexivity|]). destruct Hf.
Qed.

Lemma land_bit c k : 0 <= k -> Z.land c (2 ^ k) = if Z.testbit c k then 2 ^ k else 0.
Proof.
  intros Hk. apply Z.bits_inj'. intros i Hi. rewrite Z.land_spec.
  destruct (Z.eq_dec i k) as [->|Hn].
  - rewrite Z.pow2_bits_true by lia. destruct (Z.testbit c k); [rewrite Z.pow2_bits_true by lia|]; cbn; now rewrite ?Z.testbit_0_l.
  - rewrite Z.pow2_bits_false by lia. rewrite andb_false_r.
    destruct (Z.testbit c k); [now rewrite Z.pow2_bits_false by lia|now rewrite Z.testbit_0_l].
Qed.

Lemma land_field c : Z.land c 0xF00 = Z.shiftl (Z.land (Z.shiftr c 8) 0xF) 8.
Proof.
  rewrite Z.shiftl_land. change (Z.shiftl 0xF 8) with 0xF00. apply Z.bits_inj'. intros i Hi.
  rewrite !Z.land_spec, Z.shiftl_spec by lia. destruct (Z.ltb_spec i 8).
  - replace (Z.testbit 0xF00 i) with false; [now rewrite !andb_false_r|].
    change 0xF00 with (Z.shiftl 15 8). rewrite Z.shiftl_spec by lia. symmetry. apply Z.testbit_neg_r. lia.
  - rewrite Z.shiftr_spec by lia. now replace (i - 8 + 8) with i by lia.
Qed.

(** What is made of each code there is: a code is decoded exactly if it is
    format one (bit 7) and bits 8 to 11 are not all clear; these four bits are
    the position, whatever the subject, and the subject is a parameter if bit
    6 is set and a session otherwise. *)
Theorem c24_all_codes c on p :
  format1_parameter c = Some (on, p)
  <-> Z.testbit c 7 = true /\ Z.land (Z.shiftr c 8) 0xF = pos_val p
      /\ on = (if Z.testbit c 6 then OnParameter else OnSession).
Proof.
  unfold format1_parameter, type_from_mask, pos_from_mask, PARAMETER_MASK, SESSION_MASK.
  rewrite land_field. change 0x80 with (2 ^ 7). change 0x40 with (2 ^ 6). rewrite !land_bit by lia.
  assert (R : 0 <= Z.land (Z.shiftr c 8) 0xF < 16).
  { change 0xF with (Z.ones 4). rewrite Z.land_ones by lia. change (2 ^ 4) with 16. apply Z.mod_pos_bound. lia. }
  set (f := Z.land (Z.shiftr c 8) 0xF) in *. clearbody f.
  assert (F : f = 0 \/ f = 1 \/ f = 2 \/ f = 3 \/ f = 4 \/ f = 5 \/ f = 6 \/ f = 7 \/ f = 8 \/ f = 9 \/ f = 10
              \/ f = 11 \/ f = 12 \/ f = 13 \/ f = 14 \/ f = 15) by lia.
  destruct (Z.testbit c 7); [|split; [discriminate|intros (H & _); discriminate]].
  change (2 ^ 7 =? 0) with false. cbn beta iota.
  destruct (Z.testbit c 6);
    [change (2 ^ 6 =? 0) with false|change (0 =? 0) with true]; cbn [negb];
    repeat (destruct F as [->|F]; [vm_compute; destruct p, on; intuition discriminate|]);
    subst f; vm_compute; destruct p, on; intuition discriminate.
Qed.

(** So a decoded code is read as Part 1 reads it exactly if it is about a
    parameter. *)
Theorem c24_right_iff_parameter c on p : 0 <= c < 2 ^ 32 ->
  format1_parameter c = Some (on, p) ->
  (on = spec_subject c /\ pos_val p = spec_position c <-> spec_subject c = OnParameter).
Proof.
  intros Hc E. apply c24_all_codes in E as (_ & Ep & ->). unfold spec_subject, spec_position.
  destruct (Z.testbit c 6); [split; auto|]. destruct (Z.testbit c 11) eqn:B.
  - split; [|discriminate]. intros (_ & H). exfalso.
    assert (T : Z.testbit (Z.land (Z.shiftr c 8) 0xF) 3 = Z.testbit (Z.land (Z.shiftr c 8) 0x7) 3) by congruence.
    rewrite !Z.land_spec, Z.shiftr_spec in T by lia. change (3 + 8) with 11 in T. rewrite B in T. discriminate T.
  - split; [intros (H & _); discriminate H|discriminate].
Qed.

(** No format-zero code is decoded as format one. *)
Theorem c24_format_zero c : Z.testbit c 7 = false -> format1_parameter c = None.
Proof.
  intros H. destruct (format1_parameter c) as [[on p]|] eqn:E; [|reflexivity].
  apply c24_all_codes in E as (E & _). congruence.
Qed.

Example c24_example :
  ValueFor OnParameter PosF = Ok 0xFC4 /\ format1_parameter 0xFC4 = Some (OnParameter, PosF)
  /\ ValueFor OnSession Pos1 = Ok 0x984 /\ format1_parameter 0x984 = Some (OnSession, Pos9)
  /\ ValueFor OnHandle Pos1 = Ok 0x184 /\ format1_parameter 0x184 = Some (OnSession, Pos1)
  /\ In ValueFor rc_constructors.
Proof. repeat split. cbn. auto. Qed.

(** ** C25 *)
(** Warnings are exactly the codes with bits 8 and 11 set and bit 7 clear. *)
Theorem c25_is_warning c :
  is_warning c = (Z.testbit c 11 && Z.testbit c 8 && negb (Z.testbit c 7)).
Proof.
  unfold is_warning.
  assert (E : Z.land c 0x980 = (if Z.testbit c 11 then 2 ^ 11 else 0)
                + (if Z.testbit c 8 then 2 ^ 8 else 0) + (if Z.testbit c 7 then 2 ^ 7 else 0)).
  { transitivity (Z.lor (Z.lor (if Z.testbit c 11 then 2 ^ 11 else 0)
                (if Z.testbit c 8 then 2 ^ 8 else 0)) (if Z.testbit c 7 then 2 ^ 7 else 0)).
    - apply Z.bits_inj'. intros i Hi. rewrite !Z.lor_spec, Z.land_spec.
      assert (P : forall (b : bool) k, 0 <= k -> Z.testbit (if b then 2 ^ k else 0) i = (b && (i =? k))).
      { intros b k Hk. destruct b; [|apply Z.testbit_0_l].
        destruct (Z.eqb_spec i k) as [->|Hn]; [apply Z.pow2_bits_true; lia|].
        apply Z.pow2_bits_false. lia. }
      rewrite !P by lia. replace 0x980 with (Z.lor (Z.lor (2 ^ 11) (2 ^ 8)) (2 ^ 7)) by reflexivity.
      rewrite !Z.lor_spec.
      pose proof (P true 11 ltac:(lia)) as P11. pose proof (P true 8 ltac:(lia)) as P8.
      pose proof (P true 7 ltac:(lia)) as P7. cbn [andb] in *. rewrite P11, P8, P7.
      destruct (Z.eqb_spec i 11) as [->|]; [cbn; rewrite ?andb_false_r, ?andb_true_r, ?orb_false_r; reflexivity|].
      destruct (Z.eqb_spec i 8) as [->|]; [cbn; rewrite ?andb_false_r, ?andb_true_r, ?orb_false_r; reflexivity|].
      destruct (Z.eqb_spec i 7) as [->|]; [cbn; rewrite ?andb_false_r, ?andb_true_r, ?orb_false_r; reflexivity|].
      rewrite !andb_false_r. reflexivity.
    - destruct (Z.testbit c 11), (Z.testbit c 8), (Z.testbit c 7); reflexivity. }
  rewrite E. destruct (Z.testbit c 11), (Z.testbit c 8), (Z.testbit c 7); reflexivity.
Qed.

(** No format-one error is a warning, and the named warnings are the memory
    and context ones. *)
Theorem c25_not_format_one f on p c :
  In f rc_constructors -> f on p = Ok c -> is_warning c = false.
Proof.
  intros Hf E. cbn in Hf.
  repeat (destruct Hf as [<-|Hf];
    [destruct on, p; vm_compute in E; injection E as <-; reflexivity|]). destruct Hf.
Qed.

Theorem c25_named c : In c rc_named ->
  (is_warning c = true <-> In c [rc_ContextGap; rc_ObjectMemory; rc_SessionMemory; rc_Memory]).
Proof.
  intros H. cbn in H.
  repeat (destruct H as [<-|H]; [vm_compute; intuition discriminate|]). destruct H.
Qed.

Example c25_example : is_warning rc_Memory = true /\ is_warning rc_Value = false /\ is_warning 0x984 = false.
Proof. repeat split. Qed.
