(** Properties of attribute bit fields and handle classification (C19-C21). *)
From Coq Require Import String ZArith NArith List Lia Bool.
From Coq Require Import Init.Byte.
From Verif Require Import Prelude Types Marshal WireSpec MarshalProofs Catalogue Errors Attrs Samples Constants.
Import ListNotations.
Open Scope Z_scope.

(** ** Bit lemmas for a field of [width] bits at [shift] *)
Definition field_mask (width shift : Z) : Z := Z.shiftl (Z.ones width) shift.

Lemma ones_testbit w i : 0 <= w -> Z.testbit (Z.ones w) i = (0 <=? i) && (i <? w).
Proof.
  intros Hw. destruct (Z.leb_spec 0 i); cbn [andb].
  - destruct (Z.ltb_spec i w).
    + apply Z.ones_spec_low. lia.
    + apply Z.ones_spec_high. lia.
  - apply Z.testbit_neg_r. lia.
Qed.

Lemma mask_testbit w s i : 0 <= w -> 0 <= s -> 0 <= i ->
  Z.testbit (field_mask w s) i = (s <=? i) && (i <? s + w).
Proof.
  intros Hw Hs Hi. unfold field_mask. rewrite Z.shiftl_spec by lia.
  rewrite ones_testbit by lia.
  destruct (Z.leb_spec 0 (i - s)), (Z.ltb_spec (i - s) w), (Z.leb_spec s i), (Z.ltb_spec i (s + w));
    cbn; try reflexivity; lia.
Qed.

Lemma u32_high v i : 0 <= v < 2 ^ 32 -> 32 <= i -> Z.testbit v i = false.
Proof.
  intros Hv Hi. destruct (Z.eq_dec v 0) as [->|Hz]; [apply Z.testbit_0_l|].
  apply Z.bits_above_log2; [lia|]. apply Z.log2_lt_pow2; [lia|].
  apply Z.lt_le_trans with (2 ^ 32); [lia|]. apply Z.pow_le_mono_r; lia.
Qed.

Lemma set_testbit w f wd s i : 0 <= w < 2 ^ 32 -> 0 < wd -> 0 <= s -> s + wd <= 32 -> 0 <= i ->
  Z.testbit (set_attribute_field w f (field_mask wd s) s) i
  = if (s <=? i) && (i <? s + wd) then Z.testbit f (i - s) else Z.testbit w i.
Proof.
  intros Hw Hwd Hs Hle Hi. unfold set_attribute_field, new_attribute_field, shl32, not32.
  rewrite Z.lor_spec, !Z.land_spec, Z.lxor_spec, Z.shiftl_spec by lia.
  rewrite mask_testbit, ones_testbit by lia.
  destruct (Z.leb_spec s i), (Z.ltb_spec i (s + wd)), (Z.ltb_spec i 32), (Z.leb_spec 0 i);
    cbn; rewrite ?andb_true_r, ?andb_false_r, ?orb_false_r, ?orb_true_r; try reflexivity; try lia.
  all: try (symmetry; apply u32_high; lia); apply u32_high; lia.
Qed.

Lemma get_testbit w wd s i : 0 < wd -> 0 <= s -> 0 <= i ->
  Z.testbit (get_attribute_field w (field_mask wd s) s) i = (i <? wd) && Z.testbit w (s + i).
Proof.
  intros Hwd Hs Hi. unfold get_attribute_field.
  rewrite Z.shiftr_spec, Z.land_spec, mask_testbit by lia.
  replace (i + s) with (s + i) by lia.
  destruct (Z.leb_spec s (s + i)), (Z.ltb_spec (s + i) (s + wd)), (Z.ltb_spec i wd); cbn;
    rewrite ?andb_true_r, ?andb_false_r; try reflexivity; lia.
Qed.

Lemma set_range w f wd s : 0 <= w < 2 ^ 32 -> 0 <= f -> 0 < wd -> 0 <= s -> s + wd <= 32 ->
  0 <= set_attribute_field w f (field_mask wd s) s < 2 ^ 32.
Proof.
  intros Hw Hf Hwd Hs Hle. set (x := set_attribute_field _ _ _ _).
  assert (Hx : x mod 2 ^ 32 = x).
  { apply Z.bits_inj'. intros i Hi. destruct (Z.ltb_spec i 32).
    - rewrite Z.mod_pow2_bits_low by lia. reflexivity.
    - rewrite Z.mod_pow2_bits_high by lia. unfold x. rewrite set_testbit by lia.
      destruct (Z.leb_spec s i), (Z.ltb_spec i (s + wd)); cbn; try lia;
        symmetry; apply u32_high; lia. }
  rewrite <- Hx. apply Z.mod_pos_bound. lia.
Qed.

Lemma get_set w f wd s : 0 <= w < 2 ^ 32 -> 0 < wd -> 0 <= s -> s + wd <= 32 ->
  get_attribute_field (set_attribute_field w f (field_mask wd s) s) (field_mask wd s) s
  = f mod 2 ^ wd.
Proof.
  intros Hw Hwd Hs Hle. apply Z.bits_inj'. intros i Hi.
  rewrite get_testbit by lia. destruct (Z.ltb_spec i wd).
  - rewrite Z.mod_pow2_bits_low, set_testbit by lia. cbn [andb].
    destruct (Z.leb_spec s (s + i)), (Z.ltb_spec (s + i) (s + wd)); cbn; try lia.
    f_equal. lia.
  - rewrite Z.mod_pow2_bits_high by lia. reflexivity.
Qed.

Lemma set_set w f g wd s : 0 <= w < 2 ^ 32 -> 0 <= f -> 0 < wd -> 0 <= s -> s + wd <= 32 ->
  set_attribute_field (set_attribute_field w f (field_mask wd s) s) g (field_mask wd s) s
  = set_attribute_field w g (field_mask wd s) s.
Proof.
  intros. apply Z.bits_inj'. intros i Hi.
  rewrite !set_testbit by (try apply set_range; lia).
  destruct ((s <=? i) && (i <? s + wd)); reflexivity.
Qed.

(** ** C19 *)
(** What it means for [get]/[set] to be a bit field of [width] bits at bit
    position [shift] of a 32-bit word: reading back gives the value truncated
    to the width, no other bit changes, the last write wins, and the result is
    again a 32-bit word. *)
Definition is_bit_field (width shift : Z) (get : Z -> Z) (set : Z -> Z -> Z) : Prop :=
  forall w f, 0 <= w < 2 ^ 32 -> 0 <= f ->
    0 <= set w f < 2 ^ 32
    /\ get (set w f) = f mod 2 ^ width
    /\ (forall i, 0 <= i -> ~ (shift <= i < shift + width) ->
        Z.testbit (set w f) i = Z.testbit w i)
    /\ (forall g, 0 <= g -> set (set w f) g = set w g)
    /\ set w (get w) = w.

Lemma set_get w wd s : 0 <= w < 2 ^ 32 -> 0 < wd -> 0 <= s -> s + wd <= 32 ->
  set_attribute_field w (get_attribute_field w (field_mask wd s) s) (field_mask wd s) s = w.
Proof.
  intros. apply Z.bits_inj'. intros i Hi. rewrite set_testbit by lia.
  destruct (Z.leb_spec s i), (Z.ltb_spec i (s + wd)); cbn; try reflexivity.
  rewrite get_testbit by lia. destruct (Z.ltb_spec (i - s) wd); [|lia]. cbn. f_equal. lia.
Qed.

Lemma get_range w wd s : 0 < wd -> 0 <= s -> 0 <= get_attribute_field w (field_mask wd s) s < 2 ^ wd.
Proof.
  intros. assert (E : get_attribute_field w (field_mask wd s) s mod 2 ^ wd
                      = get_attribute_field w (field_mask wd s) s).
  { apply Z.bits_inj'. intros i Hi. destruct (Z.ltb_spec i wd).
    - rewrite Z.mod_pow2_bits_low by lia. reflexivity.
    - rewrite Z.mod_pow2_bits_high, get_testbit by lia.
      destruct (Z.ltb_spec i wd); [lia|reflexivity]. }
  rewrite <- E. apply Z.mod_pos_bound. apply Z.pow_pos_nonneg; lia.
Qed.

Lemma bit_field_generic wd s : 0 < wd -> 0 <= s -> s + wd <= 32 ->
  is_bit_field wd s (fun w => get_attribute_field w (field_mask wd s) s)
                    (fun w f => set_attribute_field w f (field_mask wd s) s).
Proof.
  intros Hwd Hs Hle w f Hw Hf. split; [apply set_range; assumption|].
  split; [apply get_set; assumption|]. split; [|split].
  - intros i Hi Hn. rewrite set_testbit by assumption.
    destruct (Z.leb_spec s i), (Z.ltb_spec i (s + wd)); cbn; try reflexivity. lia.
  - intros g Hg. apply set_set; assumption.
  - apply set_get; assumption.
Qed.

Lemma bit_field_ext wd s g1 s1 g2 s2 :
  (forall w, 0 <= w < 2 ^ 32 -> g1 w = g2 w) -> (forall w f, s1 w f = s2 w f) ->
  is_bit_field wd s g1 s1 -> is_bit_field wd s g2 s2.
Proof.
  intros Hg Hs H w f Hw Hf. destruct (H w f Hw Hf) as (A & B & C & D & E).
  rewrite <- Hs. split; [assumption|]. split; [rewrite <- Hg by assumption; assumption|].
  split; [assumption|]. split.
  - intros g Hg'. rewrite <- !Hs. apply D. assumption.
  - rewrite <- Hg, <- Hs by assumption. assumption.
Qed.

Theorem c19_nv_index_type : is_bit_field 4 4 nv_get_index_type nv_set_type.
Proof.
  eapply bit_field_ext; [| |apply (bit_field_generic 4 4); lia].
  - intros w Hw. cbn beta. unfold nv_get_index_type. change NT_MASK with (field_mask 4 4).
    change NT_SHIFT with 4. pose proof (get_range w 4 4). rewrite (Z.mod_small _ 256) by lia. reflexivity.
  - reflexivity.
Qed.

Theorem c19_cc_command_index : is_bit_field 16 0 cc_get_command_index cc_set_command_index.
Proof.
  eapply bit_field_ext; [| |apply (bit_field_generic 16 0); lia].
  - intros w Hw. cbn beta. unfold cc_get_command_index.
    change COMMAND_INDEX_MASK with (field_mask 16 0). change COMMAND_INDEX_SHIFT with 0.
    pose proof (get_range w 16 0). rewrite (Z.mod_small _ 65536) by lia. reflexivity.
  - reflexivity.
Qed.

Theorem c19_cc_handles : is_bit_field 3 25 cc_get_c_handles cc_set_c_handles.
Proof.
  eapply bit_field_ext; [| |apply (bit_field_generic 3 25); lia]; reflexivity.
Qed.

(** The constructors are [set] on an all-zero word. *)
Theorem c19_constructors f : 0 <= f ->
  nv_from_index_type f = nv_set_type 0 f
  /\ cc_command_index f = cc_set_command_index 0 f
  /\ cc_c_handles f = cc_set_c_handles 0 f.
Proof.
  intros Hf. unfold nv_from_index_type, nv_set_type, cc_command_index, cc_set_command_index,
    cc_c_handles, cc_set_c_handles, set_attribute_field. rewrite !Z.land_0_l, !Z.lor_0_l. auto.
Qed.

(** Named flags lie outside the fields, and the two fields of [TpmaCc] are
    disjoint, so setting one never changes the other or a flag. *)
Theorem c19_disjoint w f b : 0 <= w < 2 ^ 32 -> 0 <= f ->
  (In b (map snd TpmaNv_flags) -> Z.testbit (nv_set_type w f) b = Z.testbit w b)
  /\ (In b (map snd TpmaCc_flags) -> Z.testbit (cc_set_command_index w f) b = Z.testbit w b)
  /\ (In b (map snd TpmaCc_flags) -> Z.testbit (cc_set_c_handles w f) b = Z.testbit w b)
  /\ cc_get_c_handles (cc_set_command_index w f) = cc_get_c_handles w
  /\ cc_get_command_index (cc_set_c_handles w f) = cc_get_command_index w.
Proof.
  intros Hw Hf. repeat split.
  - intros Hb. apply c19_nv_index_type; try assumption; cbn in Hb; lia.
  - intros Hb. apply c19_cc_command_index; try assumption; cbn in Hb; lia.
  - intros Hb. apply c19_cc_handles; try assumption; cbn in Hb; lia.
  - unfold cc_get_c_handles. change C_HANDLES_MASK with (field_mask 3 25). change C_HANDLES_SHIFT with 25.
    apply Z.bits_inj'. intros i Hi. rewrite !get_testbit by lia.
    destruct (Z.ltb_spec i 3); cbn [andb]; [|reflexivity].
    apply c19_cc_command_index; try assumption; lia.
  - unfold cc_get_command_index. f_equal.
    change COMMAND_INDEX_MASK with (field_mask 16 0). change COMMAND_INDEX_SHIFT with 0.
    apply Z.bits_inj'. intros i Hi. rewrite !get_testbit by lia.
    destruct (Z.ltb_spec i 16); cbn [andb]; [|reflexivity].
    apply c19_cc_handles; try assumption; lia.
Qed.

(** [is_extended] holds exactly for locality bytes of 32 and above. *)
Theorem c19_locality v : 0 <= v < 256 -> locality_is_extended v = (32 <=? v).
Proof.
  intros Hv. unfold locality_is_extended. change 0xE0 with (field_mask 3 5).
  assert (E : Z.land v (field_mask 3 5) = Z.shiftl (Z.shiftr v 5) 5).
  { apply Z.bits_inj'. intros i Hi. rewrite Z.land_spec, mask_testbit, Z.shiftl_spec by lia.
    destruct (Z.leb_spec 5 i).
    - rewrite Z.shiftr_spec by lia. replace (i - 5 + 5) with i by lia. cbn [andb].
      destruct (Z.ltb_spec i (5 + 3)); [apply andb_true_r|]. rewrite andb_false_r. symmetry.
      destruct (Z.eq_dec v 0) as [->|]; [apply Z.testbit_0_l|].
      apply Z.bits_above_log2; [lia|]. apply Z.log2_lt_pow2; [lia|].
      apply Z.lt_le_trans with (2 ^ 8); [lia|]. apply Z.pow_le_mono_r; lia.
    - cbn [andb]. rewrite andb_false_r. symmetry. apply Z.testbit_neg_r. lia. }
  rewrite E, Z.shiftl_mul_pow2, Z.shiftr_div_pow2 by lia.
  change (2 ^ 5) with 32.
  destruct (Z.eqb_spec (v / 32 * 32) 0), (Z.leb_spec 32 v); cbn; try reflexivity; lia.
Qed.

Example c19_example :
  nv_set_type 0xFFFFFFFF 0x9 = 0xFFFFFF9F /\ nv_get_index_type 0xFFFFFF9F = 9
  /\ cc_set_c_handles 0x0040017B 2 = 0x0440017B /\ cc_get_command_index 0x0440017B = 0x17B.
Proof. vm_compute. auto. Qed.

(** ** C20 *)
Theorem c20_nv_index v :
  nv_index_try_from v = if (0x01000000 <=? v) && (v <=? 0x01FFFFFF) then Ok v else Err 0x084.
Proof. reflexivity. Qed.

(** The range test is a test of the top byte. *)
Theorem c20_nv_index_top_byte v : 0 <= v < 2 ^ 32 ->
  (is_ok (nv_index_try_from v) = true <-> v / 2 ^ 24 = 0x01).
Proof.
  intros Hv. rewrite c20_nv_index.
  destruct (Z.leb_spec 0x01000000 v), (Z.leb_spec v 0x01FFFFFF); cbn [andb is_ok];
    split; intros; try discriminate; try reflexivity; lia.
Qed.

Theorem c20_auth_session v :
  auth_session_try_from v =
    if ((0x02000000 <=? v) && (v <=? 0x0200003F))
       || ((0x03000000 <=? v) && (v <=? 0x0300003F))
       || (v =? 0x40000009)
    then Ok v else Err 0x084.
Proof. reflexivity. Qed.

(** No handle is in two of the classes. *)
Theorem c20_disjoint v :
  is_nv_index v = true -> auth_session_try_from v = Err rc_Value.
Proof.
  unfold is_nv_index, auth_session_try_from, is_hmac_session, is_policy_session. intros H.
  change NVIndexFirst with 0x01000000 in H. change NVIndexLast with 0x01FFFFFF in H.
  change HmacSessionFirst with 0x02000000. change PolicySessionFirst with 0x03000000.
  change RS_PW with 0x40000009. apply andb_true_iff in H.
  destruct (Z.leb_spec 0x02000000 v); [lia|]. destruct (Z.leb_spec 0x03000000 v); [lia|].
  destruct (Z.eqb_spec v 0x40000009); [lia|]. reflexivity.
Qed.

(** A session handle is of exactly one kind, told by its top byte. *)
Theorem c20_disjoint_sessions v :
  (is_hmac_session v = true -> is_policy_session v = false /\ v <> RS_PW /\ v / 2 ^ 24 = 0x02)
  /\ (is_policy_session v = true -> is_hmac_session v = false /\ v <> RS_PW /\ v / 2 ^ 24 = 0x03).
Proof.
  unfold is_hmac_session, is_policy_session.
  change HmacSessionFirst with 0x02000000. change HmacSessionLast with 0x0200003F.
  change PolicySessionFirst with 0x03000000. change PolicySessionLast with 0x0300003F.
  change RS_PW with 0x40000009.
  split; intros H; apply andb_true_iff in H.
  - destruct (Z.leb_spec 0x03000000 v); [lia|]. cbn. lia.
  - destruct (Z.leb_spec v 0x0200003F); [lia|]. rewrite andb_false_r. lia.
Qed.

Example c20_example :
  nv_index_try_from 0x01C00002 = Ok 0x01C00002 /\ nv_index_try_from 0x02000000 = Err rc_Value
  /\ auth_session_try_from 0x0200003F = Ok 0x0200003F
  /\ auth_session_try_from 0x02000040 = Err rc_Value
  /\ auth_session_try_from RS_PW = Ok RS_PW.
Proof. vm_compute. auto. Qed.

(** ** C21 *)
(** Unmarshalling accepts every 32-bit value ... *)
Theorem c21_unmarshal_unchecked v rest : 0 <= v < 2 ^ 32 ->
  unmarshal TpmiRhNvIndex (be_bytes 4 v ++ rest) = (Ok (vi v), rest)
  /\ unmarshal TpmiShAuthSession (be_bytes 4 v ++ rest) = (Ok (vi v), rest).
Proof.
  intros Hv. assert (H : in_range false 4 v = true).
  { unfold in_range. change (pow256 4) with (2 ^ 32). apply andb_true_iff. lia. }
  cbn [TpmiRhNvIndex TpmiShAuthSession newtype tuple mk_tys unmarshal unmarshal_tys u32].
  rewrite unm_int_app by assumption. auto.
Qed.

Example c21_example :
  unmarshal TpmiRhNvIndex [x01; x80; x00; x07; xee] = (Ok (vi 0x01800007), [xee])
  /\ nv_index_try_from 0x01800007 = Ok 0x01800007
  /\ unmarshal TpmiShAuthSession [x01; x80; x00; x07; xee] = (Ok (vi 0x01800007), [xee])
  /\ auth_session_try_from 0x01800007 = Err rc_Value.
Proof. vm_compute. auto. Qed.
(** ... also those the checked conversions refuse. *)
Theorem c21_validated_refuted :
  exists b v, unmarshal TpmiRhNvIndex b = (Ok (vi v), []) /\ nv_index_try_from v = Err rc_Value
    /\ unmarshal TpmiShAuthSession b = (Ok (vi v), []) /\ auth_session_try_from v = Err rc_Value.
Proof. exists [x80; x00; x00; x01], 0x80000001. vm_compute. auto. Qed.
