(** Properties of the TPML lists (C16-C18).  ListSpec.v has the
    specification. *)
From Coq Require Import String ZArith NArith List Lia Bool.
From Coq Require Import Init.Byte.
From Verif Require Import Prelude Types Marshal WireSpec MarshalProofs WriteSpec MarshalWrite
  Layout Catalogue Samples Errors ListSpec Tpml MarshalFacts.
Import ListNotations.
Open Scope Z_scope.

(** The nine instantiations of [impl_tpml!], base/src/lib.rs:1573-1581:
    field name, capacity, element type. *)
Definition tpml_types : list (string * N * ty) :=
  [("pcr_selections", 16%N, TpmsPcrSelection); ("alg_properties", 127%N, TpmsAlgProperty);
   ("handle", 254%N, TpmHandle); ("command_codes", 254%N, TpmCc);
   ("tpm_property", 127%N, TpmsTaggedProperty); ("pcr_property", 84%N, TpmsTaggedPcrSelect);
   ("ecc_curves", 508%N, TpmEccCurve); ("policies", 14%N, TpmsTaggedPolicy);
   ("digests", 8%N, Tpm2bDigest)]%string.

(** ** The representation: a list padded with defaults *)
Definition rep (cap : nat) (dflt : val) (x : tpml_val) (l : list val) : Prop :=
  (length l <= cap)%nat
  /\ x = {| count_ := Z.of_nat (length l); list_ := l ++ repeat dflt (cap - length l) |}.

Lemma set_nth_app l e y r : set_nth (length l) e (l ++ y :: r) = Some (l ++ e :: r).
Proof. induction l as [|a l IH]; cbn; [reflexivity|]. rewrite IH. reflexivity. Qed.

Lemma rep_count cap dflt x l : Z.of_nat cap < 2 ^ 32 -> rep cap dflt x l -> tpml_count x = length l.
Proof.
  intros Hc [Hl ->]. unfold tpml_count, usize. cbn [count_]. rewrite Z.mod_small by lia. lia.
Qed.

Lemma rep_default cap dflt : rep cap dflt (tpml_default cap dflt) [].
Proof. split; [cbn; lia|]. unfold tpml_default. cbn. rewrite Nat.sub_0_r. reflexivity. Qed.

Lemma rep_new cap dflt es : Z.of_nat cap < 2 ^ 32 -> (length es <= cap)%nat ->
  exists y, tpml_new cap dflt es = Ok y /\ rep cap dflt y es.
Proof.
  intros Hc Hl. unfold tpml_new. destruct (Nat.ltb_spec cap (length es)); [lia|].
  eexists. split; [reflexivity|]. split; [assumption|].
  rewrite Z.mod_small by lia. f_equal. f_equal.
  replace cap with (length es + (cap - length es))%nat at 1 by lia.
  rewrite repeat_app. apply skipn_app_exact'. rewrite repeat_length. reflexivity.
Qed.

Lemma rep_add cap dflt x l e : Z.of_nat cap < 2 ^ 32 -> rep cap dflt x l ->
  if (length l <? cap)%nat
  then exists y, tpml_add e x = (y, Ok tt) /\ rep cap dflt y (l ++ [e])
  else tpml_add e x = (x, Err rc_Size).
Proof.
  intros Hc Hr. pose proof (rep_count _ _ _ _ Hc Hr) as Hn. destruct Hr as [Hl Hx].
  subst x. unfold tpml_add. rewrite Hn. cbn [list_ count_].
  rewrite app_length, repeat_length.
  destruct (Nat.ltb_spec (length l) cap), (Nat.leb_spec (length l + (cap - length l)) (length l)); try lia.
  - replace (cap - length l)%nat with (S (cap - length (l ++ [e])))
      by (rewrite app_length; cbn; lia).
    cbn [repeat]. rewrite set_nth_app. cbn iota.
    destruct (Z.ltb_spec (Z.of_nat (length l) + 1) (2 ^ 32)); [|lia].
    eexists. split; [reflexivity|]. split; [rewrite app_length; cbn; lia|].
    f_equal; [rewrite app_length; cbn [length]; lia|].
    rewrite <- app_assoc. reflexivity.
  - reflexivity.
Qed.

Lemma rep_elements cap dflt x l : Z.of_nat cap < 2 ^ 32 -> rep cap dflt x l ->
  tpml_elements cap x = Ok l.
Proof.
  intros Hc Hr. pose proof (rep_count _ _ _ _ Hc Hr) as Hn. destruct Hr as [Hl Hx].
  unfold tpml_elements. rewrite Hn, Nat.min_l by assumption. rewrite Hx. cbn [list_].
  rewrite app_length. destruct (Nat.ltb_spec (length l + length (repeat dflt (cap - length l))) (length l)); [lia|].
  rewrite firstn_app_exact. reflexivity.
Qed.

Lemma rep_step cap dflt x l op : Z.of_nat cap < 2 ^ 32 -> rep cap dflt x l ->
  snd (tpml_step cap dflt x op) = snd (spec_step cap l op)
  /\ rep cap dflt (fst (tpml_step cap dflt x op)) (fst (spec_step cap l op)).
Proof.
  intros Hc Hr. destruct op as [es|e| |]; cbn [tpml_step spec_step].
  - destruct (Nat.leb_spec (length es) cap).
    + destruct (rep_new cap dflt es Hc H) as (y & -> & Hy). auto.
    + unfold tpml_new. destruct (Nat.ltb_spec cap (length es)); [|lia]. auto.
  - pose proof (rep_add cap dflt x l e Hc Hr) as H. destruct (length l <? cap)%nat.
    + destruct H as (y & -> & Hy). auto.
    + rewrite H. auto.
  - rewrite (rep_count _ _ _ _ Hc Hr). auto.
  - rewrite (rep_elements _ _ _ _ Hc Hr). auto.
Qed.

Lemma rep_run cap dflt ops : Z.of_nat cap < 2 ^ 32 -> forall x l, rep cap dflt x l ->
  snd (tpml_run cap dflt x ops) = snd (spec_run cap l ops)
  /\ rep cap dflt (fst (tpml_run cap dflt x ops)) (fst (spec_run cap l ops)).
Proof.
  intros Hc. induction ops as [|op ops IH]; intros x l Hr; cbn [tpml_run spec_run]; [auto|].
  destruct (rep_step cap dflt x l op Hc Hr) as [Ho Hs].
  destruct (tpml_step cap dflt x op) as [x1 o]. destruct (spec_step cap l op) as [l1 o'].
  cbn [fst snd] in *. subst o'. destruct (IH x1 l1 Hs) as [Ho2 Hs2].
  destruct (tpml_run cap dflt x1 ops). destruct (spec_run cap l1 ops). cbn [fst snd] in *.
  subst. auto.
Qed.

(** ** C16 *)
(** Any history of calls on a new list shows exactly what a list of that
    capacity shows; in particular nothing panics. *)
Theorem c16_bounded_list cap dflt ops :
  Z.of_nat cap < 2 ^ 32 ->
  snd (tpml_run cap dflt (tpml_default cap dflt) ops) = snd (spec_run cap [] ops).
Proof. intros Hc. apply rep_run; [assumption|apply rep_default]. Qed.

Lemma spec_obs cap ops : forall l : list val, ~ In ObsPanic (snd (spec_run cap l ops)).
Proof.
  induction ops as [|op ops IH]; intros l; cbn [spec_run]; [auto|].
  destruct (spec_step cap l op) as [l1 o] eqn:E. specialize (IH l1).
  destruct (spec_run cap l1 ops) as [l2 os]. cbn [snd] in *. intros [->|H]; [|auto].
  destruct op; cbn in E;
    try match type of E with context [if ?b then _ else _] => destruct b end; discriminate.
Qed.

Theorem c16_no_panic cap dflt ops :
  Z.of_nat cap < 2 ^ 32 ->
  ~ In ObsPanic (snd (tpml_run cap dflt (tpml_default cap dflt) ops)).
Proof. intros Hc. rewrite c16_bounded_list by assumption. apply spec_obs. Qed.

(** All capacities in use are small enough. *)
Theorem c16_capacities name cap t : In (name, cap, t) tpml_types ->
  Z.of_nat (N.to_nat cap) < 2 ^ 32 /\ In (tpml name cap t) base_types
  /\ wf_ty (tpml name cap t) = true /\ wf t (zero_of t) = true.
Proof.
  intros H. cbn in H.
  repeat (destruct H as [H|H]; [injection H as <- <- <-;
    (split; [vm_compute; reflexivity|]); (split; [in_base|]); split; vm_compute; reflexivity|]).
  destruct H.
Qed.

Example c16_example :
  snd (tpml_run 2 (VInt 0) (tpml_default 2 (VInt 0))
        [OpAdd (VInt 7); OpAdd (VInt 8); OpAdd (VInt 9); OpElements; OpCount;
         OpNew [VInt 1; VInt 2; VInt 3]; OpNew [VInt 5]; OpElements])
  = [ObsDone; ObsDone; ObsErr 0x95; ObsElements [VInt 7; VInt 8]; ObsCount 2; ObsErr 0x95;
     ObsDone; ObsElements [VInt 5]].
Proof. reflexivity. Qed.

(** ** C17 *)
(** The elements a program put into the list. *)
Definition op_elements (op : list_op val) : list val :=
  match op with OpNew es => es | OpAdd e => [e] | _ => [] end.

Lemma spec_elements cap (P : val -> Prop) ops : forall l,
  Forall P l -> Forall P (flat_map op_elements ops) -> Forall P (fst (spec_run cap l ops)).
Proof.
  induction ops as [|op ops IH]; intros l Hl Ho; cbn [spec_run]; [assumption|].
  cbn [flat_map] in Ho. apply Forall_app in Ho. destruct Ho as [H1 H2].
  destruct (spec_step cap l op) as [l1 o] eqn:E.
  assert (Hl1 : Forall P l1).
  { destruct op; cbn in E;
      try match type of E with context [if ?b then _ else _] => destruct b end;
      injection E as <- _; try assumption. apply Forall_app. auto. }
  specialize (IH l1 Hl1 H2). destruct (spec_run cap l1 ops). exact IH.
Qed.

(** After any history of calls with well-formed elements the list marshals,
    into any buffer that is large enough, as the 4-byte count and the elements
    the accessor shows; unmarshalling gives a list with the same elements
    (their observable parts). *)
Theorem c17_marshal name cap t ops :
  let T := tpml name cap t in
  wf_ty T = true -> wf t (zero_of t) = true -> (cap < 2 ^ 32)%N ->
  Forall (fun e => wf t e = true) (flat_map op_elements ops) ->
  let x := fst (tpml_run (N.to_nat cap) (zero_of t) (tpml_default (N.to_nat cap) (zero_of t)) ops) in
  exists l, tpml_elements (N.to_nat cap) x = Ok l
    /\ l = fst (spec_run (N.to_nat cap) [] ops)
    /\ let wire := be_bytes 4 (Z.of_nat (length l)) ++ flat_map (enc t) l in
       (forall buf, (length wire <= length buf)%nat ->
          marshal T (val_of_tpml x) buf = (overwrite wire buf, Ok (length wire)))
       /\ (forall rest, exists y, unmarshal T (wire ++ rest) = (Ok (val_of_tpml y), rest)
            /\ tpml_elements (N.to_nat cap) y = Ok (map (canon t) l)).
Proof.
  intros T Ht Hz Hcap Hw x.
  assert (Hc : Z.of_nat (N.to_nat cap) < 2 ^ 32) by lia.
  destruct (rep_run (N.to_nat cap) (zero_of t) ops Hc _ _ (rep_default _ _)) as [_ Hr].
  fold x in Hr. set (l := fst (spec_run (N.to_nat cap) [] ops)) in *.
  exists l. split; [exact (rep_elements _ _ _ _ Hc Hr)|]. split; [reflexivity|]. intros wire.
  pose proof (spec_elements (N.to_nat cap) (fun e => wf t e = true) ops [] (Forall_nil _) Hw) as Hf.
  fold l in Hf. destruct Hr as [Hl Hx].
  assert (Hlw : wf T (val_of_tpml x) = true).
  { rewrite Hx. unfold val_of_tpml, T, tpml, struct, fld, larr. cbn [count_ list_ mk_fields wf wf_fields bind_len u32].
    rewrite !andb_true_iff. repeat split.
    - apply in_range_iff. change (pow256 4) with (2 ^ 32). lia.
    - apply N.eqb_eq. rewrite app_length, repeat_length. lia.
    - apply forallb_forall. intros e He. apply in_app_or in He. destruct He as [He|He].
      + rewrite Forall_forall in Hf. auto.
      + apply repeat_spec in He. subst. assumption.
    - unfold len_ok. cbn [lookup_len]. rewrite String.eqb_refl. apply N.leb_le.
      unfold usize. rewrite Z.mod_small by lia. lia. }
  assert (He : enc T (val_of_tpml x) = wire).
  { rewrite Hx. unfold val_of_tpml, T. cbn [count_ list_]. rewrite enc_tpml by lia.
    rewrite Nat2Z.id, firstn_app_exact. reflexivity. }
  split.
  - intros buf Hb. rewrite <- He in *. apply marshal_fits; assumption.
  - intros rest. rewrite <- He, unm_enc by assumption.
    assert (Hcn : canon T (val_of_tpml x)
      = val_of_tpml {| count_ := Z.of_nat (length l);
                       list_ := map (canon t) l ++ repeat (zero_of t) (N.to_nat cap - length l) |}).
    { rewrite Hx. unfold val_of_tpml, T. cbn [count_ list_]. rewrite canon_tpml by lia.
      rewrite Nat2Z.id, firstn_app_exact. reflexivity. }
    rewrite Hcn. eexists. split; [reflexivity|].
    apply rep_elements with (zero_of t); [assumption|]. split; rewrite map_length; [assumption|reflexivity].
Qed.

(** The same for the nine list types of the library. *)
Theorem c17_marshal_base name cap t ops :
  In (name, cap, t) tpml_types ->
  Forall (fun e => wf t e = true) (flat_map op_elements ops) ->
  let x := fst (tpml_run (N.to_nat cap) (zero_of t) (tpml_default (N.to_nat cap) (zero_of t)) ops) in
  exists l, tpml_elements (N.to_nat cap) x = Ok l
    /\ l = fst (spec_run (N.to_nat cap) [] ops)
    /\ let wire := be_bytes 4 (Z.of_nat (length l)) ++ flat_map (enc t) l in
       (forall buf, (length wire <= length buf)%nat ->
          marshal (tpml name cap t) (val_of_tpml x) buf = (overwrite wire buf, Ok (length wire)))
       /\ (forall rest, exists y, unmarshal (tpml name cap t) (wire ++ rest) = (Ok (val_of_tpml y), rest)
            /\ tpml_elements (N.to_nat cap) y = Ok (map (canon t) l)).
Proof.
  intros Hin. destruct (c16_capacities _ _ _ Hin) as (Hc & _ & Ht & Hz).
  apply c17_marshal; try assumption. lia.
Qed.

Example c17_example :
  let x := fst (tpml_run 8 (zero_of Tpm2bDigest) (tpml_default 8 (zero_of Tpm2bDigest))
                 [OpAdd (v2b 64 [x01]); OpAdd (v2b 64 [x02; x03])]) in
  firstn 11 (fst (marshal TpmlDigest (val_of_tpml x) (repeat xee 20)))
  = [x00;x00;x00;x02; x00;x01;x01; x00;x02;x02;x03].
Proof. vm_compute. reflexivity. Qed.

(** ** C18 *)
(** A count within the capacity never panics in a large enough buffer ... *)
Theorem c18_count_in_range_partial name cap t c l buf :
  0 <= c < 2 ^ 32 -> (Z.to_N c <= cap)%N -> N.of_nat (length l) = cap -> forallb (wf t) l = true ->
  (4 + length (flat_map (enc t) (firstn (Z.to_nat c) l)) <= length buf)%nat ->
  snd (marshal (tpml name cap t) (VStruct [VInt c; VArr l]) buf)
  = Ok (4 + length (flat_map (enc t) (firstn (Z.to_nat c) l)))%nat.
Proof.
  intros Hc Hcap Hl Hf Hb.
  assert (Hw : wf (tpml name cap t) (VStruct [VInt c; VArr l]) = true).
  { unfold tpml, struct, fld, larr. cbn [mk_fields wf wf_fields bind_len u32].
    rewrite Hf, Hl, N.eqb_refl, !andb_true_iff. repeat split.
    - apply in_range_iff. change (pow256 4) with (2 ^ 32). lia.
    - unfold len_ok. cbn [lookup_len]. rewrite String.eqb_refl. apply N.leb_le.
      unfold usize. rewrite Z.mod_small by lia. lia. }
  assert (He : length (enc (tpml name cap t) (VStruct [VInt c; VArr l]))
      = (4 + length (flat_map (enc t) (firstn (Z.to_nat c) l)))%nat).
  { rewrite enc_tpml by lia. rewrite app_length, be_bytes_length. reflexivity. }
  rewrite marshal_fits by (try assumption; lia). cbn [snd]. rewrite He. reflexivity.
Qed.

Lemma mar_arr_over (f : val -> list byte -> mres) (e : val -> list byte) l :
  (forall v buf, In v l -> (length (e v) <= length buf)%nat ->
     f v buf = (overwrite (e v) buf, Ok (length (e v)))) ->
  forall cnt w buf, (N.of_nat (length l) < cnt)%N ->
  (w + length (flat_map e l) <= length buf)%nat ->
  snd (mar_arr f cnt l w buf) = Panic.
Proof.
  induction l as [|v l IH]; intros Hf cnt w buf Hc Hb; cbn [mar_arr].
  - destruct (N.eqb_spec cnt 0); [cbn in Hc; lia|reflexivity].
  - destruct (N.eqb_spec cnt 0); [cbn in Hc; lia|]. cbn [flat_map length] in *.
    rewrite app_length in Hb. unfold mseq.
    destruct (Nat.ltb_spec (length buf) w); [lia|].
    rewrite Hf by (try (left; reflexivity); rewrite skipn_length; lia). cbn [omap mthen].
    apply IH; [intros; apply Hf; auto; right; assumption|lia|].
    rewrite app_length, firstn_length, overwrite_length by (rewrite skipn_length; lia).
    rewrite skipn_length. lia.
Qed.

(** ... and a count above the capacity always does, for every list type: *)
Theorem c18_count_above_panics name cap t c l buf :
  0 <= c < 2 ^ 32 -> (cap < Z.to_N c)%N -> N.of_nat (length l) = cap -> forallb (wf t) l = true ->
  (4 + length (flat_map (enc t) l) <= length buf)%nat ->
  snd (marshal (tpml name cap t) (VStruct [VInt c; VArr l]) buf) = Panic.
Proof.
  intros Hc Hcap Hl Hf Hb. unfold tpml, struct, fld, larr.
  cbn [mk_fields marshal marshal_fields bind_len u32 lookup_len]. rewrite String.eqb_refl.
  unfold mseq. cbn [skipn firstn app]. rewrite Nat.ltb_irrefl || idtac.
  destruct (Nat.ltb_spec (length buf) 0); [lia|].
  unfold mar_int, mar_bytes. rewrite be_bytes_length.
  destruct (Nat.leb_spec 4 (length buf)); [|lia]. cbn [omap mthen fst snd].
  assert (Hp : snd (mar_arr (marshal t) (usize c) l (0 + 4) (overwrite (be_bytes 4 c) buf)) = Panic).
  { apply mar_arr_over with (e := enc t).
    - intros v b Hv Hlen. apply marshal_fits; [eapply forallb_In; eassumption|assumption].
    - unfold usize. rewrite Z.mod_small by lia. lia.
    - rewrite overwrite_length by (rewrite be_bytes_length; lia). lia. }
  destruct (mar_arr (marshal t) (usize c) l (0 + 4) (overwrite (be_bytes 4 c) buf)) as [b r].
  cbn [snd] in Hp. subst r. reflexivity.
Qed.

(** the public [count] of TpmlTaggedTpmProperty and the public
    [sizeof_select] of TpmsPcrSelection can be set so. *)
Theorem c18_public_counts_refuted :
  (exists buf, snd (marshal TpmlTaggedTpmProperty
      (VStruct [VInt 128; VArr (repeat (zero_of TpmsTaggedProperty) 127)]) buf) = Panic)
  /\ (exists buf, snd (marshal TpmsPcrSelection
      (VStruct [vi 0xB; VInt 5; VArr [VInt 1; VInt 2; VInt 3; VInt 4]]) buf) = Panic).
Proof.
  split; [exists (repeat x00 2000)|exists (repeat x00 20)]; vm_compute; reflexivity.
Qed.

(** Values obtained by unmarshalling never have such counts, see C09. *)
Example c18_example :
  wf TpmsTaggedProperty (zero_of TpmsTaggedProperty) = true
  /\ snd (marshal TpmlTaggedTpmProperty
      (VStruct [VInt 127; VArr (repeat (zero_of TpmsTaggedProperty) 127)]) (repeat x00 2000))
     = Ok 1020%nat.
Proof. vm_compute. auto. Qed.
