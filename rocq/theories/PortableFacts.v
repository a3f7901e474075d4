(** The code on targets whose [usize] does not have 64 bits (C90). *)
From Coq Require Import String ZArith NArith List Lia Bool.
From Coq Require Import Init.Byte.
From Verif Require Import Prelude Types Marshal WireSpec MarshalProofs Layout Catalogue Samples MarshalFacts
  Errors Attrs Tpm2b Client ClientSpec ClientProofs Server ServerSpec ServerProofs ServerFacts Portable.
Import ListNotations.
Open Scope Z_scope.

(** Type descriptions in which every length field is an unsigned integer of at
    most [w] bits.  [ints] are the integer fields before, latest first. *)
Definition bind_int (name : string) (kd : kind) (t : ty) (ints : list (string * (bool * nat)))
    : list (string * (bool * nat)) :=
  match kd, t with KPlain, TInt sg k => (name, (sg, k)) :: ints | _, _ => ints end.
Fixpoint length_fits (w : Z) (len : string) (ints : list (string * (bool * nat))) : bool :=
  match ints with
  | [] => false
  | (name, (sg, k)) :: ints =>
      if String.eqb len name then negb sg && (8 * Z.of_nat k <=? w) else length_fits w len ints
  end.
Fixpoint lengths_fit (w : Z) (t : ty) : bool :=
  match t with
  | TInt _ _ | TUnit | TBytes _ | TTpm2b _ => true
  | TNamed fs => lengths_fit_fields w [] fs
  | TTuple ts => lengths_fit_tys w ts
  | TEnum _ vrs => lengths_fit_variants w vrs
  | TSplit pre _ mid vrs => lengths_fit_tys w pre && lengths_fit_tys w mid && lengths_fit_variants w vrs
  end
with lengths_fit_fields (w : Z) (ints : list (string * (bool * nat))) (fs : fields) : bool :=
  match fs with
  | FNil => true
  | FCons name kd t rest =>
      lengths_fit w t
      && (match kd with KLen _ len _ => length_fits w len ints | _ => true end)
      && lengths_fit_fields w (bind_int name kd t ints) rest
  end
with lengths_fit_tys (w : Z) (ts : tys) : bool :=
  match ts with TNil => true | TCons t rest => lengths_fit w t && lengths_fit_tys w rest end
with lengths_fit_variants (w : Z) (vrs : variants) : bool :=
  match vrs with
  | VNil => true
  | VCons _ ts rest => lengths_fit_tys w ts && lengths_fit_variants w rest
  end.

(** Values as Rust has them: integers are in the range of their type.  Unlike
    [wf] this says nothing about a count and the length of its array. *)
Fixpoint representable (t : ty) (v : val) {struct t} : bool :=
  match t, v with
  | TInt sg k, VInt z => in_range sg k z
  | TUnit, VUnit => true
  | TBytes n, VBytes l => (N.of_nat (length l) =? n)%N
  | TNamed fs, VStruct vs => representable_fields fs vs
  | TTuple ts, VStruct vs => representable_tys ts vs
  | TEnum _ vrs, VEnum sel args => representable_variant vrs sel args
  | TTpm2b max, VTpm2b size field => in_range false 2 size && (N.of_nat (length field) =? max)%N
  | TSplit pre _ mid vrs, VStruct [VStruct a; VStruct b; VEnum sel args] =>
      representable_tys pre a && representable_tys mid b && representable_variant vrs sel args
  | _, _ => false
  end
with representable_fields (fs : fields) (vs : list val) {struct fs} : bool :=
  match fs, vs with
  | FNil, [] => true
  | FCons _ KPlain t rest, v :: vs' => representable t v && representable_fields rest vs'
  | FCons _ (KArr n) t rest, VArr l :: vs' | FCons _ (KLen n _ _) t rest, VArr l :: vs' =>
      (N.of_nat (length l) =? n)%N && forallb (representable t) l && representable_fields rest vs'
  | _, _ => false
  end
with representable_tys (ts : tys) (vs : list val) {struct ts} : bool :=
  match ts, vs with
  | TNil, [] => true
  | TCons t rest, v :: vs' => representable t v && representable_tys rest vs'
  | _, _ => false
  end
with representable_variant (vrs : variants) (sel : Z) (args : list val) {struct vrs} : bool :=
  match vrs with
  | VNil => false
  | VCons s ts rest => if sel =? s then representable_tys ts args else representable_variant rest sel args
  end.

(** One command given to a server on such a target. *)
Definition serve_at (w : Z) (checks : bool) {D X} (dr : Drbg D) (es : EntropySource X) (c : context D X)
    (k : call) : context D X * list byte * outcome unit nat :=
  match k with
  | Separate request resp => execute_command_separate_at dr es w checks c request resp
  | InPlace buffer request_size => execute_command_in_place_at dr es w checks c buffer request_size
  end.

(** ** Auxiliary facts *)

Lemma usize_at_id w z : 0 <= w -> 0 <= z < 2 ^ w -> 0 <= z < 2 ^ 64 -> usize_at w z = usize z.
Proof. intros. unfold usize_at, usize. rewrite !Z.mod_small by lia. reflexivity. Qed.

(** The integers read so far are in the range of their types. *)
Definition known (env : lenv) (ints : list (string * (bool * nat))) : Prop :=
  Forall2 (fun e i => fst e = fst i /\ int_width (snd (snd i)) = true
                      /\ in_range (fst (snd i)) (snd (snd i)) (snd e) = true) env ints.

Lemma pow256_bits k : pow256 k = 2 ^ (8 * Z.of_nat k).
Proof.
  unfold pow256. rewrite Z.pow_mul_r by lia. reflexivity.
Qed.

Lemma known_lookup w len env ints c : 0 <= w -> known env ints -> length_fits w len ints = true ->
  lookup_len len env = Some c -> usize_at w c = usize c.
Proof.
  intros Hw H. induction H as [|[n z] [n' [sg k]] env ints (E & Hk & Hz) _ IH];
    cbn [length_fits lookup_len fst snd] in *; [discriminate|].
  subst n'. destruct (String.eqb len n); [|exact IH].
  intros Hf [= ->]. apply andb_prop in Hf. destruct Hf as [Hs Hb]. apply negb_true_iff in Hs. subst sg.
  apply Z.leb_le in Hb. unfold in_range in Hz. apply andb_prop in Hz. destruct Hz as [H0 H1].
  apply Z.leb_le in H0. apply Z.ltb_lt in H1. rewrite pow256_bits in H1.
  assert (Hk8 : 8 * Z.of_nat k <= 64).
  { unfold int_width in Hk. repeat (apply orb_prop in Hk; destruct Hk as [Hk|Hk]);
      apply Nat.eqb_eq in Hk; subst; cbn; lia. }
  pose proof (Z.pow_le_mono_r 2 _ _ ltac:(lia) Hb). pose proof (Z.pow_le_mono_r 2 _ _ ltac:(lia) Hk8).
  apply usize_at_id; lia.
Qed.

Lemma known_bind name t v env ints : wf_ty t = true -> representable t v = true -> known env ints ->
  known (bind_len name v env) (bind_int name KPlain t ints).
Proof.
  intros Ht H Hk. destruct t, v; try discriminate; try exact Hk; cbn in *.
  constructor; [|exact Hk]. cbn. auto.
Qed.

Lemma wf_representable_all :
  (forall t v, wf t v = true -> representable t v = true)
  /\ (forall fs env vs, wf_fields env fs vs = true -> representable_fields fs vs = true)
  /\ (forall ts vs, wf_tys ts vs = true -> representable_tys ts vs = true)
  /\ (forall vrs sel args, wf_variant vrs sel args = true -> representable_variant vrs sel args = true).
Proof.
  assert (Hl : forall t l, (forall v, wf t v = true -> representable t v = true) ->
            forallb (wf t) l = true -> forallb (representable t) l = true).
  { intros t l H. rewrite !forallb_forall. auto. }
  apply ty_mutind.
  - intros sg k [] H; exact H.
  - intros [] H; exact H.
  - intros n [] H; exact H.
  - intros fs IH [] H; try discriminate. eapply IH, H.
  - intros ts IH [] H; try discriminate. apply IH, H.
  - intros k vrs IH [] H; try discriminate. apply IH, H.
  - intros max [] H; try discriminate. cbn in *. bsplit. rewrite H, H0. reflexivity.
  - intros pre IHp k mid IHm vrs IHv [] H; try discriminate.
    destruct vs as [|[] [|[] [|[] []]]]; try discriminate. cbn in *. bsplit.
    rewrite IHp, IHm, IHv by assumption. reflexivity.
  - intros env [] H; [reflexivity|discriminate].
  - intros name kd t IHt rest IHr env vs H.
    destruct kd, vs as [|v vs]; try discriminate; cbn in *.
    + bsplit. rewrite IHt by assumption. eapply IHr. eassumption.
    + destruct v; try discriminate. bsplit. rewrite H, Hl by assumption. eapply IHr. eassumption.
    + destruct v; try discriminate. bsplit. rewrite H, Hl by assumption. eapply IHr. eassumption.
  - intros [] H; [reflexivity|discriminate].
  - intros t IHt rest IHr [|v vs] H; try discriminate. cbn in *. bsplit.
    rewrite IHt, IHr by assumption. reflexivity.
  - intros sel args H. discriminate.
  - intros s ts IHt rest IHr sel args H. cbn in *. destruct (sel =? s); auto.
Qed.

Lemma uthen_ext {A B} (x : ures A) (k k' : A -> list byte -> ures B) :
  (forall a r, x = (Ok a, r) -> k a r = k' a r) -> uthen x k = uthen x k'.
Proof. destruct x as [[] r]; cbn; auto. Qed.
Lemma mthen_ext r (k k' : nat -> list byte -> mres) :
  (forall n b, k n b = k' n b) -> mthen r k = mthen r k'.
Proof. destruct r as [b []]; cbn; auto. Qed.
Lemma unm_arr_ext f g : (forall b, f b = g b) -> forall m b, unm_arr f m b = unm_arr g m b.
Proof.
  intros H. induction m as [|m IH]; intros b; cbn; [reflexivity|]. rewrite H.
  apply uthen_ext. intros. now rewrite IH.
Qed.
Lemma mseq_ext f g n b : (forall b, f b = g b) -> mseq f n b = mseq g n b.
Proof. intros H. unfold mseq. rewrite H. reflexivity. Qed.
Lemma mar_arr_ext f g : forall l, (forall v, In v l -> forall b, f v b = g v b) ->
  forall c n b, mar_arr f c l n b = mar_arr g c l n b.
Proof.
  induction l as [|v l IH]; intros H c n b; cbn; [reflexivity|].
  destruct (c =? 0)%N; [reflexivity|].
  rewrite (mseq_ext (f v) (g v)) by (apply H; left; reflexivity).
  apply mthen_ext. intros. apply IH. intros. apply H. right. assumption.
Qed.

Theorem unmarshal_at_all w : 0 <= w ->
  (forall t, wf_ty t = true -> lengths_fit w t = true -> forall b, unmarshal_at w t b = unmarshal t b)
  /\ (forall fs ints, wf_ty_fields (map fst ints) fs = true -> lengths_fit_fields w ints fs = true ->
      forall env b, known env ints -> unmarshal_fields_at w env fs b = unmarshal_fields env fs b)
  /\ (forall ts, wf_ty_tys ts = true -> lengths_fit_tys w ts = true ->
      forall b, unmarshal_tys_at w ts b = unmarshal_tys ts b)
  /\ (forall vrs k, wf_ty_variants k vrs = true -> lengths_fit_variants w vrs = true ->
      forall sel b, unmarshal_variant_at w vrs sel b = unmarshal_variant vrs sel b).
Proof.
  intros Hw. apply ty_mutind; try reflexivity.
  - intros fs IH Ht Hf b. cbn in *. rewrite (IH []); try assumption; [reflexivity|constructor].
  - intros ts IH Ht Hf b. cbn in *. rewrite IH; auto.
  - intros k vrs IH Ht Hf b. cbn in *. bsplit. apply uthen_ext. intros. rewrite (IH k); auto.
  - intros pre IHp k mid IHm vrs IHv Ht Hf b. cbn in *. bsplit.
    rewrite IHp by assumption. apply uthen_ext. intros. apply uthen_ext. intros.
    rewrite IHm by assumption. apply uthen_ext. intros. rewrite (IHv k); auto.
  - intros name kd t IHt rest IHr ints Ht Hf env b Hk. cbn in Ht, Hf. bsplit.
    destruct kd as [|n|n len dflt]; cbn.
    + rewrite IHt by assumption. apply uthen_ext. intros v r E.
      apply unm_inv in E; [|assumption]. destruct E as (Hv & _ & _).
      rewrite (IHr (bind_int name KPlain t ints)); [reflexivity| |assumption|].
      * destruct t; assumption.
      * apply known_bind; [assumption| |assumption]. apply wf_representable_all, Hv.
    + rewrite (unm_arr_ext (unmarshal_at w t) (unmarshal t)) by auto.
      apply uthen_ext. intros. rewrite (IHr ints); auto.
    + destruct (lookup_len len env) as [c|] eqn:Ec; [|reflexivity].
      rewrite (known_lookup w len env ints) by assumption.
      destruct (n <? usize c)%N; [reflexivity|].
      rewrite (unm_arr_ext (unmarshal_at w t) (unmarshal t)) by auto.
      apply uthen_ext. intros. rewrite (IHr ints); auto.
  - intros t IHt rest IHr Ht Hf b. cbn in *. bsplit. rewrite IHt by assumption.
    apply uthen_ext. intros. rewrite IHr; auto.
  - intros s ts IHt rest IHr k Ht Hf sel b. cbn in *. bsplit.
    destruct (sel =? s); [apply IHt|apply (IHr k)]; assumption.
Qed.

Theorem marshal_at_all w : 0 <= w ->
  (forall t, wf_ty t = true -> lengths_fit w t = true -> forall v, representable t v = true ->
      forall b, marshal_at w t v b = marshal t v b)
  /\ (forall fs ints, wf_ty_fields (map fst ints) fs = true -> lengths_fit_fields w ints fs = true ->
      forall vs, representable_fields fs vs = true ->
      forall env n b, known env ints -> marshal_fields_at w env fs vs n b = marshal_fields env fs vs n b)
  /\ (forall ts, wf_ty_tys ts = true -> lengths_fit_tys w ts = true ->
      forall vs, representable_tys ts vs = true ->
      forall n b, marshal_tys_at w ts vs n b = marshal_tys ts vs n b)
  /\ (forall vrs k, wf_ty_variants k vrs = true -> lengths_fit_variants w vrs = true ->
      forall sel args, representable_variant vrs sel args = true ->
      forall b, marshal_variant_at w vrs sel args b = marshal_variant vrs sel args b).
Proof.
  intros Hw. apply ty_mutind.
  - intros; reflexivity.
  - intros; reflexivity.
  - intros; reflexivity.
  - intros fs IH Ht Hf [] Hv b; try discriminate. cbn in *. apply (IH []); try assumption. constructor.
  - intros ts IH Ht Hf [] Hv b; try discriminate. cbn in *. auto.
  - intros k vrs IH Ht Hf [] Hv b; try discriminate. cbn in *. bsplit.
    apply mthen_ext. intros. apply mseq_ext. intros. apply (IH k); assumption.
  - intros; reflexivity.
  - intros pre IHp k mid IHm vrs IHv Ht Hf [] Hv b; try discriminate.
    destruct vs as [|[] [|[] [|[] []]]]; try discriminate. cbn in *. bsplit.
    rewrite IHp by assumption. apply mthen_ext. intros. apply mthen_ext. intros.
    rewrite IHm by assumption. apply mthen_ext. intros. apply mseq_ext. intros. apply (IHv k); assumption.
  - intros; reflexivity.
  - intros name kd t IHt rest IHr ints Ht Hf vs Hv env n b Hk. cbn in Ht, Hf. bsplit.
    destruct kd as [|m|m len dflt], vs as [|v vs]; try discriminate; cbn in *.
    + bsplit. rewrite (mseq_ext (marshal_at w t v) (marshal t v)) by auto.
      apply mthen_ext. intros. apply (IHr (bind_int name KPlain t ints)); try assumption.
      * destruct t; assumption.
      * apply known_bind; assumption.
    + destruct v; try discriminate. bsplit.
      rewrite (mar_arr_ext (marshal_at w t) (marshal t)).
      2:{ intros v Hin b'. apply IHt; try assumption. rewrite forallb_forall in *. auto. }
      apply mthen_ext. intros. apply (IHr ints); assumption.
    + destruct v; try discriminate. bsplit.
      destruct (lookup_len len env) as [c|] eqn:Ec; [|reflexivity].
      rewrite (known_lookup w len env ints) by assumption.
      rewrite (mar_arr_ext (marshal_at w t) (marshal t)).
      2:{ intros v Hin b'. apply IHt; try assumption. rewrite forallb_forall in *. auto. }
      apply mthen_ext. intros. apply (IHr ints); assumption.
  - intros; reflexivity.
  - intros t IHt rest IHr Ht Hf [|v vs] Hv n b; try discriminate. cbn in *. bsplit.
    rewrite (mseq_ext (marshal_at w t v) (marshal t v)) by auto.
    apply mthen_ext. intros. apply IHr; assumption.
  - intros; reflexivity.
  - intros s ts IHt rest IHr k Ht Hf sel args Hv b. cbn in *. bsplit.
    destruct (sel =? s); [apply IHt|apply (IHr k)]; assumption.
Qed.

Lemma lengths_fit_mono w w' : w <= w' ->
  (forall t, lengths_fit w t = true -> lengths_fit w' t = true)
  /\ (forall fs ints, lengths_fit_fields w ints fs = true -> lengths_fit_fields w' ints fs = true)
  /\ (forall ts, lengths_fit_tys w ts = true -> lengths_fit_tys w' ts = true)
  /\ (forall vrs, lengths_fit_variants w vrs = true -> lengths_fit_variants w' vrs = true).
Proof.
  intros Hw.
  assert (Hl : forall len ints, length_fits w len ints = true -> length_fits w' len ints = true).
  { intros len. induction ints as [|[n [sg k]] ints IH]; cbn [length_fits]; [discriminate|].
    destruct (String.eqb len n); [|exact IH]. intros H. bsplit. rewrite H. apply Z.leb_le in H0.
    apply Z.leb_le. lia. }
  apply ty_mutind; try reflexivity; cbn.
  - auto.
  - auto.
  - auto.
  - intros. bsplit. rewrite H, H0, H1 by assumption. reflexivity.
  - intros name kd t IHt rest IHr ints H. bsplit. rewrite IHt, IHr by assumption.
    destruct kd; try reflexivity. rewrite Hl by assumption. reflexivity.
  - intros. bsplit. rewrite H, H0 by assumption. reflexivity.
  - intros. bsplit. rewrite H, H0 by assumption. reflexivity.
Qed.

Lemma base_fit : forallb (lengths_fit 32) base_types = true.
Proof. vm_compute. reflexivity. Qed.

Lemma base_lengths t w : 32 <= w -> In t base_types -> lengths_fit w t = true.
Proof.
  intros Hw Hin. apply (lengths_fit_mono 32 w Hw).
  pose proof base_fit as H. rewrite forallb_forall in H. auto.
Qed.

Lemma cthen_ext r (k k' : nat -> list byte -> cres) :
  (forall n b, k n b = k' n b) -> cthen r k = cthen r k'.
Proof. destruct r as [b []]; cbn; auto. Qed.
Lemma cseq_ext f g n b : (forall b, f b = g b) -> cseq f n b = cseq g n b.
Proof. intros H. unfold cseq. rewrite H. reflexivity. Qed.

Lemma header_size_range buf tag size read :
  read_response_header buf = Ok (tag, size, read) -> 0 <= size < 2 ^ 32.
Proof.
  unfold read_response_header. destruct (unmarshal RespHeader buf) as [[v|e|] r] eqn:E; try discriminate.
  apply unm_inv in E; [|reflexivity]. destruct E as (Hv & _ & _).
  destruct v as [| | |[|[| | |[|[z| | | | | |] []]| | |] [|[z2| | | | | |] [|[z3| | | | | |] []]]]| | |]; try discriminate.
  destruct (tss_try_from z3); try discriminate; intros [= _ E2 _].
  all: subst; cbn in Hv; bsplit; match goal with H : in_range false 4 ?x = true |- 0 <= ?x < _ => apply in_range_iff in H; exact H end.
Qed.

Lemma read_be_range k {B} (bb : buffers B) c z c' :
  (forall b off n l, request_read bb b off n = Some l -> (length l <= n)%nat) ->
  read_be bb k c = Some (z, c') -> 0 <= z < pow256 k.
Proof.
  intros Hb. unfold read_be. destruct (request_read bb (bufs c) (request_offset c) k) as [l|] eqn:E; [|discriminate].
  intros [= <- _]. apply Hb in E. pose proof (be_val_range l).
  unfold pow256 in *. pose proof (Z.pow_le_mono_r 256 (Z.of_nat (length l)) (Z.of_nat k) ltac:(lia) ltac:(lia)). lia.
Qed.
Lemma read_be_offset k {B} (bb : buffers B) c z c' :
  read_be bb k c = Some (z, c') -> response_offset c' = response_offset c.
Proof.
  unfold read_be. destruct (request_read bb (bufs c) (request_offset c) k) as [l|]; [|discriminate].
  intros [= _ <-]. reflexivity.
Qed.

Lemma usize_at_u32 w z : 32 <= w -> 0 <= z < 2 ^ 32 -> usize_at w z = Z.to_N z.
Proof.
  intros Hw Hz. unfold usize_at. pose proof (Z.pow_le_mono_r 2 32 w ltac:(lia) Hw).
  rewrite Z.mod_small by lia. reflexivity.
Qed.

Lemma write_callback_at_eq w checks {A B} (bb : buffers B) c size (cb : list byte -> A * list byte) :
  32 <= w -> response_offset c = 10%nat -> (Z.of_nat size < 65536) ->
  write_callback_at w checks bb c size cb = Some (write_callback bb c size cb).
Proof.
  intros Hw Ho Hs. unfold write_callback_at, slice_write_callback_at, add_at, write_callback, slice_write_callback.
  pose proof (Z.pow_le_mono_r 2 32 w ltac:(lia) Hw). rewrite Ho.
  destruct (Z.ltb_spec (Z.of_nat 10 + Z.of_nat size) (2 ^ w)); [|lia].
  replace (10 <=? 10 + size)%nat with true by (symmetry; apply Nat.leb_le; lia). cbn [andb].
  destruct (10 + size <=? length (response bb (bufs c)))%nat; [|reflexivity].
  replace (10 + size - 10)%nat with size by lia.
  destruct (cb (firstn size (skipn 10 (response bb (bufs c))))) as [a l]. reflexivity.
Qed.

Lemma execute_command_at_eq w checks {D X} (dr : Drbg D) (es : EntropySource X) {B} (bb : buffers B) c b :
  32 <= w -> (forall b off n l, request_read bb b off n = Some l -> (length l <= n)%nat) ->
  execute_command_at dr es w checks bb c b = execute_command dr es bb c b.
Proof.
  intros Hw Hb. unfold execute_command_at, execute_command.
  destruct (read_be_u16 bb _) as [[x c1]|] eqn:E1; [|reflexivity].
  destruct (read_be_u32 bb c1) as [[size c2]|] eqn:E2; [|reflexivity].
  pose proof (read_be_range 4 bb _ _ _ Hb E2) as R2. rewrite pow256_bits in R2.
  rewrite usize_at_u32 by (assumption || exact R2).
  replace (Z.to_N size =? N.of_nat (request_len bb b))%N with (size =? Z.of_nat (request_len bb b)).
  2:{ apply Bool.eq_iff_eq_true. rewrite Z.eqb_eq, N.eqb_eq. lia. }
  destruct (negb _); [reflexivity|].
  destruct (read_be_u32 bb c2) as [[code c3]|] eqn:E3; [|reflexivity].
  replace (get_random_at dr es w checks bb c c3) with (get_random dr es bb c c3); [reflexivity|].
  unfold get_random_at, get_random.
  destruct (read_be_u16 bb c3) as [[req c4]|] eqn:E4; [|reflexivity].
  pose proof (read_be_range 2 bb _ _ _ Hb E4) as R4. change (pow256 2) with 65536 in R4.
  rewrite usize_at_u32 by (lia || assumption). rewrite Z_N_nat.
  rewrite write_callback_at_eq.
  - destruct (write_callback bb c4 (Z.to_nat req) (get_random_or_failure dr es c)) as [[[c' r] cur]|]; reflexivity.
  - assumption.
  - apply read_be_offset in E1, E2, E3, E4. rewrite E4, E3, E2, E1. reflexivity.
  - lia.
Qed.

(** ** C90 *)

(** A [usize] of 32 bits or any more makes no difference to the encoding and
    decoding of any library type. *)
Theorem c90_codec w t : 32 <= w -> In t base_types ->
  (forall buf, unmarshal_at w t buf = unmarshal t buf)
  /\ (forall v buf, representable t v = true -> marshal_at w t v buf = marshal t v buf).
Proof.
  intros Hw Hin. pose proof (base_lengths t w Hw Hin). pose proof (base_type_wf t Hin).
  split; intros; [apply unmarshal_at_all|apply marshal_at_all]; auto; lia.
Qed.

(** The same for any type whose length fields fit: this is what a type from
    outside the library has to observe. *)
Theorem c90_codec_any w t : 0 <= w -> wf_ty t = true -> lengths_fit w t = true ->
  (forall buf, unmarshal_at w t buf = unmarshal t buf)
  /\ (forall v buf, representable t v = true -> marshal_at w t v buf = marshal t v buf).
Proof.
  intros. split; intros; [apply unmarshal_at_all|apply marshal_at_all]; auto.
Qed.

(** Nor to what a call of the client sends, does to the connection and returns. *)
Theorem c90_client w {S E} (from_tss : Z -> E) (tpm : connection S E) s c cmd handles a :
  32 <= w -> wf_command c ->
  lengths_fit w (cmd_ty c) = true -> lengths_fit w (handles_ty c) = true ->
  lengths_fit w (resp_ty c) = true -> lengths_fit w (resp_handles_ty c) = true ->
  representable (cmd_ty c) cmd = true -> representable (handles_ty c) handles = true ->
  run_command_with_handles_at w from_tss tpm s c cmd handles a
  = run_command_with_handles from_tss tpm s c cmd handles a.
Proof.
  intros Hw (_ & Wc & Wh & Wr & Wrh) Fc Fh Fr Frh Rc Rh.
  assert (Eb : build_command_at w c cmd handles a = build_command c cmd handles a).
  { unfold build_command_at, build_command.
    match goal with |- (let (_, _) := ?X in _) = (let (_, _) := ?Y in _) => replace X with Y; [reflexivity|] end.
    apply cthen_ext. intros n b.
    rewrite (cseq_ext (fun b => tss_err (marshal_at w (handles_ty c) handles b))
                      (fun b => tss_err (marshal (handles_ty c) handles b))).
    2:{ intros. rewrite (proj1 (marshal_at_all w ltac:(lia))) by assumption. reflexivity. }
    apply cthen_ext. intros. apply cthen_ext. intros. apply cseq_ext. intros.
    rewrite (proj1 (marshal_at_all w ltac:(lia))) by assumption. reflexivity. }
  unfold run_command_with_handles_at, run_command_with_handles. rewrite Eb.
  destruct (build_command c cmd handles a) as [bytes|e|]; [|reflexivity..].
  destruct (transact tpm s bytes (repeat x00 RESP_BUFFER_SIZE)) as [[s' rsp] [n|e|]]; [|reflexivity..].
  f_equal. f_equal. unfold parse_response_at, parse_response.
  destruct (read_response_header rsp) as [[[tag size] read]|e|] eqn:Eh; [|reflexivity..].
  cbn [obind]. apply header_size_range in Eh.
  rewrite usize_at_u32 by assumption. rewrite usize_u32 by assumption.
  destruct (_ <? _)%N; [reflexivity|]. destruct (_ <? _)%N; [reflexivity|].
  rewrite (proj1 (unmarshal_at_all w ltac:(lia))) by assumption.
  destruct (unmarshal (resp_handles_ty c) _) as [rh u1].
  destruct rh; cbn [omap_err obind]; try reflexivity.
  destruct (if tag =? st_Sessions then unm_int false 4 u1 else (Ok 0, u1)) as [rp u2].
  destruct rp; cbn [omap_err obind]; try reflexivity.
  rewrite (proj1 (unmarshal_at_all w ltac:(lia))) by assumption. reflexivity.
Qed.

(** Nor to what the command processor does, with and without overflow checks. *)
Theorem c90_server w checks {D X} (dr : Drbg D) (es : EntropySource X) c k :
  32 <= w -> serve_at w checks dr es c k = serve dr es c k.
Proof.
  intros Hw. assert (Hr : forall buf off n l, slice_read buf off n = Some l -> (length l <= n)%nat).
  { intros buf off n l. unfold slice_read. destruct (_ <=? _)%nat; [|discriminate]. intros [= <-].
    rewrite firstn_length. lia. }
  destruct k; cbn [serve_at serve].
  - unfold execute_command_separate_at, execute_command_separate. rewrite execute_command_at_eq; auto.
    intros b off n l. apply Hr.
  - unfold execute_command_in_place_at, execute_command_in_place. rewrite execute_command_at_eq; auto.
    intros b off n l. cbn [request_read inout]. destruct (snd b <? off + n)%nat; [discriminate|]. apply Hr.
Qed.

Lemma refused_at_16 {D X} (dr : Drbg D) (es : EntropySource X) {B} (bb : buffers B) c cur cur' :
  read_be_u16 bb cur = Some (65535, cur') -> response_offset cur' = 10%nat -> length (response bb (bufs cur')) = 12%nat ->
  get_random_at dr es 16 false bb c cur = get_random dr es bb c cur.
Proof.
  intros E Ho Hl. unfold get_random_at, get_random. rewrite E.
  replace (N.to_nat (usize_at 16 65535)) with (Z.to_nat 65535) by reflexivity.
  remember (Z.to_nat 65535) as n eqn:En. assert (Hn : Z.of_nat n = 65535) by (rewrite En; apply Z2Nat.id; lia). clear En.
  unfold write_callback_at, slice_write_callback_at, add_at, write_callback, slice_write_callback. rewrite Ho, Hl.
  replace (Z.of_nat 10 + Z.of_nat n) with 65545 by lia. change (65545 <? 2 ^ 16) with false. cbn iota.
  change (Z.to_nat (65545 mod 2 ^ 16)) with 9%nat. cbn [Nat.leb andb].
  destruct (Nat.leb_spec (10 + n) 12); [lia|]. reflexivity.
Qed.

(** With 16 bits it would: a count of 65537 is taken for 1; a request whose
    header states 65548 bytes is taken for one of the 12 that it has; and adding
    up the size of a random number overflows: a panic, or without overflow checks
    the refusal that it should be. *)
Theorem c90_sixteen_bits :
  (exists buf v, unmarshal TpmlHandle buf = (Err ArrayLengthExceeded, skipn 4 buf)
      /\ unmarshal_at 16 TpmlHandle buf = (Ok v, []))
  /\ (exists request resp, snd (serve FakeDrbg FakeEntropy fake (Separate request resp)) = Ok 10%nat
      /\ is_success (snd (fst (serve FakeDrbg FakeEntropy fake (Separate request resp)))) = false
      /\ is_success (snd (fst (serve_at 16 false FakeDrbg FakeEntropy fake (Separate request resp)))) = true)
  /\ (exists request resp, snd (serve FakeDrbg FakeEntropy fake (Separate request resp)) = Ok 10%nat
      /\ snd (serve_at 16 true FakeDrbg FakeEntropy fake (Separate request resp)) = Panic
      /\ serve_at 16 false FakeDrbg FakeEntropy fake (Separate request resp)
         = serve FakeDrbg FakeEntropy fake (Separate request resp)).
Proof.
  split; [|split].
  - exists [x00; x01; x00; x01; x80; x00; x00; x00].
    eexists. split; [reflexivity|]. vm_compute. reflexivity.
  - exists [x80; x01; x00; x01; x00; x0c; x00; x00; x01; x7b; x00; x02], (repeat xaa 12).
    repeat split; vm_compute; reflexivity.
  - exists [x80; x01; x00; x00; x00; x0c; x00; x00; x01; x7b; xff; xff], (repeat x00 12).
    split; [vm_compute; reflexivity|]. split; [vm_compute; reflexivity|].
    unfold serve_at, serve, execute_command_separate_at, execute_command_separate, execute_command_at, execute_command.
    destruct (read_be_u16 _ _) as [[t c1]|] eqn:E1; [|reflexivity]. vm_compute in E1. injection E1 as <- <-.
    destruct (read_be_u32 _ _) as [[n c2]|] eqn:E2; [|reflexivity]. vm_compute in E2. injection E2 as <- <-.
    match goal with |- context [negb ?x] => change (negb x) with false end. 
    match goal with |- context [negb ?x] => change (negb x) with false end. cbn iota.
    destruct (read_be_u32 _ _) as [[code c3]|] eqn:E3; [|reflexivity]. vm_compute in E3. injection E3 as <- <-.
    erewrite refused_at_16; [reflexivity|vm_compute; reflexivity..].
Qed.

(** The library's commands meet the hypotheses, and the length of a list is used. *)
Example c90_example :
  Forall (fun c => wf_command c /\ lengths_fit 32 (cmd_ty c) = true /\ lengths_fit 32 (handles_ty c) = true
     /\ lengths_fit 32 (resp_ty c) = true /\ lengths_fit 32 (resp_handles_ty c) = true) library_commands
  /\ In TpmlHandle base_types /\ lengths_fit 16 TpmlHandle = false
  /\ fst (unmarshal_at 32 TpmlHandle [x00; x01; x00; x01; x80; x00; x00; x00]) = Err ArrayLengthExceeded
  /\ serve_at 32 true FakeDrbg FakeEntropy fake (Separate get12 (repeat x00 22))
     = serve FakeDrbg FakeEntropy fake (Separate get12 (repeat x00 22)).
Proof.
  split; [|split; [in_base|vm_compute; auto]].
  repeat constructor; vm_compute; congruence.
Qed.
