(** Sizes in memory (C76).  The capacities of several sized buffers are
    [size_of] of a structure; Layout.v computes it.  The specification here is
    the layout of repr(C) as the Rust reference gives it (type layout, "The C
    representation" and "repr(C) enums with fields"): members in order, each at
    the next multiple of its alignment, the whole padded to a multiple of the
    largest alignment. *)
From Coq Require Import String ZArith NArith List Lia Bool.
From Coq Require Import Init.Byte.
From Verif Require Import Prelude Types Marshal WireSpec Layout Catalogue MarshalFacts.
Import ListNotations.
Open Scope N_scope.

(** [y] is the next multiple of [a] from [x] on. *)
Definition next_multiple (a x y : N) : Prop := N.divide a y /\ x <= y /\ y < x + a.

(** From offset [x] on, members of the given sizes and alignments end at [e]. *)
Inductive placed : N -> list (N * N) -> N -> Prop :=
| P_nil x : placed x [] x
| P_cons x sz al off rest e :
    next_multiple al x off -> placed (off + sz) rest e -> placed x ((sz, al) :: rest) e.

Definition largest (l : list N) : N := fold_right N.max 1 l.

(** struct { ... } and union { ... } of members with these sizes and
    alignments. *)
Definition c_struct (members : list (N * N)) (size al : N) : Prop :=
  exists e, placed 0 members e /\ al = largest (map snd members) /\ next_multiple al e size.
Definition c_union (members : list (N * N)) (size al : N) : Prop :=
  al = largest (map snd members)
  /\ next_multiple al (fold_right N.max 0 (map fst members)) size.

(** The size and alignment of a type. *)
Inductive in_memory : ty -> N * N -> Prop :=
| M_int sg k : in_memory (TInt sg k) (N.of_nat k, N.of_nat k)
| M_unit : in_memory TUnit (0, 1)
| M_bytes n : in_memory (TBytes n) (n, 1)
| M_named fs ms size al : members fs ms -> c_struct ms size al -> in_memory (TNamed fs) (size, al)
| M_tuple ts ms size al : elements ts ms -> c_struct ms size al -> in_memory (TTuple ts) (size, al)
| M_enum k vrs m : tagged k vrs m -> in_memory (TEnum k vrs) m
| M_tpm2b max size al : c_struct [(2, 2); (max, 1)] size al -> in_memory (TTpm2b max) (size, al)
| M_split pre k mid vrs a b m size al :
    elements pre a -> elements mid b -> tagged k vrs m ->
    c_struct (a ++ b ++ [m]) size al -> in_memory (TSplit pre k mid vrs) (size, al)
(** The members of a struct; an array is as large as its elements. *)
with members : fields -> list (N * N) -> Prop :=
| Ms_nil : members FNil []
| Ms_plain name t m rest ms : in_memory t m -> members rest ms ->
    members (FCons name KPlain t rest) (m :: ms)
| Ms_arr name n t sz al rest ms : in_memory t (sz, al) -> members rest ms ->
    members (FCons name (KArr n) t rest) ((n * sz, al) :: ms)
| Ms_len name n len d t sz al rest ms : in_memory t (sz, al) -> members rest ms ->
    members (FCons name (KLen n len d) t rest) ((n * sz, al) :: ms)
with elements : tys -> list (N * N) -> Prop :=
| Es_nil : elements TNil []
| Es_cons t m rest ms : in_memory t m -> elements rest ms -> elements (TCons t rest) (m :: ms)
(** An enum with fields: a struct of the tag and the union of the structs of
    its variants. *)
with tagged : nat -> variants -> N * N -> Prop :=
| Tagged k vrs us usize ual size al :
    structs vrs us -> c_union us usize ual ->
    c_struct [(N.of_nat k, N.of_nat k); (usize, ual)] size al -> tagged k vrs (size, al)
with structs : variants -> list (N * N) -> Prop :=
| Ss_nil : structs VNil []
| Ss_cons s ts ms size al rest us :
    elements ts ms -> c_struct ms size al -> structs rest us -> structs (VCons s ts rest) ((size, al) :: us).

Lemma align_up_next x a : 0 < a -> next_multiple a x (align_up x a).
Proof.
  intros Ha. unfold next_multiple, align_up. rewrite N.max_r by lia.
  pose proof (N.div_mod (x + a - 1) a ltac:(lia)) as D. pose proof (N.mod_lt (x + a - 1) a ltac:(lia)) as L.
  split; [exists ((x + a - 1) / a); reflexivity|]. nia.
Qed.
Lemma next_unique a x y z : next_multiple a x y -> next_multiple a x z -> y = z.
Proof. intros ((p & ->) & A & B) ((q & ->) & C & D). destruct (N.lt_trichotomy p q) as [L|[->|L]]; [exfalso|reflexivity|exfalso]; nia. Qed.

Lemma placed_app x a y b z : placed x a y -> placed y b z -> placed x (a ++ b) z.
Proof. induction 1; cbn; intros; [assumption|]. econstructor; eauto. Qed.
Lemma largest_pos l : 0 < largest l.
Proof. unfold largest. induction l; cbn; lia. Qed.
Lemma largest_app a b : largest (a ++ b) = N.max (largest a) (largest b).
Proof.
  induction a as [|x a IH]; cbn [app].
  - change (largest []) with 1. pose proof (largest_pos b). lia.
  - unfold largest in *. cbn [fold_right]. rewrite IH. lia.
Qed.
Lemma largest_cons x l : largest (x :: l) = N.max x (largest l).
Proof. reflexivity. Qed.

Definition pos_al (m : N * N) : Prop := 0 < snd m.

Lemma layout_c :
  (forall t, wf_ty t = true -> in_memory t (layout t) /\ 0 < snd (layout t))
  /\ (forall fs names, wf_ty_fields names fs = true ->
        exists ms, members fs ms /\ forall off al, 0 < al ->
          placed off ms (fst (layout_fields fs off al))
          /\ snd (layout_fields fs off al) = N.max al (largest (map snd ms)))
  /\ (forall ts, wf_ty_tys ts = true ->
        exists ms, elements ts ms /\ forall off al, 0 < al ->
          placed off ms (fst (layout_tys ts off al))
          /\ snd (layout_tys ts off al) = N.max al (largest (map snd ms)))
  /\ (forall vrs k, wf_ty_variants k vrs = true ->
        exists us, structs vrs us
          /\ snd (layout_variants vrs) = largest (map snd us)
          /\ fst (layout_variants vrs) = fold_right N.max 0 (map fst us)).
Proof.
  assert (TG : forall k vrs, int_width k = true ->
    (exists us, structs vrs us /\ snd (layout_variants vrs) = largest (map snd us)
          /\ fst (layout_variants vrs) = fold_right N.max 0 (map fst us)) ->
    let usz := fst (layout_variants vrs) in let ual := snd (layout_variants vrs) in
    let al := N.max (N.of_nat k) ual in
    tagged k vrs (align_up (align_up (N.of_nat k) ual + align_up usz ual) al, al) /\ 0 < al).
  { intros k vrs Hk (us & Hs & Ha & Hz). cbn zeta. rewrite Ha, Hz. clear Ha Hz.
    set (ual := largest (map snd us)). set (usz := fold_right N.max 0 (map fst us)).
    assert (Hu : 0 < ual) by apply largest_pos.
    assert (Hk' : 0 < N.of_nat k).
    { unfold int_width in Hk. repeat (apply orb_true_iff in Hk as [Hk|Hk]); apply Nat.eqb_eq in Hk as ->; lia. }
    split; [|lia].
    apply (Tagged k vrs us (align_up usz ual) ual).
    - exact Hs.
    - split; [reflexivity|]. apply align_up_next. exact Hu.
    - exists (align_up (N.of_nat k) ual + align_up usz ual). split; [|split].
      + apply (P_cons 0 _ _ 0). { split; [apply N.divide_0_r|lia]. }
        rewrite N.add_0_l. econstructor; [apply align_up_next; exact Hu|]. constructor.
      + cbn [map snd]. unfold largest at 1. cbn [fold_right]. lia.
      + apply align_up_next. lia. }
  apply ty_mutind.
  - intros sg k Ht. cbn [wf_ty] in Ht. cbn [layout snd]. split; [constructor|].
    unfold int_width in Ht. repeat (apply orb_true_iff in Ht as [Ht|Ht]); apply Nat.eqb_eq in Ht as ->; lia.
  - intros _. split; [constructor|cbn; lia].
  - intros n _. split; [constructor|cbn; lia].
  - intros fs IH Ht. destruct (IH [] Ht) as (ms & Hm & HP). destruct (HP 0 1 ltac:(lia)) as (P & A).
    cbn [layout]. destruct (layout_fields fs 0 1) as [off al]. cbn [fst snd] in *.
    pose proof (largest_pos (map snd ms)). split; [|lia].
    apply (M_named fs ms); [exact Hm|]. exists off. split; [exact P|]. split; [lia|]. apply align_up_next. lia.
  - intros ts IH Ht. destruct (IH Ht) as (ms & Hm & HP). destruct (HP 0 1 ltac:(lia)) as (P & A).
    cbn [layout]. destruct (layout_tys ts 0 1) as [off al]. cbn [fst snd] in *.
    pose proof (largest_pos (map snd ms)). split; [|lia].
    apply (M_tuple ts ms); [exact Hm|]. exists off. split; [exact P|]. split; [lia|]. apply align_up_next. lia.
  - intros k vrs IH Ht. cbn [wf_ty] in Ht. apply andb_true_iff in Ht as (Hk & Ht).
    destruct (TG k vrs Hk (IH k Ht)) as (T & A). cbn [layout].
    destruct (layout_variants vrs) as [usz ual]. cbn [fst snd] in *. split; [constructor; exact T|exact A].
  - intros max _. cbn [layout snd]. split; [|lia]. constructor. exists (2 + max). split; [|split].
    + apply (P_cons 0 2 2 0). { split; [apply N.divide_0_r|lia]. }
      rewrite N.add_0_l. apply (P_cons 2 max 1 2). { split; [apply N.divide_1_l|lia]. } constructor.
    + reflexivity.
    + apply align_up_next. lia.
  - intros pre IHp k mid IHm vrs IHv Ht. cbn [wf_ty] in Ht.
    apply andb_true_iff in Ht as (Ht & Hv). apply andb_true_iff in Ht as (Ht & Hk). apply andb_true_iff in Ht as (Hp & Hm).
    destruct (IHp Hp) as (a & Ea & PA). destruct (PA 0 1 ltac:(lia)) as (P1 & A1).
    destruct (IHm Hm) as (b & Eb & PB).
    destruct (TG k vrs Hk (IHv k Hv)) as (T & AT). cbn [layout].
    destruct (layout_tys pre 0 1) as [off1 al1]. cbn [fst snd] in P1, A1.
    pose proof (largest_pos (map snd a)). destruct (PB off1 al1 ltac:(lia)) as (P2 & A2).
    destruct (layout_tys mid off1 al1) as [off2 al2]. cbn [fst snd] in P2, A2.
    destruct (layout_variants vrs) as [usz ual]. cbn [fst snd] in T, AT. cbn [snd].
    split; [|lia]. eapply M_split; [exact Ea|exact Eb|exact T|].
    eexists. split; [|split].
    + apply (placed_app _ a off1); [exact P1|]. apply (placed_app _ b off2); [exact P2|].
      econstructor; [apply align_up_next; exact AT|constructor].
    + rewrite !map_app, !largest_app. cbn [map snd]. rewrite largest_cons. change (largest []) with 1. lia.
    + apply align_up_next. lia.
  - intros names _. exists []. split; [constructor|]. intros off al Ha. cbn. split; [constructor|lia].
  - intros name kd t IHt fs IHfs names Ht. cbn [wf_ty_fields] in Ht.
    apply andb_true_iff in Ht as (Ht & Hfs). apply andb_true_iff in Ht as (Ht & _).
    destruct (IHt Ht) as (M & A). destruct (IHfs _ Hfs) as (ms & Hm & HP).
    destruct (layout t) as [sz a] eqn:El. cbn [snd] in A.
    exists ((kmul kd sz, a) :: ms). split.
    + destruct kd; cbn [kmul]; econstructor; eassumption.
    + intros off al Ha. cbn [layout_fields]. rewrite El.
      destruct (HP (align_up off a + kmul kd sz) (N.max al a) ltac:(lia)) as (P & Q). split.
      * econstructor; [apply align_up_next; exact A|exact P].
      * rewrite Q. cbn [map snd]. rewrite largest_cons. lia.
  - intros _. exists []. split; [constructor|]. intros off al Ha. cbn. split; [constructor|lia].
  - intros t IHt ts IHts Ht. cbn [wf_ty_tys] in Ht. apply andb_true_iff in Ht as (Ht & Hts).
    destruct (IHt Ht) as (M & A). destruct (IHts Hts) as (ms & Hm & HP).
    destruct (layout t) as [sz a] eqn:El. cbn [snd] in A.
    exists ((sz, a) :: ms). split; [constructor; assumption|].
    intros off al Ha. cbn [layout_tys]. rewrite El.
    destruct (HP (align_up off a + sz) (N.max al a) ltac:(lia)) as (P & Q). split.
    + econstructor; [apply align_up_next; exact A|exact P].
    + rewrite Q. cbn [map snd]. rewrite largest_cons. lia.
  - intros k _. exists []. split; [constructor|]. split; reflexivity.
  - intros s ts IHts vrs IHv k Ht. cbn [wf_ty_variants] in Ht.
    apply andb_true_iff in Ht as (Ht & Hv). apply andb_true_iff in Ht as (_ & Ht).
    destruct (IHts Ht) as (ms & Hm & HP). destruct (HP 0 1 ltac:(lia)) as (P & A).
    destruct (IHv k Hv) as (us & Hs & Ha & Hz). cbn [layout_variants].
    destruct (layout_tys ts 0 1) as [off al]. destruct (layout_variants vrs) as [sz al']. cbn [fst snd] in *.
    pose proof (largest_pos (map snd ms)).
    exists ((align_up off al, al) :: us). split; [|split].
    + apply (Ss_cons s ts ms); [exact Hm| |exact Hs]. exists off. split; [exact P|]. split; [lia|]. apply align_up_next. lia.
    + cbn [map snd]. rewrite largest_cons, Ha. reflexivity.
    + cbn [map fst fold_right]. rewrite Hz. reflexivity.
Qed.

Lemma placed_unique x a : forall y z, placed x a y -> placed x a z -> y = z.
Proof.
  intros y z H. revert z. induction H as [|x sz al off rest e N H IH]; intros z H2; inversion H2; subst; [reflexivity|].
  match goal with K : next_multiple _ _ ?o |- _ => pose proof (next_unique _ _ _ _ N K); subst o end. eauto.
Qed.
Lemma c_struct_unique ms s a s' a' : c_struct ms s a -> c_struct ms s' a' -> s = s' /\ a = a'.
Proof.
  intros (e & P & -> & N) (e' & P' & -> & N'). pose proof (placed_unique _ _ _ _ P P'). subst e'.
  split; [eapply next_unique; eassumption|reflexivity].
Qed.
Lemma c_union_unique ms s a s' a' : c_union ms s a -> c_union ms s' a' -> s = s' /\ a = a'.
Proof. intros (-> & N) (-> & N'). split; [eapply next_unique; eassumption|reflexivity]. Qed.

Lemma in_memory_unique :
  (forall t m m', in_memory t m -> in_memory t m' -> m = m')
  /\ (forall fs m m', members fs m -> members fs m' -> m = m')
  /\ (forall ts m m', elements ts m -> elements ts m' -> m = m')
  /\ (forall vrs m m', structs vrs m -> structs vrs m' -> m = m').
Proof.
  assert (TG : forall k vrs, (forall m m', structs vrs m -> structs vrs m' -> m = m') ->
            forall m m', tagged k vrs m -> tagged k vrs m' -> m = m').
  { intros k vrs IH m m' H H'. inversion H; inversion H'; subst.
    match goal with A : structs vrs ?x, B : structs vrs ?y |- _ => pose proof (IH _ _ A B); subst x end.
    match goal with A : c_union _ _ _, B : c_union _ _ _ |- _ => destruct (c_union_unique _ _ _ _ _ A B); subst end.
    match goal with A : c_struct _ _ _, B : c_struct _ _ _ |- _ => destruct (c_struct_unique _ _ _ _ _ A B); subst end.
    reflexivity. }
  apply ty_mutind.
  - intros sg k m m' H H'; inversion H; inversion H'; subst; reflexivity.
  - intros m m' H H'; inversion H; inversion H'; subst; reflexivity.
  - intros n m m' H H'; inversion H; inversion H'; subst; reflexivity.
  - intros fs IH m m' H H'; inversion H; inversion H'; subst.
    match goal with A : members fs ?x, B : members fs ?y |- _ => pose proof (IH _ _ A B); subst x end.
    match goal with A : c_struct _ _ _, B : c_struct _ _ _ |- _ => destruct (c_struct_unique _ _ _ _ _ A B); subst end. reflexivity.
  - intros ts IH m m' H H'; inversion H; inversion H'; subst.
    match goal with A : elements ts ?x, B : elements ts ?y |- _ => pose proof (IH _ _ A B); subst x end.
    match goal with A : c_struct _ _ _, B : c_struct _ _ _ |- _ => destruct (c_struct_unique _ _ _ _ _ A B); subst end. reflexivity.
  - intros k vrs IH m m' H H'. inversion H; inversion H'; subst. eapply TG; eassumption.
  - intros max m m' H H'; inversion H; inversion H'; subst.
    match goal with A : c_struct _ _ _, B : c_struct _ _ _ |- _ => destruct (c_struct_unique _ _ _ _ _ A B); subst end. reflexivity.
  - intros pre IHp k mid IHm vrs IHv m m' H H'; inversion H; inversion H'; subst.
    match goal with A : elements pre ?x, B : elements pre ?y |- _ => pose proof (IHp _ _ A B); subst x end.
    match goal with A : elements mid ?x, B : elements mid ?y |- _ => pose proof (IHm _ _ A B); subst x end.
    match goal with A : tagged k vrs ?x, B : tagged k vrs ?y |- _ => pose proof (TG k vrs IHv _ _ A B); subst x end.
    match goal with A : c_struct _ _ _, B : c_struct _ _ _ |- _ => destruct (c_struct_unique _ _ _ _ _ A B); subst end. reflexivity.
  - intros m m' H H'; inversion H; inversion H'; subst; reflexivity.
  - intros name kd t IHt fs IHfs m m' H H'; inversion H; subst; inversion H'; subst;
      match goal with A : in_memory t ?x, B : in_memory t ?y |- _ => pose proof (IHt _ _ A B) as E; try injection E as E1 E2; subst end;
      match goal with A : members fs ?x, B : members fs ?y |- _ => pose proof (IHfs _ _ A B); subst end; reflexivity.
  - intros m m' H H'; inversion H; inversion H'; subst; reflexivity.
  - intros t IHt ts IHts m m' H H'; inversion H; subst; inversion H'; subst.
    match goal with A : in_memory t ?x, B : in_memory t ?y |- _ => pose proof (IHt _ _ A B); subst end.
    match goal with A : elements ts ?x, B : elements ts ?y |- _ => pose proof (IHts _ _ A B); subst end. reflexivity.
  - intros m m' H H'; inversion H; inversion H'; subst; reflexivity.
  - intros s ts IHts vrs IHv m m' H H'; inversion H; subst; inversion H'; subst.
    match goal with A : elements ts ?x, B : elements ts ?y |- _ => pose proof (IHts _ _ A B); subst end.
    match goal with A : structs vrs ?x, B : structs vrs ?y |- _ => pose proof (IHv _ _ A B); subst end.
    match goal with A : c_struct _ _ _, B : c_struct _ _ _ |- _ => destruct (c_struct_unique _ _ _ _ _ A B); subst end. reflexivity.
Qed.

(** ** C76 *)
(** Every type has exactly one size and alignment in memory, and its size is the
    one that the capacities of the library are computed with. *)
Theorem c76_size t size al :
  wf_ty t = true -> in_memory t (size, al) -> size_of t = size.
Proof.
  intros Ht H. destruct (proj1 layout_c t Ht) as (M & _).
  pose proof (proj1 in_memory_unique t _ _ M H) as E. unfold size_of. rewrite E. reflexivity.
Qed.
Theorem c76_exists t : wf_ty t = true -> exists al, in_memory t (size_of t, al).
Proof.
  intros Ht. destruct (proj1 layout_c t Ht) as (M & _). exists (snd (layout t)). unfold size_of.
  destruct (layout t). exact M.
Qed.

(** So for a sized buffer around a structure: the room it has is the size of the
    structure in memory, which holds every value on the wire. *)
Theorem c76_capacities :
  forall t max, In (t, max) [(TpmtHa, Tpm2bName); (TpmsAttest, Tpm2bAttest); (TpmsSensitiveCreate, Tpm2bSensitiveCreate);
                  (TpmtPublic, Tpm2bPublic); (TpmtPublic, Tpm2bTemplate); (TpmsCreationData, Tpm2bCreationData);
                  (TpmsIdObject, Tpm2bIdObject); (TpmsContextData, Tpm2bContextData)] ->
  exists size al, in_memory t (size, al) /\ max = TTpm2b size
    /\ forall v, wf t v = true -> (N.of_nat (length (enc t v)) <= size)%N.
Proof.
  intros t max H.
  assert (K : In t base_types /\ max = TTpm2b (size_of t)).
  { repeat (destruct H as [E|H]; [injection E as <- <-; split; [in_base|reflexivity]|]). destruct H. }
  destruct K as (Hb & ->). pose proof (base_type_wf t Hb) as Ht.
  destruct (c76_exists t Ht) as (al & M). exists (size_of t), al. split; [exact M|]. split; [reflexivity|].
  intros v. apply enc_size_of.
Qed.

(** *** The hypotheses can be met *)
Example c76_example :
  in_memory TpmtHa (66, 2) /\ size_of TpmtHa = 66 /\ wf_ty TpmtHa = true
  /\ in_memory TpmsClockInfo (24, 8).
Proof.
  assert (A : in_memory TpmtHa (layout TpmtHa)) by (apply (proj1 layout_c TpmtHa); reflexivity).
  assert (B : in_memory TpmsClockInfo (layout TpmsClockInfo)) by (apply (proj1 layout_c TpmsClockInfo); reflexivity).
  split; [exact A|]. split; [reflexivity|]. split; [reflexivity|exact B].
Qed.
