(** Proofs about the macro of Derive.v and the code it generates. *)
From Coq Require Import Decimal DecimalString DecimalNat FinFun.
From Coq Require Import String ZArith NArith List Lia Bool.
From Coq Require Import Init.Byte.
From Verif Require Import Prelude Types Marshal Derive DeriveRun DeriveSpec.
Import ListNotations.
Local Open Scope string_scope.
Local Open Scope list_scope.
Open Scope Z_scope.

(** ** Small things *)
Lemma is_ident_spec p s : is_ident p s = true <-> p = [s].
Proof.
  destruct p as [|x [|y p]]; cbn; split; intros H; try discriminate.
  - apply String.eqb_eq in H. now subst.
  - injection H as ->. apply String.eqb_refl.
Qed.
Lemma is_ident_false p s : is_ident p s = false <-> p <> [s].
Proof. rewrite <- not_true_iff_false, is_ident_spec. reflexivity. Qed.
Lemma in_names x l : existsb (String.eqb x) l = true <-> In x l.
Proof.
  rewrite existsb_exists. split.
  - intros (y & Hy & E). apply String.eqb_eq in E. now subst.
  - intros H. exists x. split; [exact H|apply String.eqb_refl].
Qed.

Lemma var_inj i j : var i = var j -> i = j.
Proof.
  unfold var. cbn [String.append]. intros H. injection H as H.
  assert (E : Some (Nat.to_uint i) = Some (Nat.to_uint j)).
  { rewrite <- (NilEmpty.usu (Nat.to_uint i)), <- (NilEmpty.usu (Nat.to_uint j)). now rewrite H. }
  injection E as E. now apply Unsigned.to_uint_inj.
Qed.
Lemma var_buffer i : var i <> "buffer".
Proof. unfold var. cbn [String.append]. intros H. discriminate H. Qed.
Lemma vars_length {A} (fs : list A) : length (vars fs) = length fs.
Proof. unfold vars. now rewrite map_length, seq_length. Qed.
Lemma vars_nodup {A} (fs : list A) : NoDup (vars fs).
Proof.
  unfold vars. apply FinFun.Injective_map_NoDup; [exact var_inj|apply seq_NoDup].
Qed.

(** ** Field attributes *)
Definition attrs_of (l : list field_attr) : list field_attr :=
  filter (fun a => match a with FOther => false | _ => true end) l.

Lemma find_attr_some a l :
  find_attr (Some a) l = match attrs_of l with [] => Ok (Some a) | _ => Err TwoAttributes end.
Proof. induction l as [|[| |k v] l IH]; cbn; try reflexivity. exact IH. Qed.
Lemma find_attr_none l :
  find_attr None l = match attrs_of l with
                     | [] => Ok None
                     | [FNameValue k v] => Ok (Some (k, v))
                     | FNameValue _ _ :: _ => Err TwoAttributes
                     | _ => Err BadAttribute
                     end.
Proof.
  induction l as [|[| |k v] l IH]; cbn [find_attr attrs_of filter]; try reflexivity.
  - exact IH.
  - rewrite find_attr_some. fold (attrs_of l). destruct (attrs_of l); reflexivity.
Qed.

Lemma gma_none l key : get_marshal_attribute l key = Ok None <-> attrs_of l = [].
Proof.
  unfold get_marshal_attribute. rewrite find_attr_none.
  destruct (attrs_of l) as [|[| |k v] [|b r]]; cbn; split; intros H; try discriminate; try reflexivity.
  destruct (is_ident k key); cbn in H; [|discriminate].
  destruct v as [p [] []|]; discriminate.
Qed.
Lemma gma_some l p :
  get_marshal_attribute l "length" = Ok (Some p)
  <-> attrs_of l = [FNameValue ["length"] (EPath p false false)].
Proof.
  unfold get_marshal_attribute. rewrite find_attr_none.
  destruct (attrs_of l) as [|[| |k v] [|b r]]; cbn [obind]; split; intros H; try discriminate.
  - destruct (is_ident k "length") eqn:E; cbn in H; [|discriminate]. apply is_ident_spec in E.
    destruct v as [q [] []|]; cbn in H; try discriminate. now injection H as ->; subst.
  - injection H as -> ->. reflexivity.
Qed.

(** ** Acceptance of named fields *)
Fixpoint ok_from (basic : list string) (fs : list field) : Prop :=
  match fs with
  | [] => True
  | f :: fs =>
      no_length f
      /\ (is_array f /\ ok_from basic fs \/ ~ is_array f /\ ok_from (f_name f :: basic) fs)
      \/ is_array f /\ (exists x, has_length f x /\ In x basic) /\ ok_from basic fs
  end.

Lemma is_array_dec f : is_array f \/ ~ is_array f.
Proof.
  unfold is_array. destruct (f_ty f) as [p t|n e d|t];
    [right|left; eauto|right]; intros (a & b & c & H); discriminate.
Qed.

Definition basics (before : list field) : list string -> Prop := fun l =>
  forall x, In x l <-> exists g, In g before /\ f_name g = x /\ no_length g /\ ~ is_array g.

Lemma basics_skip before f l : ~ (no_length f /\ ~ is_array f) ->
  basics before l -> basics (before ++ [f]) l.
Proof.
  intros Hf Hb x. rewrite (Hb x). split; intros (g & Hg & E & H1 & H2); exists g.
  - split; [apply in_or_app; now left|auto].
  - apply in_app_or in Hg. destruct Hg as [Hg|[<-|[]]]; [auto|]. now destruct Hf.
Qed.
Lemma basics_add before f l : no_length f -> ~ is_array f ->
  basics before l -> basics (before ++ [f]) (f_name f :: l).
Proof.
  intros H1 H2 Hb x. cbn [In]. rewrite (Hb x). split.
  - intros [<-|(g & Hg & E & A & B)].
    + exists f. split; [apply in_or_app; right; now left|auto].
    + exists g. split; [apply in_or_app; now left|auto].
  - intros (g & Hg & E & A & B). apply in_app_or in Hg. destruct Hg as [Hg|[<-|[]]].
    + right. eauto.
    + now left.
Qed.

Lemma length_not_none f x : has_length f x -> ~ no_length f.
Proof. unfold has_length, no_length. intros H E. rewrite H in E. discriminate. Qed.

Lemma ok_from_spec fs : forall before l, basics before l ->
  (ok_from l fs <-> forall b f a, fs = b ++ f :: a -> field_ok (before ++ b) f).
Proof.
  induction fs as [|f fs IH]; intros before l Hb; cbn [ok_from].
  - split; [|easy]. intros _ b f a H. destruct b; discriminate.
  - assert (Hsplit : (forall b g a, f :: fs = b ++ g :: a -> field_ok (before ++ b) g)
      <-> field_ok before f /\ forall b g a, fs = b ++ g :: a -> field_ok ((before ++ [f]) ++ b) g).
    { split.
      - intros H. split.
        + rewrite <- (app_nil_r before). now apply (H [] f fs).
        + intros b g a E. rewrite <- app_assoc. cbn. apply (H (f :: b) g a). now rewrite E.
      - intros [H0 H] b g a E. destruct b as [|b0 b]; cbn in E; injection E as <- E.
        + now rewrite app_nil_r.
        + specialize (H b g a E). rewrite <- app_assoc in H. exact H. }
    rewrite Hsplit. clear Hsplit. split.
    + intros [[Hn [[Ha Hr]|[Ha Hr]]]|(Ha & (x & Hx & Hin) & Hr)].
      * split; [now left|]. apply (IH (before ++ [f]) l); [|exact Hr].
        apply basics_skip; [tauto|exact Hb].
      * split; [now left|]. apply (IH (before ++ [f]) (f_name f :: l)); [|exact Hr].
        now apply basics_add.
      * split.
        -- right. split; [exact Ha|]. apply Hb in Hin. destruct Hin as (g & Hg & E & A & B).
           exists x, g. auto.
        -- apply (IH (before ++ [f]) l); [|exact Hr]. apply basics_skip; [|exact Hb].
           intros [H _]. now apply (length_not_none f x).
    + intros [[Hn|[Ha (x & g & Hx & Hg & E & A & B)]] H].
      * left. split; [exact Hn|]. destruct (is_array_dec f) as [Ha|Ha]; [left|right]; split; auto.
        -- apply (IH (before ++ [f]) l); [|exact H]. apply basics_skip; [tauto|exact Hb].
        -- apply (IH (before ++ [f]) (f_name f :: l)); [|exact H]. now apply basics_add.
      * right. split; [exact Ha|]. split.
        -- exists x. split; [exact Hx|]. apply Hb. eauto 6.
        -- apply (IH (before ++ [f]) l); [|exact H]. apply basics_skip; [|exact Hb].
           intros [H' _]. now apply (length_not_none f x).
Qed.

Lemma fields_ok_spec fs : fields_ok (Named fs) <-> ok_from [] fs.
Proof.
  cbn [fields_ok]. symmetry. apply (ok_from_spec fs [] []). intros x. cbn. split; [easy|].
  intros (g & [] & _).
Qed.

Lemma each_field_cons {A} (gen : list string -> field -> outcome derr (list string * A)) basic f fs l :
  each_field gen basic (f :: fs) = Ok ([], l)
  <-> exists basic' a l', gen basic f = Ok (basic', a)
      /\ each_field gen basic' fs = Ok ([], l') /\ l = a :: l'.
Proof.
  cbn [each_field]. split.
  - destruct (gen basic f) as [[b a]|e|]; cbn; try discriminate.
    + destruct (each_field gen b fs) as [[es l']|e|] eqn:E; cbn; try discriminate.
      intros H. injection H as -> <-. exists b, a, l'. auto.
    + destruct (each_field gen basic fs) as [[es l']|e'|] eqn:E; cbn; discriminate.
  - intros (b & a & l' & -> & -> & ->). reflexivity.
Qed.

Lemma named_fields_ok {A} (gen : list string -> field -> outcome derr (list string * A)) fs l :
  named_fields gen fs = Ok l <-> each_field gen [] fs = Ok ([], l).
Proof.
  unfold named_fields. destruct (each_field gen [] fs) as [[es l']|e|]; cbn; [|split; discriminate|split; discriminate].
  destruct es as [|e es]; cbn; split; intros H; try discriminate; congruence.
Qed.

(** What the two generators answer. *)
Lemma nfm_plain basic f : no_length f -> ~ is_array f ->
  named_field_marshal basic f = Ok (f_name f :: basic, MOne (PField (f_name f))).
Proof.
  intros H1 H2. unfold named_field_marshal.
  rewrite (proj2 (gma_none (f_attrs f) "length") H1). cbn [obind].
  unfold is_array in H2. destruct (f_ty f) as [p t|n e d|t]; try reflexivity. destruct H2; eauto.
Qed.
Lemma nfm_array basic f n e d : no_length f -> f_ty f = TyArray n e d ->
  named_field_marshal basic f = Ok (basic, MLoop (BConst n) (f_name f)).
Proof.
  intros H1 H2. unfold named_field_marshal.
  rewrite (proj2 (gma_none (f_attrs f) "length") H1), H2. reflexivity.
Qed.
Lemma nfm_length basic f x : has_length f x -> In x basic ->
  named_field_marshal basic f = Ok (basic, MLoop (BSelf x) (f_name f)).
Proof.
  intros H1 H2. unfold named_field_marshal.
  rewrite (proj2 (gma_some (f_attrs f) [x]) H1). cbn [obind]. unfold length_ident. cbn [get_ident].
  rewrite (proj2 (in_names x basic) H2). reflexivity.
Qed.
Lemma nfu_plain basic f : no_length f -> ~ is_array f ->
  named_field_unmarshal basic f = Ok (f_name f :: basic, [ULet (f_name f) (f_ty f)]).
Proof.
  intros H1 H2. unfold named_field_unmarshal.
  rewrite (proj2 (gma_none (f_attrs f) "length") H1). cbn [obind].
  unfold is_array in H2. destruct (f_ty f) as [p t|n e d|t]; try reflexivity. destruct H2; eauto.
Qed.
Lemma nfu_array basic f n e d : no_length f -> f_ty f = TyArray n e d ->
  named_field_unmarshal basic f = Ok (basic, [UArray (f_name f) d n; UFor (f_name f) (BMax n) e]).
Proof.
  intros H1 H2. unfold named_field_unmarshal.
  rewrite (proj2 (gma_none (f_attrs f) "length") H1), H2. reflexivity.
Qed.
Lemma nfu_length basic f x n e d : has_length f x -> In x basic -> f_ty f = TyArray n e d ->
  named_field_unmarshal basic f
  = Ok (basic, [ULimit x n; UArray (f_name f) d n; UFor (f_name f) (BLocal x) e]).
Proof.
  intros H1 H2 H3. unfold named_field_unmarshal.
  rewrite (proj2 (gma_some (f_attrs f) [x]) H1), H3. cbn [obind]. unfold length_ident. cbn [get_ident].
  rewrite (proj2 (in_names x basic) H2). reflexivity.
Qed.
Lemma nfu_inv basic f basic' a : named_field_unmarshal basic f = Ok (basic', a) ->
  no_length f /\ ~ is_array f /\ basic' = f_name f :: basic
  \/ no_length f /\ is_array f /\ basic' = basic
  \/ is_array f /\ (exists x, has_length f x /\ In x basic) /\ basic' = basic.
Proof.
  unfold named_field_unmarshal, is_array.
  destruct (get_marshal_attribute (f_attrs f) "length") as [[p|]|e|] eqn:G; cbn [obind]; try discriminate.
  - apply gma_some in G. destruct (f_ty f) as [q t|n e d|t]; try discriminate.
    unfold length_ident. destruct p as [|x [|y p]]; cbn; try discriminate.
    destruct (existsb (String.eqb x) basic) eqn:E; cbn; try discriminate.
    intros H. injection H as <- <-. apply in_names in E. right. right. split; [eauto|].
    split; [|reflexivity]. exists x. split; assumption.
  - apply gma_none in G. destruct (f_ty f) as [q t|n e d|t]; intros H; injection H as <- <-.
    + left. split; [exact G|]. split; [|reflexivity]. intros (? & ? & ? & E); discriminate.
    + right. left. split; [exact G|]. split; [eauto|reflexivity].
    + left. split; [exact G|]. split; [|reflexivity]. intros (? & ? & ? & E); discriminate.
Qed.

Lemma each_ok fs : forall basic,
  ((exists us, each_field named_field_unmarshal basic fs = Ok ([], us)) <-> ok_from basic fs)
  /\ (ok_from basic fs -> exists ms, each_field named_field_marshal basic fs = Ok ([], ms)).
Proof.
  induction fs as [|f fs IH]; intros basic; cbn [ok_from].
  - split; [split; [easy|]|]; intros _; exists []; reflexivity.
  - split; [split|].
    + intros (us & H). apply each_field_cons in H. destruct H as (b & a & l' & G & H & ->).
      pose proof (proj1 (proj1 (IH b)) (ex_intro _ l' H)) as Hr.
      apply nfu_inv in G. destruct G as [(A & B & ->)|[(A & B & ->)|(A & B & ->)]]; tauto.
    + intros [[Hn [[(n & e & d & E) Hr]|[Ha Hr]]]|((n & e & d & E) & (x & Hx & Hin) & Hr)];
        destruct (proj2 (proj1 (IH _)) Hr) as (us & Hus); eexists; apply each_field_cons;
        eexists; eexists; eexists; (split; [|split; [exact Hus|reflexivity]]).
      * now apply (nfu_array basic f n e d).
      * now apply nfu_plain.
      * now apply (nfu_length basic f x n e d).
    + intros [[Hn [[(n & e & d & E) Hr]|[Ha Hr]]]|((n & e & d & E) & (x & Hx & Hin) & Hr)];
        destruct (proj2 (IH _) Hr) as (us & Hus); eexists; apply each_field_cons;
        eexists; eexists; eexists; (split; [|split; [exact Hus|reflexivity]]).
      * now apply (nfm_array basic f n e d).
      * now apply nfm_plain.
      * now apply (nfm_length basic f x).
Qed.

Lemma field_bodies_ok fs :
  (fields_ok fs -> exists ms us, field_marshal_body fs = Ok ms /\ field_unmarshal fs = Ok us)
  /\ ((exists us, field_unmarshal fs = Ok us) -> fields_ok fs).
Proof.
  destruct fs as [fs|fs|]; [|cbn; split; [eauto|trivial]|cbn; split; [eauto|trivial]].
  rewrite fields_ok_spec. destruct (each_ok fs []) as [H1 H2]. split.
  - intros H. destruct (H2 H) as (ms & Hm). apply H1 in H. destruct H as (us & Hu).
    exists ms, (concat us). cbn [field_marshal_body field_unmarshal].
    rewrite (proj2 (named_fields_ok _ _ _) Hm), (proj2 (named_fields_ok _ _ _) Hu). auto.
  - intros (us & H). cbn [field_unmarshal] in H. apply H1.
    destruct (named_fields named_field_unmarshal fs) as [l|e|] eqn:E; cbn in H; try discriminate.
    exists l. now apply named_fields_ok.
Qed.

(** ** Attributes of the type *)
Definition spelled (name : string) (toks : list token) : Prop :=
  exists others : list (path * bool),
    toks = flat_map (fun o => TkPath (fst o) :: (if snd o : bool then [TkComma] else [])) others
           ++ [TkPath [name]]
    /\ Forall (fun o => fst o <> [name]) others.

Lemma parse_attr_spec name : forall n toks, (length toks <= n)%nat ->
  (parse_attr name toks = true <-> spelled name toks).
Proof.
  induction n as [|n IH]; intros toks Hl.
  - destruct toks; [|cbn in Hl; lia]. cbn. split; [discriminate|].
    intros (o & E & _). destruct (flat_map _ o); discriminate.
  - destruct toks as [|[p| |] toks]; cbn [parse_attr].
    + split; [discriminate|]. intros (o & E & _). destruct (flat_map _ o); discriminate.
    + cbn in Hl. destruct (is_ident p name) eqn:Ep.
      * apply is_ident_spec in Ep. subst p. split.
        -- destruct toks; [|discriminate]. intros _. exists []. split; [reflexivity|constructor].
        -- intros ([|[q c] o] & E & F); cbn in E.
           ++ injection E as ->. reflexivity.
           ++ injection E as E1 E2. inversion_clear F as [|? ? F1 F2]. cbn in F1. congruence.
      * apply is_ident_false in Ep.
        assert (Hno : forall rest, (forall r, rest <> TkComma :: r) ->
          (spelled name (TkPath p :: rest) <-> spelled name rest)).
        { intros rest Hr. split.
          - intros ([|[q c] o] & E & F); cbn in E.
            + injection E as E1 E2. congruence.
            + injection E as E1 E2. inversion_clear F as [|? ? F1 F2]. destruct c; cbn in E2.
              * exfalso. apply (Hr _ E2).
              * exists o. auto.
          - intros (o & E & F). exists ((p, false) :: o). cbn. split; [congruence|].
            constructor; auto. }
        assert (Hyes : forall rest, spelled name (TkPath p :: TkComma :: rest) <-> spelled name rest).
        { intros rest. split.
          - intros ([|[q c] o] & E & F); cbn in E; [discriminate|].
            injection E as E1 E2. inversion_clear F as [|? ? F1 F2]. destruct c; cbn in E2.
            + injection E2 as E2. exists o. auto.
            + destruct o as [|[q' c'] o]; cbn in E2; discriminate.
          - intros (o & E & F). exists ((p, true) :: o). cbn. split; [congruence|].
            constructor; auto. }
        destruct toks as [|[q| |] toks].
        -- rewrite (Hno []) by discriminate. apply IH. cbn; lia.
        -- rewrite (Hno (TkPath q :: toks)) by discriminate. apply IH. lia.
        -- rewrite Hyes. apply IH. cbn in Hl. lia.
        -- rewrite (Hno (TkOther :: toks)) by discriminate. apply IH. lia.
    + split; [discriminate|]. intros ([|[q c] o] & E & _); cbn in E; discriminate.
    + split; [discriminate|]. intros ([|[q c] o] & E & _); cbn in E; discriminate.
Qed.

Lemma marked_spec d name :
  existsb (has_marshalable_attr name) (d_attrs d) = true <-> marked d name.
Proof.
  rewrite existsb_exists. unfold marked. split.
  - intros ([|toks] & Hin & H); cbn in H; [discriminate|]. exists toks. split; [exact Hin|].
    now apply (parse_attr_spec name (length toks)).
  - intros (toks & Hin & H). exists (AMarshalable toks). split; [exact Hin|]. cbn.
    now apply (parse_attr_spec name (length toks)).
Qed.
Lemma marked_false d name :
  existsb (has_marshalable_attr name) (d_attrs d) = false <-> ~ marked d name.
Proof. rewrite <- not_true_iff_false, marked_spec. reflexivity. Qed.

Lemma tpm2b_common_spec fs name max :
  tpm2b_common fs = Ok (name, max) <-> sized_buffer fs name max.
Proof.
  unfold tpm2b_common, sized_buffer. split.
  - destruct fs as [[|[n1 a1 t1] [|[n2 a2 t2] [|? ?]]]|?|]; try discriminate.
    cbn [f_name f_ty]. destruct (String.eqb n1 "size") eqn:E1; cbn; [|discriminate].
    apply String.eqb_eq in E1. subst n1.
    destruct t1 as [p1 t1|? ? ?|?]; cbn; try discriminate.
    destruct (is_ident p1 "u16") eqn:E2; cbn; [|discriminate]. apply is_ident_spec in E2. subst p1.
    destruct t2 as [?|n [p2 t2|? ? ?|?] d|?]; try discriminate.
    destruct (is_ident p2 "u8") eqn:E3; cbn; [|discriminate]. apply is_ident_spec in E3. subst p2.
    intros H. injection H as -> ->. repeat eexists.
  - intros (a1 & a2 & t & e & d & ->). reflexivity.
Qed.

(** ** Variants *)
Definition arm_of (v : variant) (fs : list ufield) : marm :=
  MArm (v_name v) (vars fs) (map (fun x => MOne (PVar x)) (vars fs)).
Definition ucode (fs : list ufield) : list ustmt :=
  map (fun p => ULet (fst p) (u_ty (snd p))) (combine (vars fs) fs).

Definition unnamed_of (fs : dfields) : list ufield :=
  match fs with Unnamed fs => fs | _ => [] end.
Definition disc_of (v : variant) : Z := match v_disc v with Some s => s | None => 0 end.

Lemma enum_marshal_ok vs ms : enum_marshal_body vs = Ok ms <->
  (forall v, In v vs -> exists fs, v_fields v = Unnamed fs)
  /\ ms = map (fun v => arm_of v (unnamed_of (v_fields v))) vs.
Proof.
  unfold enum_marshal_body.
  assert (H : fst (enum_arms vs) = [] <-> forall v, In v vs -> exists fs, v_fields v = Unnamed fs).
  { induction vs as [|v vs IH]; cbn; [split; [easy|reflexivity]|].
    destruct (enum_arms vs) as [es arms]; cbn [fst] in *.
    destruct (v_fields v) as [fs|fs|] eqn:E; cbn [fst].
    - split; [discriminate|]. intros H. destruct (H v (or_introl eq_refl)) as (fs' & H'). congruence.
    - rewrite IH. split; [intros H w [<-|Hw]; eauto|]. intros H w Hw. apply H. now right.
    - split; [discriminate|]. intros H. destruct (H v (or_introl eq_refl)) as (fs' & H'). congruence. }
  assert (G : (forall v, In v vs -> exists fs, v_fields v = Unnamed fs) ->
              snd (enum_arms vs) = map (fun v => arm_of v (unnamed_of (v_fields v))) vs).
  { clear H. induction vs as [|v vs IH]; cbn; [reflexivity|]. intros H.
    specialize (IH (fun w Hw => H w (or_intror Hw))). destruct (enum_arms vs) as [es arms]; cbn [snd] in *.
    destruct (H v (or_introl eq_refl)) as (fs & ->). cbn [snd field_list]. rewrite IH. reflexivity. }
  split.
  - intros E. destruct (fst (enum_arms vs)) as [|e es] eqn:F; cbn in E; [|discriminate].
    injection E as <-. split; [apply H; reflexivity|apply G, H; reflexivity].
  - intros [A ->]. rewrite (proj2 H A), (G A). reflexivity.
Qed.

Definition uarm_of (v : variant) : uarm :=
  let fs := unnamed_of (v_fields v) in UArm (disc_of v) (ucode fs) (v_name v) (vars fs).
Lemma uarm_of_eq v fs s : v_fields v = Unnamed fs -> v_disc v = Some s ->
  uarm_of v = UArm s (ucode fs) (v_name v) (vars fs).
Proof. intros H1 H2. unfold uarm_of, disc_of. rewrite H1, H2. reflexivity. Qed.
Lemma enum_unmarshal_ok vs : (forall v, In v vs -> exists fs, v_fields v = Unnamed fs) -> forall us,
  enum_uarms [] vs = Ok us <->
  (forall v, In v vs -> exists sel, v_disc v = Some sel) /\ us = map uarm_of vs.
Proof.
  induction vs as [|v vs IH]; intros Hn us; cbn [enum_uarms].
  - cbn. split; [intros H; injection H as <-; split; [easy|reflexivity]|intros [_ ->]; reflexivity].
  - specialize (IH (fun w Hw => Hn w (or_intror Hw))).
    destruct (Hn v (or_introl eq_refl)) as (fs & Ef). rewrite Ef. cbn [field_unmarshal].
    destruct (v_disc v) as [s|] eqn:Ed.
    + split.
      * destruct (enum_uarms [] vs) as [us'|e|]; cbn; try discriminate. intros H.
        injection H as <-. destruct (proj1 (IH us') eq_refl) as [A ->]. split.
        -- intros w [<-|Hw]; eauto.
        -- cbn [map]. rewrite (uarm_of_eq v fs s Ef Ed). reflexivity.
      * intros [A ->]. rewrite (proj2 (IH (map uarm_of vs))).
        -- cbn [map]. rewrite (uarm_of_eq v fs s Ef Ed). reflexivity.
        -- split; [|reflexivity]. intros w Hw. apply A. now right.
    + split; [discriminate|]. intros [A _]. destruct (A v (or_introl eq_refl)). congruence.
Qed.

(** ** C66 *)
Lemma derive_accepts d : (exists g, derive d = Ok g) <-> accepted d.
Proof.
  unfold derive, accepted. destruct (d_data d) as [fs|k vs|].
  - destruct (field_bodies_ok fs) as [H1 H2]. split.
    + intros (g & H). destruct (field_marshal_body fs) as [ms|e|]; cbn [obind] in H; try discriminate.
      destruct (field_unmarshal fs) as [us|e|] eqn:E; cbn [obind] in H; try discriminate.
      split; [eauto|]. intros Hm. apply marked_spec in Hm. rewrite Hm in H.
      destruct (tpm2b_common fs) as [[name max]|e|] eqn:T; cbn in H; try discriminate.
      exists name, max. now apply tpm2b_common_spec.
    + intros [H Hm]. destruct (H1 H) as (ms & us & -> & ->). cbn [obind].
      destruct (existsb (has_marshalable_attr "tpm2b_simple") (d_attrs d)) eqn:E.
      * apply marked_spec in E. destruct (Hm E) as (name & max & S). apply tpm2b_common_spec in S.
        rewrite S. cbn. eauto.
      * destruct (existsb (has_marshalable_attr "tpm2b_struct") (d_attrs d)); eauto.
  - split.
    + intros (g & H). destruct (enum_marshal_body vs) as [ms|e|] eqn:Em; cbn [obind] in H; try discriminate.
      apply enum_marshal_ok in Em. destruct Em as [A ->].
      destruct (enum_uarms [] vs) as [us|e|] eqn:Eu; cbn in H; try discriminate.
      apply (enum_unmarshal_ok vs A) in Eu. intros v Hv. split; [now apply A|]. now apply Eu.
    + intros H. assert (A : forall v, In v vs -> exists fs, v_fields v = Unnamed fs)
        by (intros v Hv; now apply H).
      rewrite (proj2 (enum_marshal_ok vs _) (conj A eq_refl)). cbn [obind].
      rewrite (proj2 (enum_unmarshal_ok vs A (map uarm_of vs))).
      * cbn. eauto.
      * split; [|reflexivity]. intros v Hv. now apply H.
  - split; [intros (g & H); discriminate|easy].
Qed.

(** ** Running the marshalling code *)
Lemma mthen_ext r k1 k2 : (forall w b, k1 w b = k2 w b) -> mthen r k1 = mthen r k2.
Proof. intros H. destruct r as [b [w|e|]]; cbn; auto. Qed.
Lemma uthen_ext {A B} (r : ures A) (k1 k2 : A -> list byte -> ures B) :
  (forall a b, k1 a b = k2 a b) -> uthen r k1 = uthen r k2.
Proof. intros H. destruct r as [[a|e|] b]; cbn; auto. Qed.

Lemma index_loop_spec f n l2 : forall l1 w buf,
  index_loop (S (length l2)) f n (l1 ++ l2) (length l1) w buf
  = mar_arr f (n - N.of_nat (length l1)) l2 w buf.
Proof.
  induction l2 as [|v l2 IH]; intros l1 w buf.
  - cbn [length index_loop mar_arr]. destruct (N.of_nat (length l1) <? n)%N eqn:E.
    + rewrite app_nil_r.
      replace (nth_error l1 (length l1)) with (@None val)
        by (symmetry; apply nth_error_None; lia).
      apply N.ltb_lt in E. destruct (N.eqb_spec (n - N.of_nat (length l1)) 0); [lia|reflexivity].
    + apply N.ltb_ge in E. destruct (N.eqb_spec (n - N.of_nat (length l1)) 0); [reflexivity|lia].
  - change (length (v :: l2)) with (S (length l2)).
    change (index_loop (S (S (length l2))) f n (l1 ++ v :: l2) (length l1) w buf)
      with (if (N.of_nat (length l1) <? n)%N
            then match nth_error (l1 ++ v :: l2) (length l1) with
                 | None => (buf, Panic)
                 | Some u => mthen (mseq (f u) w buf)
                               (index_loop (S (length l2)) f n (l1 ++ v :: l2) (S (length l1)))
                 end
            else (buf, Ok w)).
    cbn [mar_arr]. destruct (N.of_nat (length l1) <? n)%N eqn:E.
    + apply N.ltb_lt in E. destruct (N.eqb_spec (n - N.of_nat (length l1)) 0); [lia|].
      rewrite nth_error_app2, Nat.sub_diag by lia. cbn [nth_error]. apply mthen_ext. intros w' b'.
      specialize (IH (l1 ++ [v]) w' b'). rewrite <- app_assoc in IH. cbn [app] in IH.
      rewrite app_length in IH. cbn [length] in IH. rewrite Nat.add_1_r in IH. rewrite IH.
      f_equal. lia.
    + apply N.ltb_ge in E. destruct (N.eqb_spec (n - N.of_nat (length l1)) 0); [reflexivity|lia].
Qed.
Lemma index_loop_all f n l w buf : index_loop (S (length l)) f n l 0 w buf = mar_arr f n l w buf.
Proof. pose proof (index_loop_spec f n l [] w buf) as H. cbn [app length N.of_nat] in H. rewrite N.sub_0_r in H. exact H. Qed.

Lemma field_place_skip fs1 : forall vs1 fs2 vs2 x, length vs1 = length fs1 ->
  ~ In x (map f_name fs1) -> field_place (fs1 ++ fs2) (vs1 ++ vs2) x = field_place fs2 vs2 x.
Proof.
  induction fs1 as [|f fs1 IH]; intros [|v vs1] fs2 vs2 x Hl Hn; try discriminate; [reflexivity|].
  cbn in *. destruct (String.eqb (f_name f) x) eqn:E.
  - apply String.eqb_eq in E. tauto.
  - apply IH; [lia|tauto].
Qed.
Lemma field_place_keep fs1 : forall vs1 fs2 vs2 x r,
  field_place fs1 vs1 x = Some r -> field_place (fs1 ++ fs2) (vs1 ++ vs2) x = Some r.
Proof.
  induction fs1 as [|f fs1 IH]; intros [|v vs1] fs2 vs2 x r H; try discriminate.
  cbn in *. destruct (String.eqb (f_name f) x); [exact H|now apply IH].
Qed.

Definition as_len (v : val) : option Z := match v with VInt z => Some z | _ => None end.
Lemma bind_len_same x v env : lookup_len x env = None -> lookup_len x (bind_len x v env) = as_len v.
Proof. intros H. destruct v; cbn; try exact H. now rewrite String.eqb_refl. Qed.
Lemma bind_len_other x y v env : x <> y -> lookup_len x (bind_len y v env) = lookup_len x env.
Proof. intros H. destruct v; cbn; try reflexivity. apply String.eqb_neq in H. now rewrite H. Qed.

(** What the description says about a field. *)
Lemma describe_plain f k t : no_length f -> ~ is_array f -> describe_field f = Some (k, t) ->
  k = KPlain /\ impl_of (f_ty f) = Some t.
Proof.
  unfold describe_field, is_array. intros _ Ha. destruct (f_ty f) as [p u|n e d|u].
  - cbn. intros H. injection H as <- <-. auto.
  - destruct Ha. eauto.
  - cbn. intros H. injection H as <- <-. auto.
Qed.
Lemma describe_array f n e d k t : no_length f -> f_ty f = TyArray n e d ->
  describe_field f = Some (k, t) -> k = KArr n /\ path_impl e = Some t.
Proof.
  unfold describe_field, no_length. intros Hn ->. rewrite Hn.
  destruct (path_impl e); intros H; [|discriminate]. injection H as <- <-. auto.
Qed.
Lemma describe_length f x n e d k t : has_length f x -> f_ty f = TyArray n e d ->
  describe_field f = Some (k, t) -> k = KLen n x d /\ path_impl e = Some t.
Proof.
  unfold describe_field, has_length. intros Hn ->. rewrite Hn.
  destruct (path_impl e); intros H; [|discriminate]. injection H as <- <-. auto.
Qed.
Lemma path_impl_of e t : path_impl e = Some t -> impl_of e = Some t.
Proof. destruct e; cbn; congruence. Qed.

Lemma struct_place fs vs x : struct_places (Named fs) vs (PField x) = field_place fs vs x.
Proof. reflexivity. Qed.

Lemma run_named_marshal fs2 : forall fs1 vs1 vs2 env basic ms F w buf,
  NoDup (map f_name (fs1 ++ fs2)) -> length vs1 = length fs1 -> length vs2 = length fs2 ->
  describe_named fs2 = Some F -> ok_from basic fs2 ->
  each_field named_field_marshal basic fs2 = Ok ([], ms) ->
  (forall x, In x basic -> exists te v, field_place fs1 vs1 x = Some (te, v) /\ lookup_len x env = as_len v) ->
  (forall x, ~ In x (map f_name fs1) -> lookup_len x env = None) ->
  run_mstmts (struct_places (Named (fs1 ++ fs2)) (vs1 ++ vs2)) ms w buf
  = marshal_fields env F vs2 w buf.
Proof.
  induction fs2 as [|f fs2 IH]; intros fs1 vs1 vs2 env basic ms F w buf Hd Hl1 Hl2 HF Hok He Hb Hz.
  - destruct vs2; [|discriminate]. cbn in *. injection HF as <-. injection He as <-. reflexivity.
  - destruct vs2 as [|v vs2]; [discriminate|]. cbn [describe_named] in HF.
    destruct (describe_field f) as [[k t]|] eqn:Df; [|discriminate].
    destruct (describe_named fs2) as [rest|] eqn:Dn; [|discriminate]. injection HF as <-.
    apply each_field_cons in He. destruct He as (basic' & st & ms' & Eg & He & ->).
    assert (Hnot : ~ In (f_name f) (map f_name fs1)).
    { rewrite map_app in Hd. cbn in Hd. apply NoDup_remove_2 in Hd. intros H. apply Hd, in_or_app. now left. }
    assert (Hself : field_place (fs1 ++ f :: fs2) (vs1 ++ v :: vs2) (f_name f) = Some (f_ty f, v)).
    { rewrite field_place_skip by assumption. cbn. now rewrite String.eqb_refl. }
    assert (HIH : forall env' b', ok_from b' fs2 ->
      each_field named_field_marshal b' fs2 = Ok ([], ms') ->
      (forall x, In x b' -> exists te u, field_place (fs1 ++ [f]) (vs1 ++ [v]) x = Some (te, u)
                                   /\ lookup_len x env' = as_len u) ->
      (forall x, ~ In x (map f_name (fs1 ++ [f])) -> lookup_len x env' = None) ->
      forall w' b, run_mstmts (struct_places (Named (fs1 ++ f :: fs2)) (vs1 ++ v :: vs2)) ms' w' b
                   = marshal_fields env' rest vs2 w' b).
    { intros env' b' O' E' P' Z' w' b.
      specialize (IH (fs1 ++ [f]) (vs1 ++ [v]) vs2 env' b' ms' rest w' b).
      rewrite <- !app_assoc in IH. cbn [app] in IH. apply IH; auto. rewrite !app_length. cbn. lia. }
    assert (Hkeep : (forall x, In x basic ->
        exists te u, field_place (fs1 ++ [f]) (vs1 ++ [v]) x = Some (te, u) /\ lookup_len x env = as_len u)
      /\ (forall x, ~ In x (map f_name (fs1 ++ [f])) -> lookup_len x env = None)).
    { split.
      - intros x Hx. destruct (Hb x Hx) as (te & u & P & L). exists te, u. split; [|exact L].
        now apply field_place_keep.
      - intros x Hx. apply Hz. intros H. apply Hx. rewrite map_app. apply in_or_app. now left. }
    cbn [ok_from] in Hok.
    destruct Hok as [[Hn [[(n & e & d & E) Hr]|[Ha Hr]]]|((n & e & d & E) & (x & Hx & Hin) & Hr)].
    + rewrite (nfm_array basic f n e d Hn E) in Eg. injection Eg as <- <-.
      destruct (describe_array f n e d k t Hn E Df) as [-> Ei].
      cbn [run_mstmts run_mstmt]. rewrite struct_place, Hself, E, (path_impl_of _ _ Ei).
      cbn [marshal_fields]. destruct v as [| | | |l| |]; try reflexivity.
      rewrite index_loop_all. apply mthen_ext. apply (HIH env basic); tauto.
    + rewrite (nfm_plain basic f Hn Ha) in Eg. injection Eg as <- <-.
      destruct (describe_plain f k t Hn Ha Df) as [-> Ei].
      cbn [run_mstmts run_mstmt]. rewrite struct_place, Hself, Ei.
      cbn [marshal_fields]. apply mthen_ext. apply (HIH _ (f_name f :: basic)); auto.
      * intros x [<-|Hx].
        -- exists (f_ty f), v. split.
           ++ rewrite field_place_skip by assumption. cbn. now rewrite String.eqb_refl.
           ++ apply bind_len_same. now apply Hz.
        -- destruct Hkeep as [Hk _]. destruct (Hk x Hx) as (te & u & P & L). exists te, u.
           split; [exact P|]. rewrite bind_len_other; [exact L|]. intros ->.
           destruct (Hb _ Hx) as (te' & u' & P' & _). clear -P' Hnot. revert vs1 P'.
           induction fs1 as [|g fs1 IH]; intros [|v1 vs1] P'; try discriminate. cbn in *.
           destruct (String.eqb (f_name g) (f_name f)) eqn:Q; [apply String.eqb_eq in Q; tauto|].
           eapply IH; [tauto|exact P'].
      * intros x Hx. rewrite bind_len_other; [now apply Hkeep|]. intros ->. apply Hx.
        rewrite map_app. apply in_or_app. right. now left.
    + rewrite (nfm_length basic f x Hx Hin) in Eg. injection Eg as <- <-.
      destruct (describe_length f x n e d k t Hx E Df) as [-> Ei].
      cbn [run_mstmts run_mstmt]. rewrite !struct_place, Hself, E, (path_impl_of _ _ Ei).
      destruct (Hb x Hin) as (te & u & P & L). rewrite (field_place_keep _ _ (f :: fs2) (v :: vs2) _ _ P).
      cbn [marshal_fields]. rewrite L.
      destruct v as [| | | |l| |]; destruct u; cbn [as_len]; try reflexivity.
      rewrite index_loop_all. apply mthen_ext. apply (HIH env basic); tauto.
Qed.

(** A list of plain places. *)
Lemma run_plain (env : places) (mk : nat -> place) fs : forall k vs ts w buf,
  (forall i f v, nth_error fs i = Some f -> nth_error vs i = Some v -> env (mk (k + i)%nat) = Some (u_ty f, v)) ->
  length vs = length fs -> describe_unnamed fs = Some ts ->
  run_mstmts env (map (fun i => MOne (mk i)) (seq k (length fs))) w buf = marshal_tys ts vs w buf.
Proof.
  induction fs as [|f fs IH]; intros k vs ts w buf Henv Hl Hd.
  - destruct vs; [|discriminate]. cbn in Hd. injection Hd as <-. reflexivity.
  - destruct vs as [|v vs]; [discriminate|]. cbn [describe_unnamed] in Hd.
    destruct (impl_of (u_ty f)) as [t|] eqn:Ei; [|discriminate].
    destruct (describe_unnamed fs) as [rest|] eqn:Er; [|discriminate]. injection Hd as <-.
    cbn [length seq map run_mstmts run_mstmt marshal_tys].
    pose proof (Henv 0%nat f v eq_refl eq_refl) as H0. rewrite Nat.add_0_r in H0. rewrite H0, Ei.
    apply mthen_ext. intros w' b. apply IH; [|cbn in Hl; lia|reflexivity].
    intros i g u Hg Hu. rewrite Nat.add_succ_comm. apply (Henv (S i)); assumption.
Qed.

Lemma var_place_nth xs : forall fs vs i x f v, NoDup xs -> length fs = length xs ->
  nth_error xs i = Some x -> nth_error fs i = Some f -> nth_error vs i = Some v ->
  var_place xs fs vs x = Some (u_ty f, v).
Proof.
  induction xs as [|y xs IH]; intros fs vs i x f v Hd Hl Hx Hf Hv; [destruct i; discriminate|].
  inversion_clear Hd as [|? ? H1 H2].
  destruct fs as [|f0 fs]; [discriminate|]. destruct vs as [|v0 vs]; [destruct i; discriminate|].
  destruct i as [|i]; cbn in Hx, Hf, Hv; cbn [var_place].
  - injection Hx as ->. injection Hf as ->. injection Hv as ->. now rewrite String.eqb_refl.
  - destruct (String.eqb y x) eqn:E.
    + apply String.eqb_eq in E. subst y. destruct H1. now apply nth_error_In in Hx.
    + apply (IH fs vs i); auto.
Qed.
Lemma vars_nth {A} (fs : list A) i : (i < length fs)%nat -> nth_error (vars fs) i = Some (var i).
Proof.
  intros H. unfold vars. rewrite (map_nth_error var i (seq 0 (length fs)) (d := i)); [reflexivity|].
  rewrite nth_error_nth' with (d := 0%nat) by (now rewrite seq_length).
  now rewrite seq_nth.
Qed.

Lemma run_arm fs vs ts w buf : length vs = length fs -> describe_unnamed fs = Some ts ->
  run_mstmts (arm_places (vars fs) fs vs) (map (fun x => MOne (PVar x)) (vars fs)) w buf
  = marshal_tys ts vs w buf.
Proof.
  intros Hl Hd. unfold vars at 2. rewrite map_map.
  apply (run_plain (arm_places (vars fs) fs vs) (fun i => PVar (var i)) fs 0); auto.
  intros i f v Hf Hv. cbn [arm_places Nat.add].
  apply (var_place_nth (vars fs) fs vs i); auto using vars_nodup.
  - now rewrite vars_length.
  - apply vars_nth. apply nth_error_Some. congruence.
Qed.

(** ** Running the unmarshalling code *)
Lemma umap_uthen {A B C} (g : B -> C) (r : ures A) (k : A -> list byte -> ures B) :
  umap g (uthen r k) = uthen r (fun a b => umap g (k a b)).
Proof. destruct r as [[a|e|] b]; reflexivity. Qed.
Lemma umap_umap {A B C} (f : A -> B) (g : B -> C) (r : ures A) :
  umap g (umap f r) = umap (fun a => g (f a)) r.
Proof. destruct r as [[a|e|] b]; reflexivity. Qed.
Lemma uthen_umap {A B C} (f : A -> B) (r : ures A) (k : B -> list byte -> ures C) :
  uthen (umap f r) k = uthen r (fun a b => k (f a) b).
Proof. destruct r as [[a|e|] b]; reflexivity. Qed.
Lemma uthen_uthen {A B C} (r : ures A) (k : A -> list byte -> ures B) (h : B -> list byte -> ures C) :
  uthen (uthen r k) h = uthen r (fun a b => uthen (k a b) h).
Proof. destruct r as [[a|e|] b]; reflexivity. Qed.
Lemma umap_ext {A B} (f g : A -> B) (r : ures A) : (forall a, f a = g a) -> umap f r = umap g r.
Proof. intros H. destruct r as [[a|e|] b]; cbn; unfold umap; cbn; try reflexivity. now rewrite H. Qed.

Lemma unm_arr_length f m : forall buf l rest, unm_arr f m buf = (Ok l, rest) -> length l = m.
Proof.
  induction m as [|m IH]; intros buf l rest H; cbn in H.
  - now injection H as <- <-.
  - destruct (f buf) as [[v|e|] b]; cbn in H; try discriminate.
    destruct (unm_arr f m b) as [[l'|e|] b'] eqn:E; cbn in H; try discriminate.
    injection H as <- <-. cbn. now rewrite (IH _ _ _ E).
Qed.
Lemma fill_spec f d k : forall m buf, (k <= m)%nat ->
  fill f (N.of_nat k) (repeat d m) buf
  = umap (fun l => l ++ repeat d (m - k)) (unm_arr f k buf).
Proof.
  induction k as [|k IH]; intros m buf H.
  - rewrite Nat.sub_0_r. destruct m; reflexivity.
  - destruct m as [|m]; [lia|]. cbn [repeat fill].
    destruct (N.eqb_spec (N.of_nat (S k)) 0); [lia|]. cbn [unm_arr].
    rewrite umap_uthen. apply uthen_ext. intros v b. rewrite umap_umap.
    replace (N.of_nat (S k) - 1)%N with (N.of_nat k) by lia. rewrite IH by lia. rewrite umap_umap.
    reflexivity.
Qed.

Lemma local_app x l1 l2 : ~ In x (map fst l1) -> local x (l1 ++ l2) = local x l2.
Proof.
  induction l1 as [|[y v] l1 IH]; cbn; [reflexivity|]. intros H.
  destruct (String.eqb y x) eqn:E; [apply String.eqb_eq in E; tauto|]. apply IH. tauto.
Qed.
Lemma combine_fst {A B} (xs : list A) : forall (vs : list B), length vs = length xs ->
  map fst (combine xs vs) = xs.
Proof.
  induction xs as [|x xs IH]; intros [|v vs] H; try discriminate; [reflexivity|].
  cbn. now rewrite IH by (cbn in H; lia).
Qed.
Lemma gather_spec xs : forall vs ls, NoDup xs -> length vs = length xs ->
  gather xs (rev (combine xs vs) ++ ls) = Some vs.
Proof.
  induction xs as [|x xs IH]; intros [|v vs] ls Hd Hl; try discriminate; [reflexivity|].
  inversion_clear Hd as [|? ? H1 H2]. cbn [combine rev gather]. rewrite <- app_assoc. cbn [app].
  rewrite IH by (auto; cbn in Hl; lia).
  rewrite local_app.
  - cbn. now rewrite String.eqb_refl.
  - rewrite map_rev. intros H. apply in_rev in H. rewrite combine_fst in H by (cbn in Hl; lia). tauto.
Qed.

Lemma unmarshal_fields_length fs : forall F env buf vs rest, describe_named fs = Some F ->
  unmarshal_fields env F buf = (Ok vs, rest) -> length vs = length fs.
Proof.
  induction fs as [|f fs IH]; intros F env buf vs rest HF H; cbn [describe_named] in HF.
  - injection HF as <-. cbn in H. now injection H as <- <-.
  - destruct (describe_field f) as [[k t]|]; [|discriminate].
    destruct (describe_named fs) as [R|]; [|discriminate]. injection HF as <-.
    cbn [unmarshal_fields] in H. destruct k as [|n|n x d].
    + destruct (unmarshal t buf) as [[v|e|] b]; cbn in H; try discriminate.
      destruct (unmarshal_fields (bind_len (f_name f) v env) R b) as [[l|e|] b'] eqn:E; cbn in H; try discriminate.
      injection H as <- <-. cbn. now rewrite (IH _ _ _ _ _ eq_refl E).
    + destruct (unm_arr (unmarshal t) (N.to_nat n) buf) as [[v|e|] b]; cbn in H; try discriminate.
      destruct (unmarshal_fields env R b) as [[l|e|] b'] eqn:E; cbn in H; try discriminate.
      injection H as <- <-. cbn. now rewrite (IH _ _ _ _ _ eq_refl E).
    + destruct (lookup_len x env) as [c|]; [|discriminate].
      destruct (n <? usize c)%N; [discriminate|].
      destruct (unm_arr (unmarshal t) (N.to_nat (usize c)) buf) as [[v|e|] b]; cbn in H; try discriminate.
      destruct (unmarshal_fields env R b) as [[l|e|] b'] eqn:E; cbn in H; try discriminate.
      injection H as <- <-. cbn. now rewrite (IH _ _ _ _ _ eq_refl E).
Qed.

Lemma run_ustmts_app s1 : forall s2 ls buf,
  run_ustmts (s1 ++ s2) ls buf = uthen (run_ustmts s1 ls buf) (run_ustmts s2).
Proof.
  induction s1 as [|s s1 IH]; intros s2 ls buf; cbn; [reflexivity|].
  rewrite uthen_uthen. apply uthen_ext. intros. apply IH.
Qed.

Definition added (xs : list string) (ls : locals) (vs : list val) : locals := rev (combine xs vs) ++ ls.
Lemma added_cons x xs ls v vs : added xs ((x, v) :: ls) vs = added (x :: xs) ls (v :: vs).
Proof. unfold added. cbn [combine rev]. now rewrite <- app_assoc. Qed.

Lemma run_named_unmarshal fs : forall ls env basic us F buf,
  NoDup (map f_name fs) -> ~ In "buffer" (map f_name fs) -> local "buffer" ls = None ->
  describe_named fs = Some F -> ok_from basic fs ->
  each_field named_field_unmarshal basic fs = Ok ([], us) ->
  (forall x, In x basic -> exists v, local x ls = Some v /\ lookup_len x env = as_len v) ->
  (forall x, In x (map f_name fs) -> ~ In x basic /\ lookup_len x env = None) ->
  run_ustmts (concat us) ls buf
  = umap (added (map f_name fs) ls) (unmarshal_fields env F buf).
Proof.
  induction fs as [|f fs IH]; intros ls env basic us F buf Hd Hbuf Hlb HF Hok He Hb Hz.
  - cbn in *. injection HF as <-. injection He as <-. reflexivity.
  - cbn [describe_named] in HF.
    destruct (describe_field f) as [[k t]|] eqn:Df; [|discriminate].
    destruct (describe_named fs) as [rest|] eqn:Dn; [|discriminate]. injection HF as <-.
    apply each_field_cons in He. destruct He as (basic' & st & us' & Eg & He & ->).
    cbn [map] in Hd, Hbuf, Hz. inversion_clear Hd as [|? ? Hnot Hd'].
    set (x := f_name f) in *.
    assert (Hxb : x <> "buffer") by (intros E; apply Hbuf; left; exact E).
    assert (Hb' : ~ In "buffer" (map f_name fs)) by (intros E; apply Hbuf; now right).
    destruct (Hz x (or_introl eq_refl)) as [Hxn Hxz].
    assert (HIH : forall env' b' v, ok_from b' fs ->
      each_field named_field_unmarshal b' fs = Ok ([], us') ->
      (forall y, In y b' -> exists u, local y ((x, v) :: ls) = Some u /\ lookup_len y env' = as_len u) ->
      (forall y, In y (map f_name fs) -> ~ In y b' /\ lookup_len y env' = None) ->
      forall b, run_ustmts (concat us') ((x, v) :: ls) b
                = umap (fun vs => added (x :: map f_name fs) ls (v :: vs)) (unmarshal_fields env' rest b)).
    { intros env' b' v O' E' P' Z' b.
      rewrite (IH ((x, v) :: ls) env' b' us' rest b); auto.
      { apply umap_ext. intros. apply added_cons. }
      cbn [local]. apply String.eqb_neq in Hxb. now rewrite Hxb. }
    assert (Hkeep : forall v y, In y basic ->
        exists u, local y ((x, v) :: ls) = Some u /\ lookup_len y env = as_len u).
    { intros v y Hy. destruct (Hb y Hy) as (u & L & E). exists u. split; [|exact E]. cbn.
      destruct (String.eqb x y) eqn:Q; [|exact L]. apply String.eqb_eq in Q. now subst y. }
    assert (Hz' : forall y, In y (map f_name fs) -> ~ In y basic /\ lookup_len y env = None)
      by (intros y Hy; apply Hz; now right).
    assert (Hlocal : forall v, local x ((x, v) :: ls) = Some v)
      by (intros v; cbn; now rewrite String.eqb_refl).
    assert (Hassign : forall u v, assign x v ((x, u) :: ls) = (x, v) :: ls)
      by (intros u v; cbn; now rewrite String.eqb_refl).
    assert (Hbl : forall v, local "buffer" ((x, v) :: ls) = None).
    { intros v. cbn [local]. apply String.eqb_neq in Hxb. now rewrite Hxb. }
    cbn [ok_from] in Hok. cbn [concat map]. fold x. rewrite run_ustmts_app.
    destruct Hok as [[Hn [[(n & e & d & E) Hr]|[Ha Hr]]]|((n & e & d & E) & (y & Hy & Hin) & Hr)].
    + rewrite (nfu_array basic f n e d Hn E) in Eg. injection Eg as <- <-. fold x.
      destruct (describe_array f n e d k t Hn E Df) as [-> Ei].
      cbn [run_ustmts run_ustmt uthen unmarshal_fields].
      rewrite Hbl, Ei, Hlocal.
      rewrite <- (N2Nat.id n) at 1. rewrite fill_spec by lia. rewrite !umap_umap, Nat.sub_diag.
      rewrite uthen_uthen, uthen_umap, umap_uthen. cbn [uthen]. apply uthen_ext. intros l b.
      rewrite app_nil_r, Hassign. rewrite umap_umap. apply (HIH env basic); auto.
    + rewrite (nfu_plain basic f Hn Ha) in Eg. injection Eg as <- <-. fold x.
      destruct (describe_plain f k t Hn Ha Df) as [-> Ei].
      cbn [run_ustmts run_ustmt unmarshal_fields]. rewrite Hlb, Ei.
      rewrite uthen_uthen, uthen_umap, umap_uthen. cbn [uthen]. apply uthen_ext. intros v b.
      rewrite umap_umap. apply (HIH _ (x :: basic)); auto.
      * intros y [<-|Hy].
        -- exists v. split; [apply Hlocal|]. now apply bind_len_same.
        -- destruct (Hkeep v y Hy) as (u & L & Q). exists u. split; [exact L|].
           rewrite bind_len_other; [exact Q|]. intros ->. contradiction.
      * intros y Hy. destruct (Hz' y Hy) as [A B]. assert (Hne : y <> x) by (intros ->; contradiction).
        split; [intros [H|H]; [now apply Hne|contradiction]|]. now rewrite bind_len_other.
    + rewrite (nfu_length basic f y n e d Hy Hin E) in Eg. injection Eg as <- <-. fold x.
      destruct (describe_length f y n e d k t Hy E Df) as [-> Ei].
      destruct (Hb y Hin) as (u & L & Q). cbn [run_ustmts run_ustmt unmarshal_fields]. rewrite L, Q.
      destruct u as [c| | | | | |]; cbn [as_len]; try reflexivity.
      destruct (n <? usize c)%N eqn:Hlim; [reflexivity|]. cbn [uthen].
      rewrite Hbl, Ei.
      destruct (Hkeep (VArr (repeat d (N.to_nat n))) y Hin) as (u' & L' & Q').
      assert (Q0 : u' = VInt c) by (rewrite Q in Q'; destruct u'; cbn in Q'; congruence).
      rewrite L', Q0, Hlocal. apply N.ltb_ge in Hlim.
      rewrite <- (N2Nat.id (usize c)) at 1. rewrite fill_spec by lia. rewrite !umap_umap.
      rewrite uthen_uthen, uthen_umap, umap_uthen.
      destruct (unm_arr (unmarshal t) (N.to_nat (usize c)) buf) as [[l|er|] b] eqn:Eu; cbn [uthen]; try reflexivity.
      rewrite (unm_arr_length _ _ _ _ _ Eu), Hassign, umap_umap. apply (HIH env basic); auto.
Qed.

Lemma run_unnamed_unmarshal xs : forall fs ls ts buf, length xs = length fs -> NoDup xs ->
  ~ In "buffer" xs -> local "buffer" ls = None -> describe_unnamed fs = Some ts ->
  run_ustmts (map (fun p => ULet (fst p) (u_ty (snd p))) (combine xs fs)) ls buf
  = umap (added xs ls) (unmarshal_tys ts buf).
Proof.
  induction xs as [|x xs IH]; intros [|f fs] ls ts buf Hl Hd Hb Hlb Ht; try discriminate.
  - cbn in *. injection Ht as <-. reflexivity.
  - cbn [describe_unnamed] in Ht. destruct (impl_of (u_ty f)) as [t|] eqn:Ei; [|discriminate].
    destruct (describe_unnamed fs) as [rest|] eqn:Er; [|discriminate]. injection Ht as <-.
    inversion_clear Hd as [|? ? H1 H2]. cbn [combine map run_ustmts run_ustmt unmarshal_tys fst snd].
    rewrite Hlb, Ei, uthen_umap, umap_uthen. apply uthen_ext. intros v b. rewrite umap_umap.
    rewrite (IH fs _ rest); auto.
    + apply umap_ext. intros. apply added_cons.
    + intros H. apply Hb. now right.
    + cbn [local]. destruct (String.eqb x "buffer") eqn:E; [|exact Hlb]. apply String.eqb_eq in E.
      destruct Hb. now left.
Qed.
Lemma unmarshal_tys_length fs : forall ts buf vs rest, describe_unnamed fs = Some ts ->
  unmarshal_tys ts buf = (Ok vs, rest) -> length vs = length fs.
Proof.
  induction fs as [|f fs IH]; intros ts buf vs rest Ht H; cbn [describe_unnamed] in Ht.
  - injection Ht as <-. cbn in H. now injection H as <- <-.
  - destruct (impl_of (u_ty f)) as [t|]; [|discriminate].
    destruct (describe_unnamed fs) as [R|]; [|discriminate]. injection Ht as <-. cbn [unmarshal_tys] in H.
    destruct (unmarshal t buf) as [[v|e|] b]; cbn in H; try discriminate.
    destruct (unmarshal_tys R b) as [[l|e|] b'] eqn:E; cbn in H; try discriminate.
    injection H as <- <-. cbn. now rewrite (IH _ _ _ _ eq_refl E).
Qed.
Lemma vars_buffer {A} (fs : list A) : ~ In "buffer" (vars fs).
Proof. unfold vars. intros H. apply in_map_iff in H. destruct H as (i & H & _). now apply (var_buffer i). Qed.

Lemma construct_spec xs r : NoDup xs -> (forall vs b, r = (Ok vs, b) -> length vs = length xs) ->
  construct xs (umap (added xs []) r) = r.
Proof.
  intros Hd Hl. unfold construct. rewrite uthen_umap. destruct r as [[vs|e|] b]; cbn [uthen]; try reflexivity.
  unfold added. rewrite gather_spec; [reflexivity|exact Hd|now apply (Hl vs b)].
Qed.

Lemma run_unnamed fs ts buf : describe_unnamed fs = Some ts ->
  construct (vars fs) (run_ustmts (ucode fs) [] buf) = unmarshal_tys ts buf.
Proof.
  intros Ht. unfold ucode.
  rewrite (run_unnamed_unmarshal (vars fs) fs [] ts buf); auto using vars_length, vars_nodup, vars_buffer.
  apply construct_spec; [apply vars_nodup|]. intros vs b H. rewrite vars_length.
  now apply (unmarshal_tys_length fs ts buf vs b).
Qed.

(** ** Enums *)
Lemma describe_variants_ok vs : forall V, describe_variants vs = Some V ->
  forall v, In v vs -> exists fs s ts, v_fields v = Unnamed fs /\ v_disc v = Some s
                       /\ describe_unnamed fs = Some ts.
Proof.
  induction vs as [|v vs IH]; intros V H w Hw; [destruct Hw|]. cbn [describe_variants] in H.
  destruct (v_fields v) as [|fs|] eqn:Ef; try discriminate.
  destruct (v_disc v) as [s|] eqn:Es; [|discriminate].
  destruct (describe_unnamed fs) as [ts|] eqn:Et; [|discriminate].
  destruct (describe_variants vs) as [R|] eqn:Er; [|discriminate].
  destruct Hw as [<-|Hw]; [eauto 8|]. exact (IH R eq_refl w Hw).
Qed.

Lemma find_named_arm vs : forall v, NoDup (map v_name vs) -> In v vs ->
  find (fun a => String.eqb (ma_variant a) (v_name v))
       (map (fun v => arm_of v (unnamed_of (v_fields v))) vs)
  = Some (arm_of v (unnamed_of (v_fields v))).
Proof.
  induction vs as [|u vs IH]; intros v Hd Hv; [destruct Hv|].
  cbn [map] in *. inversion_clear Hd as [|? ? H1 H2]. cbn [find]. cbn [ma_variant arm_of].
  destruct (String.eqb (v_name u) (v_name v)) eqn:E.
  - apply String.eqb_eq in E. destruct Hv as [<-|Hv]; [reflexivity|]. destruct H1. rewrite E. now apply in_map.
  - destruct Hv as [<-|Hv]; [now rewrite String.eqb_refl in E|]. now apply IH.
Qed.
Lemma find_named vs : forall v, NoDup (map v_name vs) -> In v vs -> variant_named vs (v_name v) = Some v.
Proof.
  unfold variant_named. induction vs as [|u vs IH]; intros v Hd Hv; [destruct Hv|].
  cbn [map] in *. inversion_clear Hd as [|? ? H1 H2]. cbn [find].
  destruct (String.eqb (v_name u) (v_name v)) eqn:E.
  - apply String.eqb_eq in E. destruct Hv as [<-|Hv]; [reflexivity|]. destruct H1. rewrite E. now apply in_map.
  - destruct Hv as [<-|Hv]; [now rewrite String.eqb_refl in E|]. now apply IH.
Qed.

Lemma variant_of_spec vs : forall V sel args buf, describe_variants vs = Some V ->
  forall v, variant_of vs sel = Some v -> length args = arity (v_fields v) ->
  forall fs ts, v_fields v = Unnamed fs -> describe_unnamed fs = Some ts ->
  marshal_variant V sel args buf = marshal_tys ts args 0 buf.
Proof.
  unfold variant_of. induction vs as [|u vs IH]; intros V sel args buf HV v Hf Hl fs ts Efs Ets; [discriminate|].
  cbn [describe_variants] in HV.
  destruct (v_fields u) as [|fs'|] eqn:Ef; try discriminate.
  destruct (v_disc u) as [s|] eqn:Es; [|discriminate].
  destruct (describe_unnamed fs') as [ts'|] eqn:Et; [|discriminate].
  destruct (describe_variants vs) as [R|] eqn:Er; [|discriminate]. injection HV as <-.
  cbn [find] in Hf. rewrite Es in Hf. cbn [marshal_variant]. rewrite Z.eqb_sym.
  destruct (s =? sel).
  - injection Hf as <-. replace ts with ts' by congruence. reflexivity.
  - now apply (IH R sel args buf eq_refl v Hf Hl fs ts).
Qed.

Lemma run_uarms_spec all vs : forall V sel buf, (forall v, In v vs -> variant_named all (v_name v) = Some v) ->
  describe_variants vs = Some V ->
  run_uarms all (map uarm_of vs) sel buf = umap (VEnum sel) (unmarshal_variant V sel buf).
Proof.
  induction vs as [|v vs IH]; intros V sel buf Hall HV; cbn [describe_variants] in HV.
  - injection HV as <-. reflexivity.
  - destruct (v_fields v) as [|fs|] eqn:Ef; try discriminate.
    destruct (v_disc v) as [s|] eqn:Es; [|discriminate].
    destruct (describe_unnamed fs) as [ts|] eqn:Et; [|discriminate].
    destruct (describe_variants vs) as [R|] eqn:Er; [|discriminate]. injection HV as <-.
    cbn [map]. rewrite (uarm_of_eq v fs s Ef Es). cbn [run_uarms ua_sel ua_variant ua_vars ua_body unmarshal_variant].
    destruct (sel =? s) eqn:Eq.
    + apply Z.eqb_eq in Eq. subst s. rewrite (Hall v (or_introl eq_refl)), Es.
      now rewrite (run_unnamed fs ts buf Et).
    + apply IH; [|reflexivity]. intros w Hw. apply Hall. now right.
Qed.

(** ** C67 *)
Lemma derive_struct_code d fs : d_data d = Struct fs ->
  ~ marked d "tpm2b_simple" -> ~ marked d "tpm2b_struct" -> forall g, derive d = Ok g ->
  exists ms us, field_marshal_body fs = Ok ms /\ field_unmarshal fs = Ok us
  /\ g = GStruct ms us (field_list fs).
Proof.
  intros Ed H1 H2 g H. unfold derive in H. rewrite Ed in H.
  apply marked_false in H1. apply marked_false in H2. rewrite H1, H2 in H.
  destruct (field_marshal_body fs) as [ms|e|]; cbn [obind] in H; try discriminate.
  destruct (field_unmarshal fs) as [us|e|]; cbn [obind] in H; try discriminate.
  injection H as <-. eauto 6.
Qed.

Lemma generated_unmarshal d g t buf : derive d = Ok g -> describes d t -> rust_ok d ->
  run_unmarshal d g buf = unmarshal t buf.
Proof.
  intros Hg Ht Hr. destruct Ht as [(Hm & fs & name & max & Ed & Hs & ->)|(H1 & H2 & Ht)].
  - unfold derive in Hg. rewrite Ed in Hg. apply marked_spec in Hm. rewrite Hm in Hg.
    destruct (field_marshal_body fs) as [ms|e|]; cbn [obind] in Hg; try discriminate.
    destruct (field_unmarshal fs) as [us|e|]; cbn [obind] in Hg; try discriminate.
    apply tpm2b_common_spec in Hs. rewrite Hs in Hg. cbn in Hg. injection Hg as <-.
    unfold run_unmarshal. rewrite Ed. reflexivity.
  - unfold structure_of in Ht. unfold rust_ok in Hr. unfold run_unmarshal.
    destruct (d_data d) as [fs|k vs|] eqn:Ed; [| |discriminate].
    + destruct (derive_struct_code d fs Ed H1 H2 g Hg) as (ms & us & Em & Eu & ->).
      destruct fs as [fs|fs|].
      * destruct (describe_named fs) as [F|] eqn:EF; cbn in Ht; [|discriminate]. injection Ht as <-.
        destruct Hr as [Hd Hb]. specialize (Hb H1). cbn [field_unmarshal] in Eu.
        destruct (named_fields named_field_unmarshal fs) as [l|e|] eqn:En; cbn in Eu; try discriminate.
        injection Eu as <-. apply named_fields_ok in En. cbn [field_list unmarshal]. f_equal.
        rewrite (run_named_unmarshal fs [] [] [] l F buf); auto.
        -- apply construct_spec; [exact Hd|]. intros vs b H. rewrite map_length.
           exact (unmarshal_fields_length fs F [] buf vs b EF H).
        -- apply (proj1 (each_ok fs [])). eauto.
        -- intros x [].
      * destruct (describe_unnamed fs) as [ts|] eqn:EF; cbn in Ht; [|discriminate]. injection Ht as <-.
        cbn [field_unmarshal] in Eu. injection Eu as <-. cbn [field_list unmarshal]. f_equal.
        now apply run_unnamed.
      * injection Ht as <-. cbn in Eu. injection Eu as <-. reflexivity.
    + destruct (describe_variants vs) as [V|] eqn:EV; cbn in Ht; [|discriminate]. injection Ht as <-.
      unfold derive in Hg. rewrite Ed in Hg. apply marked_false in H1. apply marked_false in H2.
      rewrite H1, H2 in Hg. cbn [orb] in Hg.
      destruct (enum_marshal_body vs) as [ms|e|] eqn:Em; cbn [obind] in Hg; try discriminate.
      apply enum_marshal_ok in Em. destruct Em as [A _].
      destruct (enum_uarms [] vs) as [us|e|] eqn:Eu; cbn in Hg; try discriminate.
      injection Hg as <-. apply (enum_unmarshal_ok vs A) in Eu. destruct Eu as [B ->].
      cbn [unmarshal]. apply uthen_ext. intros sel b.
      apply run_uarms_spec; [|exact EV]. intros v Hv. now apply find_named.
Qed.

Lemma generated_marshal d g t v buf : derive d = Ok g -> describes d t -> rust_ok d -> shaped d v ->
  run_marshal d g v buf = marshal t v buf.
Proof.
  intros Hg Ht Hr Hv. destruct Ht as [(Hm & fs & name & max & Ed & Hs & ->)|(H1 & H2 & Ht)].
  - unfold derive in Hg. rewrite Ed in Hg. pose proof Hm as Hm'. apply marked_spec in Hm'. rewrite Hm' in Hg.
    destruct (field_marshal_body fs) as [ms|e|]; cbn [obind] in Hg; try discriminate.
    destruct (field_unmarshal fs) as [us|e|]; cbn [obind] in Hg; try discriminate.
    apply tpm2b_common_spec in Hs. rewrite Hs in Hg. cbn in Hg. injection Hg as <-.
    unfold run_marshal. rewrite Ed. unfold shaped in Hv. rewrite Ed in Hv.
    destruct v; try destruct Hv; reflexivity.
  - unfold structure_of in Ht. unfold rust_ok in Hr. unfold shaped in Hv. unfold run_marshal.
    destruct (d_data d) as [fs|k vs|] eqn:Ed; [| |discriminate].
    + destruct (derive_struct_code d fs Ed H1 H2 g Hg) as (ms & us & Em & Eu & ->).
      destruct v as [| | |vs| | |]; try (destruct Hv; fail); [|contradiction].
      destruct fs as [fs|fs|]; cbn [arity] in Hv.
      * destruct (describe_named fs) as [F|] eqn:EF; cbn in Ht; [|discriminate]. injection Ht as <-.
        destruct Hr as [Hd Hb]. cbn [field_marshal_body] in Em. apply named_fields_ok in Em.
        cbn [field_unmarshal] in Eu.
        destruct (named_fields named_field_unmarshal fs) as [l|e|] eqn:En; cbn in Eu; try discriminate.
        apply named_fields_ok in En. cbn [marshal].
        apply (run_named_marshal fs [] [] vs [] [] ms F 0 buf); auto.
        -- apply (proj1 (each_ok fs [])). eauto.
        -- intros x [].
      * destruct (describe_unnamed fs) as [ts|] eqn:EF; cbn in Ht; [|discriminate]. injection Ht as <-.
        cbn [field_marshal_body] in Em. injection Em as <-. cbn [marshal].
        apply (run_plain _ PIndex fs 0 vs ts); auto. intros i f v Hf Hv'. cbn. now rewrite Hf, Hv'.
      * injection Ht as <-. cbn in Em. injection Em as <-. destruct vs; [reflexivity|discriminate].
    + destruct v as [| | | | |sel args|]; try (destruct Hv; fail).
      destruct (describe_variants vs) as [V|] eqn:EV; cbn in Ht; [|discriminate]. injection Ht as <-.
      unfold derive in Hg. rewrite Ed in Hg. apply marked_false in H1. apply marked_false in H2.
      rewrite H1, H2 in Hg. cbn [orb] in Hg.
      destruct (enum_marshal_body vs) as [ms|e|] eqn:Em; cbn [obind] in Hg; try discriminate.
      apply enum_marshal_ok in Em. destruct Em as [A ->].
      destruct (enum_uarms [] vs) as [us|e|]; cbn in Hg; try discriminate. injection Hg as <-.
      cbn [marshal]. apply mthen_ext. intros w b.
      destruct Hv as (x & Hin & Hsel & Hlen & Huniq).
      assert (Ef : variant_of vs sel = Some x).
      { unfold variant_of. destruct (find _ vs) as [y|] eqn:F.
        - apply find_some in F. destruct F as [Hy Fy]. destruct (v_disc y) as [s|] eqn:Ey; [|discriminate].
          apply Z.eqb_eq in Fy. subst s. now rewrite (Huniq y Hy Ey).
        - apply (find_none _ _ F) in Hin. rewrite Hsel in Hin. now rewrite Z.eqb_refl in Hin. }
      destruct (describe_variants_ok vs V EV x Hin) as (fs & s & ts & E1 & E2 & E3).
      unfold mseq. destruct (length b <? w)%nat; [reflexivity|].
      unfold run_variant. rewrite Ef, (find_named_arm vs x Hr Hin), E1. cbn [unnamed_of arm_of ma_vars ma_body].
      rewrite (variant_of_spec vs V sel args (skipn w b) EV x Ef Hlen fs ts E1 E3).
      rewrite E1 in Hlen. cbn [arity] in Hlen.
      now rewrite (run_arm fs args ts 0 (skipn w b) Hlen E3).
Qed.
