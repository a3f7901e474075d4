(** Properties of [#[derive(Marshalable)]] (C66-C68).  [accepted], [describes],
    [marked] and [shaped] are in DeriveSpec.v; [derive] is the macro (Derive.v),
    [run_marshal] and [run_unmarshal] run the code it generates (DeriveRun.v),
    [declarations] are the declarations of the library (Declarations.v). *)
From Coq Require Import String ZArith NArith List Lia Bool.
From Coq Require Import Init.Byte.
From Verif Require Import Prelude Types Marshal WireSpec MarshalProofs MarshalFacts Layout Catalogue
  Samples Derive DeriveRun DeriveSpec DeriveProofs Declarations.
Import ListNotations.
Local Open Scope string_scope.
Local Open Scope list_scope.
Open Scope Z_scope.

(** ** Auxiliary facts *)

Lemma find_attr_in l : forall found k v, find_attr found l = Ok (Some (k, v)) ->
  found = Some (k, v) \/ In (FNameValue k v) l.
Proof.
  induction l as [|[| |k' v'] l IH]; intros found k v; cbn.
  - intros E. injection E as ->. now left.
  - intros E. destruct (IH _ _ _ E); auto.
  - destruct found; discriminate.
  - destruct found; [discriminate|]. intros E. destruct (IH _ _ _ E) as [H|H]; [|auto].
    injection H as -> ->. auto.
Qed.
Lemma find_attr_total l : forall found, find_attr found l <> Panic.
Proof.
  induction l as [|[| |k v] l IH]; intros found; cbn; try discriminate; auto;
    destruct found; try discriminate; auto.
Qed.
Lemma attribute_total l key : get_marshal_attribute l key <> Panic.
Proof.
  unfold get_marshal_attribute. pose proof (find_attr_total l None) as H.
  destruct (find_attr None l) as [[[k v]|]|e|]; cbn; try discriminate; [|congruence].
  destruct (negb (is_ident k key)); [discriminate|]. destruct v as [p [|] [|]|]; discriminate.
Qed.
Lemma attribute_path l key p : get_marshal_attribute l key = Ok (Some p) ->
  exists k a q, In (FNameValue k (EPath p a q)) l.
Proof.
  unfold get_marshal_attribute. destruct (find_attr None l) as [[[k v]|]|e|] eqn:E; cbn; try discriminate.
  destruct (negb (is_ident k key)); [discriminate|]. destruct v as [p' a q|]; [|discriminate].
  destruct a; [discriminate|]. destruct q; [discriminate|]. intros H. injection H as ->.
  destruct (find_attr_in _ _ _ _ E) as [H|H]; [discriminate|]. eauto.
Qed.
Lemma length_ident_total x basic : length_ident [x] basic <> Panic.
Proof. unfold length_ident. cbn. destruct (existsb _ _); discriminate. Qed.
Lemma each_field_total {A} (gen : list string -> field -> outcome derr (list string * A)) fs :
  forall basic, (forall b f, In f fs -> gen b f <> Panic) -> each_field gen basic fs <> Panic.
Proof.
  induction fs as [|f fs IH]; intros basic H; cbn; [discriminate|].
  pose proof (H basic f (or_introl eq_refl)) as Hf.
  assert (Hr : forall b, each_field gen b fs <> Panic) by (intros b; apply IH; intros; apply H; now right).
  destruct (gen basic f) as [[b a]|e|]; [| |congruence].
  - specialize (Hr b). destruct (each_field gen b fs); cbn; congruence.
  - specialize (Hr basic). destruct (each_field gen basic fs); cbn; congruence.
Qed.
Lemma named_fields_total {A} (gen : list string -> field -> outcome derr (list string * A)) fs :
  (forall b f, In f fs -> gen b f <> Panic) -> named_fields gen fs <> Panic.
Proof.
  intros H. unfold named_fields. pose proof (each_field_total gen fs [] H) as E.
  destruct (each_field gen [] fs) as [[[|? ?] ?]|e|]; cbn; congruence.
Qed.
Lemma simple_marshal b f : simple_length f -> named_field_marshal b f <> Panic.
Proof.
  intros H. unfold named_field_marshal. pose proof (attribute_total (f_attrs f) "length") as Ht.
  destruct (get_marshal_attribute (f_attrs f) "length") as [[p|]|e|] eqn:E; cbn [obind]; try congruence.
  - apply attribute_path in E. destruct E as (k & a & q & E). destruct (H _ _ _ _ E) as [x ->].
    pose proof (length_ident_total x b). destruct (length_ident [x] b); cbn; congruence.
  - destruct (f_ty f); discriminate.
Qed.
Lemma simple_unmarshal b f : simple_length f -> named_field_unmarshal b f <> Panic.
Proof.
  intros H. unfold named_field_unmarshal. pose proof (attribute_total (f_attrs f) "length") as Ht.
  destruct (get_marshal_attribute (f_attrs f) "length") as [[p|]|e|] eqn:E; cbn [obind]; try congruence.
  - apply attribute_path in E. destruct E as (k & a & q & E). destruct (H _ _ _ _ E) as [x ->].
    pose proof (length_ident_total x b).
    destruct (f_ty f); try discriminate. destruct (length_ident [x] b); cbn; congruence.
  - destruct (f_ty f); discriminate.
Qed.
Lemma body_total fs : simple_lengths fs -> field_marshal_body fs <> Panic.
Proof.
  destruct fs as [fs|fs|]; cbn; try discriminate. intros H.
  apply named_fields_total. intros b f Hf. apply simple_marshal, H, Hf.
Qed.
Lemma ubody_total fs : simple_lengths fs -> field_unmarshal fs <> Panic.
Proof.
  destruct fs as [fs|fs|]; cbn; try discriminate. intros H.
  pose proof (named_fields_total named_field_unmarshal fs
    (fun b f Hf => simple_unmarshal b f (H f Hf))) as E.
  destruct (named_fields _ _); cbn; congruence.
Qed.
Lemma uarms_total vs : forall es, (forall v, In v vs -> simple_lengths (v_fields v)) ->
  enum_uarms es vs <> Panic.
Proof.
  induction vs as [|v vs IH]; intros es H; cbn [enum_uarms].
  - destruct es; cbn; discriminate.
  - pose proof (ubody_total (v_fields v) (H v (or_introl eq_refl))) as Hb.
    assert (Hr : forall es, enum_uarms es vs <> Panic) by (intros; apply IH; intros; apply H; now right).
    destruct (field_unmarshal (v_fields v)) as [b|e|]; [|apply Hr|congruence].
    destruct (v_disc v); [|discriminate]. pose proof (Hr es).
    destruct (enum_uarms es vs); cbn; congruence.
Qed.

(** ** C66 *)
(** The macro accepts exactly the declarations its documentation describes. *)
Theorem c66_accepts d : (exists g, derive d = Ok g) <-> accepted d.
Proof. exact (derive_accepts d). Qed.

(** It answers (code or error messages) for every declaration whose [length]
    attributes name their field by one identifier ... *)
Theorem c66_total_partial d :
  match d_data d with
  | Struct fs => simple_lengths fs
  | Enum _ vs => forall v, In v vs -> simple_lengths (v_fields v)
  | Union => True
  end ->
  derive d <> Panic.
Proof.
  unfold derive. destruct (d_data d) as [fs|k vs|]; intros H; [| |discriminate].
  - pose proof (body_total fs H) as H1. pose proof (ubody_total fs H) as H2.
    destruct (field_marshal_body fs); cbn [obind]; try congruence.
    destruct (field_unmarshal fs); cbn [obind]; try congruence.
    destruct (existsb _ _); [|destruct (existsb _ _); discriminate].
    unfold tpm2b_common. destruct fs as [[|x [|y [|? ?]]]|?|]; try discriminate.
    destruct (negb _); [discriminate|]. destruct (f_ty y) as [|? [] ?|]; try discriminate.
    destruct (is_ident _ _); discriminate.
  - unfold enum_marshal_body. destruct (fst (enum_arms vs)); cbn [errors_to_error omap obind]; [|discriminate].
    pose proof (uarms_total vs [] H) as H2. destruct (enum_uarms [] vs); cbn; congruence.
Qed.

(** ... but panics on [#[marshalable(length = self::count)]]. *)
Definition decl_counted (p : path) : decl :=
  Decl [] (Struct (Named [
    Field "count" [] (name "u8" u8);
    Field "entries" [FNameValue ["length"] (EPath p false false)] (arr 4 "u16" u16)])).
Theorem c66_total_refuted : exists d, derive d = Panic.
Proof. exists (decl_counted ["self"; "count"]). reflexivity. Qed.

Example c66_example :
  accepted (decl_counted ["count"]) /\ ~ accepted (decl_counted ["entries"])
  /\ derive (decl_counted ["size"]) = Err [LengthNotBefore].
Proof.
  split; [apply c66_accepts; eexists; reflexivity|].
  split; [rewrite <- c66_accepts; intros [g E]; vm_compute in E; discriminate|reflexivity].
Qed.
Example c66_total_example : simple_lengths (Named [
    Field "count" [] (name "u8" u8);
    Field "entries" [FNameValue ["length"] (EPath ["size"] false false)] (arr 4 "u16" u16)]).
Proof.
  intros f [<-|[<-|[]]] k p a q; cbn; [intros []|].
  intros [E|[]]. injection E as _ <- _ _. eauto.
Qed.

(** ** C67 *)
(** The code generated for a declaration reads and writes exactly as the
    marshalling of the type it describes does, on every buffer: same result, same
    bytes, same position. *)
Theorem c67_unmarshal d g t buf :
  derive d = Ok g -> describes d t -> rust_ok d ->
  run_unmarshal d g buf = unmarshal t buf.
Proof. exact (generated_unmarshal d g t buf). Qed.
Theorem c67_marshal d g t v buf :
  derive d = Ok g -> describes d t -> rust_ok d -> shaped d v ->
  run_marshal d g v buf = marshal t v buf.
Proof. exact (generated_marshal d g t v buf). Qed.

(** So the generated code keeps the round trip of C01. *)
Theorem c67_round_trip d g t v buf buf' n rest :
  derive d = Ok g -> describes d t -> rust_ok d -> shaped d v ->
  wf_ty t = true -> wf t v = true -> canonical t v ->
  run_marshal d g v buf = (buf', Ok n) ->
  run_unmarshal d g (firstn n buf' ++ rest) = (Ok v, rest).
Proof.
  intros Hg Hd Hr Hs Ht Hv Hc E.
  rewrite (c67_marshal d g t) in E by assumption. rewrite (c67_unmarshal d g t) by assumption.
  now apply (c01_round_trip t v buf).
Qed.

Definition plain (d : decl) (t : ty) : Prop :=
  is_ok (derive d) = true /\ structure_of d = Some t /\ rust_ok d
  /\ existsb (has_marshalable_attr "tpm2b_simple") (d_attrs d) = false
  /\ existsb (has_marshalable_attr "tpm2b_struct") (d_attrs d) = false.
Lemma plain_spec d t : plain d t -> (exists g, derive d = Ok g) /\ describes d t /\ rust_ok d.
Proof.
  intros (H1 & H2 & H3 & H4 & H5). split; [|split; [|exact H3]].
  - destruct (derive d); try discriminate. eauto.
  - right. rewrite <- !marked_spec, H4, H5. repeat split; [discriminate|discriminate|exact H2].
Qed.
Definition buffered (d : decl) (t : ty) : Prop :=
  existsb (has_marshalable_attr "tpm2b_simple") (d_attrs d) = true /\
  exists f max, d_data d = Struct f
    /\ (exists a, match f with Named [x; y] => f_name x <> f_name y | _ => False end
        /\ derive d = Ok (GTpm2b a max) /\ tpm2b_common f = Ok (a, max))
    /\ t = TTpm2b max.
Lemma buffered_spec d t : buffered d t -> (exists g, derive d = Ok g) /\ describes d t /\ rust_ok d.
Proof.
  intros (H1 & f & max & Ed & (a & Hn & E & Hc) & ->). apply marked_spec in H1.
  apply tpm2b_common_spec in Hc. split; [eauto|]. split; [left; eauto 10|].
  unfold rust_ok. rewrite Ed. destruct f as [[|x [|y [|? ?]]]|?|]; try contradiction.
  split; [|tauto]. cbn. constructor; [cbn; intuition congruence|]. constructor; [cbn; tauto|constructor].
Qed.

Fixpoint distinct (l : list string) : bool :=
  match l with [] => true | x :: l => negb (existsb (String.eqb x) l) && distinct l end.
Lemma distinct_spec l : distinct l = true -> NoDup l.
Proof.
  induction l as [|x l IH]; cbn; intros H; [constructor|].
  apply andb_true_iff in H. destruct H as [H1 H2]. constructor; [|auto].
  intros Hin. apply in_names in Hin. rewrite Hin in H1. discriminate.
Qed.
Definition rust_okb (d : decl) : bool :=
  match d_data d with
  | Struct (Named fs) =>
      distinct (map f_name fs) && negb (existsb (String.eqb "buffer") (map f_name fs))
  | Enum _ vs => distinct (map v_name vs)
  | _ => true
  end.
Lemma rust_okb_spec d : rust_okb d = true -> rust_ok d.
Proof.
  unfold rust_okb, rust_ok. destruct (d_data d) as [[fs|fs|]|k vs|]; auto using distinct_spec.
  intros H. apply andb_true_iff in H. destruct H as [H1 H2]. split; [now apply distinct_spec|].
  intros _ Hin. apply in_names in Hin. rewrite Hin in H2. discriminate.
Qed.
Ltac declared :=
  first [apply plain_spec; split; [vm_compute; reflexivity|]; split; [vm_compute; reflexivity|];
         split; [apply rust_okb_spec; vm_compute; reflexivity|]; split; vm_compute; reflexivity
        |apply buffered_spec; split; [reflexivity|]; eexists _, _; split; [reflexivity|];
         split; [eexists; split; [cbn; discriminate|split; vm_compute; reflexivity]|vm_compute; reflexivity]].
(** Every declaration of the library is accepted and describes the type of the
    catalogue that C01-C53 are about. *)
Theorem c67_library n d t :
  In (n, d, t) declarations -> (exists g, derive d = Ok g) /\ describes d t /\ rust_ok d.
Proof.
  revert n d t.
  assert (H : Forall (fun x => match x with (n, d, t) =>
    (exists g, derive d = Ok g) /\ describes d t /\ rust_ok d end) declarations).
  { unfold declarations. repeat (constructor; [declared|]). constructor. }
  rewrite Forall_forall in H. intros n d t Hin. exact (H _ Hin).
Qed.

(** The names of types in the declarations stand for what is declared under
    them, so no declaration is described by anything but the others. *)
Fixpoint named_types (e : tyexpr) : list (string * ty) :=
  match e with
  | TyPath p t => [(last p "", t)]
  | TyArray _ elem _ => named_types elem
  | TyOther t => [("", t)]
  end.
Definition fields_mention (fs : dfields) : list (string * ty) :=
  match fs with
  | Named fs => flat_map (fun f => named_types (f_ty f)) fs
  | Unnamed fs => flat_map (fun f => named_types (u_ty f)) fs
  | Unit => []
  end.
Definition mentions (d : decl) : list (string * ty) :=
  match d_data d with
  | Struct fs => fields_mention fs
  | Enum _ vs => flat_map (fun v => fields_mention (v_fields v)) vs
  | Union => []
  end.
Definition stands_for (n : string) (t : ty) : Prop :=
  In (n, t) [("u8", u8); ("u16", u16); ("u32", u32); ("u64", u64)]
  \/ (exists d, In (n, d, t) declarations)
  \/ (exists n' d, In (n, n') aliases /\ In (n', d, t) declarations).
Definition declared_as (n : string) : option ty :=
  match find (fun x => String.eqb (fst (fst x)) n) declarations with Some (_, _, t) => Some t | None => None end.
Definition meaning (n : string) : option ty :=
  match find (fun x => String.eqb (fst x) n) [("u8", u8); ("u16", u16); ("u32", u32); ("u64", u64)] with
  | Some (_, t) => Some t
  | None => match find (fun x => String.eqb (fst x) n) aliases with
            | Some (_, n') => declared_as n'
            | None => declared_as n end end.
Lemma declared_as_spec n t : declared_as n = Some t -> exists d, In (n, d, t) declarations.
Proof.
  unfold declared_as. destruct (find _ declarations) as [[[m d] u]|] eqn:F; [|discriminate].
  intros E. injection E as ->. apply find_some in F. cbn [fst] in F. destruct F as [F N].
  apply String.eqb_eq in N. subst m. eauto.
Qed.
Lemma meaning_spec n t : meaning n = Some t -> stands_for n t.
Proof.
  unfold meaning, stands_for.
  destruct (find _ [("u8", u8); ("u16", u16); ("u32", u32); ("u64", u64)]) as [[m u]|] eqn:F.
  { intros E. injection E as ->. apply find_some in F. cbn [fst] in F. destruct F as [F N].
    apply String.eqb_eq in N. subst m. auto. }
  destruct (find _ aliases) as [[m m']|] eqn:A.
  - intros E. apply declared_as_spec in E. destruct E as [d E]. apply find_some in A. cbn [fst] in A.
    destruct A as [A N]. apply String.eqb_eq in N. subst m. right. right. eauto.
  - intros E. apply declared_as_spec in E. auto.
Qed.
Theorem c67_names n d t m u : In (n, d, t) declarations -> In (m, u) (mentions d) -> stands_for m u.
Proof.
  intros Hin Hm. apply meaning_spec.
  assert (E : map (fun x => meaning (fst x)) (flat_map (fun x => mentions (snd (fst x))) declarations)
              = map (fun x => Some (snd x)) (flat_map (fun x => mentions (snd (fst x))) declarations))
    by (vm_compute; reflexivity).
  assert (H : In (m, u) (flat_map (fun x => mentions (snd (fst x))) declarations)).
  { apply in_flat_map. exists (n, d, t). auto. }
  revert E H. generalize (flat_map (fun x => mentions (snd (fst x))) declarations). clear.
  induction l as [|x l IH]; [contradiction|]. cbn [map]. intros E. injection E as E1 E2.
  intros [->|H]; [exact E1|auto].
Qed.
(** No name is given twice. *)
Theorem c67_names_once : NoDup (["u8"; "u16"; "u32"; "u64"] ++ map (fun x => fst (fst x)) declarations ++ map fst aliases).
Proof.
  assert (H : forall l : list string, nodup string_dec l = l -> NoDup l).
  { intros l <-. apply NoDup_nodup. }
  apply H. vm_compute. reflexivity.
Qed.

Corollary library_marshal n d t v buf : In (n, d, t) declarations -> shaped d v ->
  exists g, derive d = Ok g /\ run_marshal d g v buf = marshal t v buf
            /\ run_unmarshal d g buf = unmarshal t buf.
Proof.
  intros Hin Hs. destruct (c67_library _ _ _ Hin) as ((g & Hg) & Hd & Hr).
  exists g. auto using c67_marshal, c67_unmarshal.
Qed.

Example c67_example :
  (exists d, In ("TpmsClockInfo", d, TpmsClockInfo) declarations)
  /\ shaped (decl_counted ["count"]) (VStruct [VInt 2; VArr [VInt 258; VInt 772; VInt 0; VInt 0]])
  /\ exists g, derive (decl_counted ["count"]) = Ok g
     /\ run_marshal (decl_counted ["count"]) g (VStruct [VInt 2; VArr [VInt 258; VInt 772; VInt 0; VInt 0]])
          (repeat xff 6) = ([x02; x01; x02; x03; x04; xff], Ok 5%nat)
     /\ run_unmarshal (decl_counted ["count"]) g [x02; x01; x02; x03; x04; xff]
        = (Ok (VStruct [VInt 2; VArr [VInt 258; VInt 772; VInt 0; VInt 0]]), [xff])
     /\ run_unmarshal (decl_counted ["count"]) g [x05; x01; x02] = (Err ArrayLengthExceeded, [x01; x02]).
Proof.
  split; [|split; [reflexivity|eexists; split; [reflexivity|vm_compute; auto]]].
  eexists. apply nth_error_In with (n := 46%nat). reflexivity.
Qed.

(** ** C68 *)
(** A struct gets the code of a sized buffer exactly if [tpm2b_simple] stands
    alone or last in a [#[marshalable(..)]] on it; then it must consist of [size:
    u16] and an array of bytes. *)
Theorem c68_sized_partial d buffer max :
  derive d = Ok (GTpm2b buffer max)
  <-> marked d "tpm2b_simple"
      /\ exists fs, d_data d = Struct fs /\ sized_buffer fs buffer max /\ fields_ok fs.
Proof.
  split.
  - intros E. assert (Ha : accepted d) by (apply derive_accepts; eauto).
    unfold derive in E. unfold accepted in Ha. destruct (d_data d) as [fs|k vs|]; [| |discriminate].
    + destruct (field_marshal_body fs); cbn [obind] in E; try discriminate.
      destruct (field_unmarshal fs); cbn [obind] in E; try discriminate.
      destruct (existsb (has_marshalable_attr "tpm2b_simple") (d_attrs d)) eqn:Es.
      * split; [now apply marked_spec|]. exists fs. split; [reflexivity|]. split; [|tauto].
        destruct (tpm2b_common fs) as [[b m]|e|] eqn:Ec; cbn in E; try discriminate.
        injection E as -> ->. now apply tpm2b_common_spec.
      * destruct (existsb (has_marshalable_attr "tpm2b_struct") (d_attrs d)); discriminate.
    + destruct (enum_marshal_body vs); cbn [obind] in E; try discriminate.
      destruct (enum_uarms [] vs); cbn in E; try discriminate.
      match goal with E : Ok (if ?b then _ else _) = _ |- _ => destruct b end; discriminate.
  - intros (Hm & fs & Ed & Hs & Hf).
    assert (Ha : accepted d) by (unfold accepted; rewrite Ed; split; [exact Hf|eauto]).
    apply derive_accepts in Ha. destruct Ha as (g & Hg). rewrite Hg. f_equal.
    unfold derive in Hg. rewrite Ed in Hg.
    destruct (field_marshal_body fs); cbn [obind] in Hg; try discriminate.
    destruct (field_unmarshal fs); cbn [obind] in Hg; try discriminate.
    apply marked_spec in Hm. rewrite Hm in Hg. apply tpm2b_common_spec in Hs.
    rewrite Hs in Hg. cbn in Hg. congruence.
Qed.

(** Any tokens behind the name, be it one comma, hide it: the struct is
    marshalled field by field, all of its array included. *)
Definition decl_name (toks : list token) : decl :=
  Decl [AMarshalable toks] (Struct (Named [
    Field "size" [] (name "u16" u16); Field "name" [] (arr 3 "u8" u8)])).
Theorem c68_listed_refuted :
  exists toks g g', In (TkPath ["tpm2b_simple"]) toks
  /\ derive (decl_name toks) = Ok g /\ derive (decl_name [TkPath ["tpm2b_simple"]]) = Ok g'
  /\ run_unmarshal (decl_name [TkPath ["tpm2b_simple"]]) g' [x00; x01; xaa]
     = (Ok (VTpm2b 1 [xaa; x00; x00]), [])
  /\ run_unmarshal (decl_name toks) g [x00; x01; xaa] = (Err UnexpectedEndOfBuffer, [])
  /\ run_marshal (decl_name toks) g (VStruct [VInt 1; VArr [VInt 170; VInt 0; VInt 0]]) (repeat xff 6)
     = ([x00; x01; xaa; x00; x00; xff], Ok 5%nat).
Proof.
  eexists [TkPath ["tpm2b_simple"]; TkComma], _, _.
  split; [left; reflexivity|]. split; [reflexivity|]. split; [reflexivity|].
  split; [reflexivity|]. split; reflexivity.
Qed.

(** [#[marshalable(..)]] on the fields of a tuple struct or of a variant is not
    looked at: a [length] there has no effect, and is not refused. *)
Definition drop_attrs (fs : dfields) : dfields :=
  match fs with
  | Unnamed fs => Unnamed (map (fun f => UField [] (u_ty f)) fs)
  | fs => fs
  end.
Definition undecorated (d : decl) : decl :=
  Decl (d_attrs d)
    (match d_data d with
     | Struct fs => Struct (drop_attrs fs)
     | Enum k vs => Enum k (map (fun v => Variant (v_name v) (drop_attrs (v_fields v)) (v_disc v)) vs)
     | Union => Union
     end).
Lemma vars_map {A B} (f : A -> B) l : vars (map f l) = vars l.
Proof. unfold vars. now rewrite map_length. Qed.
Lemma drop_list fs : field_list (drop_attrs fs) = field_list fs.
Proof. destruct fs; cbn [drop_attrs field_list]; rewrite ?vars_map; reflexivity. Qed.
Lemma combine_map {A B C D} (g : B -> C) (h : A * C -> D) (k : A * B -> D) (xs : list A) :
  (forall x y, h (x, g y) = k (x, y)) -> forall ys, map h (combine xs (map g ys)) = map k (combine xs ys).
Proof.
  intros H. induction xs as [|x xs IH]; intros [|y ys]; cbn; try reflexivity. now rewrite H, IH.
Qed.
Lemma drop_unmarshal fs : field_unmarshal (drop_attrs fs) = field_unmarshal fs.
Proof.
  destruct fs as [fs|fs|]; cbn [drop_attrs field_unmarshal]; try reflexivity.
  rewrite vars_map. f_equal. now apply combine_map.
Qed.
Theorem c68_tuple_attributes_ignored d : derive (undecorated d) = derive d.
Proof.
  unfold derive, undecorated. cbn [d_data d_attrs]. destruct (d_data d) as [fs|k vs|]; [| |reflexivity].
  - rewrite drop_unmarshal, drop_list.
    assert (E1 : field_marshal_body (drop_attrs fs) = field_marshal_body fs)
      by (destruct fs; cbn [drop_attrs field_marshal_body]; rewrite ?map_length; reflexivity).
    assert (E2 : tpm2b_common (drop_attrs fs) = tpm2b_common fs) by (destruct fs; reflexivity).
    now rewrite E1, E2.
  - assert (E1 : enum_arms (map (fun v => Variant (v_name v) (drop_attrs (v_fields v)) (v_disc v)) vs)
                 = enum_arms vs).
    { induction vs as [|v vs IH]; cbn [map enum_arms]; [reflexivity|]. rewrite IH.
      cbn [v_fields v_name]. rewrite drop_list.
      destruct (v_fields v); cbn [drop_attrs]; rewrite ?vars_map; reflexivity. }
    assert (E2 : forall es, enum_uarms es
                   (map (fun v => Variant (v_name v) (drop_attrs (v_fields v)) (v_disc v)) vs)
                 = enum_uarms es vs).
    { clear E1. induction vs as [|v vs IH]; intros es; cbn [map enum_uarms]; [reflexivity|].
      cbn [v_fields v_name v_disc]. rewrite drop_unmarshal, drop_list, IH.
      destruct (field_unmarshal (v_fields v)); [|apply IH|reflexivity].
      destruct (v_disc v); reflexivity. }
    unfold enum_marshal_body. now rewrite E1, E2.
Qed.

(** [tpm2b_struct] without [tpm2b_simple] suppresses the implementation. *)
Theorem c68_struct_no_impl d g :
  derive d = Ok g -> marked d "tpm2b_struct" -> ~ marked d "tpm2b_simple" -> g = GNoImpl.
Proof.
  intros E Hs Hn. apply marked_spec in Hs. rewrite <- marked_spec in Hn. apply not_true_iff_false in Hn.
  unfold derive in E. rewrite Hs, Hn in E. destruct (d_data d) as [fs|k vs|]; [| |discriminate].
  - destruct (field_marshal_body fs); cbn [obind] in E; try discriminate.
    destruct (field_unmarshal fs); cbn [obind] in E; congruence.
  - destruct (enum_marshal_body vs); cbn [obind] in E; try discriminate.
    destruct (enum_uarms [] vs); cbn in E; congruence.
Qed.

Example c68_example :
  marked (decl_name [TkPath ["tpm2b_simple"]]) "tpm2b_simple"
  /\ marked (decl_name [TkPath ["other"]; TkComma; TkPath ["tpm2b_simple"]]) "tpm2b_simple"
  /\ ~ marked (decl_name [TkPath ["tpm2b_simple"]; TkComma]) "tpm2b_simple"
  /\ derive (decl_name [TkPath ["tpm2b_simple"]]) = Ok (GTpm2b "name" 3)
  /\ derive (decl_name [TkPath ["tpm2b_struct"]]) = Ok GNoImpl.
Proof.
  rewrite <- !marked_spec. repeat split; try reflexivity. vm_compute. discriminate.
Qed.
