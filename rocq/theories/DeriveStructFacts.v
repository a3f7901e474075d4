(** What [#[derive(Tpm2bStruct)]] takes and generates (C72). *)
From Coq Require Import String ZArith NArith List Lia Bool.
From Coq Require Import Init.Byte.
From Verif Require Import Prelude Types Marshal WireSpec MarshalProofs WriteSpec MarshalWrite Layout Catalogue
  Samples Errors Tpm2b MarshalFacts Tpm2bFacts Derive DeriveRun DeriveSpec DeriveProofs Declarations DeriveStruct.
Import ListNotations.
Local Open Scope string_scope.
Local Open Scope list_scope.
Open Scope Z_scope.

(** The documented form (marshalable-derive/src/lib.rs:17-25): a struct with
    [size: u16] and an array of bytes as long as a named type is large. *)
Definition size_of_call (p : path) (t : ty) : expr :=
  ExCall (FnPath [Segment "size_of" (SaAngle [GaPath p t])]).
Definition documented (d : sdecl) (name : string) (p : path) (t : ty) : Prop :=
  exists fs, s_data d = Struct fs /\ sized_buffer fs name (size_of t) /\ s_len d = size_of_call p t.
(** What it takes: more segments, more generic arguments and other lengths,
    too, since it looks at the first segment and the first argument only. *)
Definition taken (d : sdecl) (name : string) (p : path) (t : ty) : Prop :=
  exists fs max segs gs, s_data d = Struct fs /\ sized_buffer fs name max
  /\ s_len d = ExCall (FnPath (Segment "size_of" (SaAngle (GaPath p t :: gs)) :: segs)).

(** ** C72 *)
(** Every declaration of the documented form is taken, and the implementation
    is for the type named in it. *)
Theorem c72_documented d name p t :
  documented d name p t -> derive_wrapper d = Ok (Wrapper name p t).
Proof.
  intros (fs & Ed & Hs & El). unfold derive_wrapper, derive_struct. rewrite Ed, El.
  apply tpm2b_common_spec in Hs. rewrite Hs. reflexivity.
Qed.

(** Exactly what is taken: the macro never panics, and everything but these is
    an error. *)
Theorem c72_taken d w :
  derive_wrapper d = Ok w <-> exists name p t, taken d name p t /\ w = Wrapper name p t.
Proof.
  unfold derive_wrapper, derive_struct, taken. split.
  - destruct (s_data d) as [fs| |]; try discriminate.
    destruct (tpm2b_common fs) as [[name max]|e|] eqn:Ec; try discriminate. cbn [omap_err obind].
    apply tpm2b_common_spec in Ec.
    destruct (s_len d) as [[[|[i a] segs]|]|]; try discriminate. cbn [seg_ident seg_arguments].
    destruct (String.eqb i "size_of") eqn:Ei; [|discriminate]. apply String.eqb_eq in Ei. subst i. cbn [negb].
    destruct a as [|[|[p t|] gs]|]; try discriminate. intros E. injection E as <-.
    exists name, p, t. split; [|reflexivity]. exists fs, max, segs, gs. auto.
  - intros (name & p & t & (fs & max & segs & gs & -> & Hs & ->) & ->).
    apply tpm2b_common_spec in Hs. rewrite Hs. reflexivity.
Qed.
Theorem c72_total d : is_panic (derive_wrapper d) = false.
Proof.
  unfold derive_wrapper, derive_struct. destruct (s_data d) as [fs| |]; try reflexivity.
  assert (H : is_panic (tpm2b_common fs) = false).
  { unfold tpm2b_common. destruct fs as [[|f1 [|f2 [|? ?]]]|?|]; try reflexivity.
    destruct (negb _); [reflexivity|]. destruct (f_ty f2) as [? ?|? [? ?|? ? ?|?] ?|?]; try reflexivity.
    destruct (is_ident _ _); reflexivity. }
  destruct (tpm2b_common fs) as [[name max]|e|]; try reflexivity; [|discriminate]. cbn [omap_err obind].
  destruct (s_len d) as [[[|[i a] segs]|]|]; try reflexivity. cbn [seg_ident seg_arguments].
  destruct (String.eqb i "size_of"); [|reflexivity]. destruct a as [|[|[p t|] gs]|]; reflexivity.
Qed.

(** The form is not required: a function [size_of] of the user's with any
    value, and a second argument, are taken as well; and the same expression
    with the full path of the function is refused. *)
Theorem c72_form_refuted :
  (exists d name p t, derive_wrapper d = Ok (Wrapper name p t) /\ ~ documented d name p t)
  /\ exists fs name p t, sized_buffer fs name (size_of t)
     /\ derive_wrapper (SDecl (Struct fs)
          (ExCall (FnPath [Segment "core" SaNone; Segment "mem" SaNone; Segment "size_of" (SaAngle [GaPath p t])])))
        = Err SSizeOf.
Proof.
  split.
  - exists (SDecl (Struct (Named [Field "size" [] (TyPath ["u16"] u16);
        Field "x" [] (TyArray 3 (TyPath ["u8"] u8) (VInt 0))]))
      (ExCall (FnPath [Segment "size_of" (SaAngle [GaPath ["T"] TpmsClockInfo; GaOther])]))),
      "x", ["T"], TpmsClockInfo.
    split; [reflexivity|]. intros (fs & _ & _ & E). discriminate E.
  - exists (Named [Field "size" [] (TyPath ["u16"] u16);
        Field "x" [] (TyArray (size_of TpmsClockInfo) (TyPath ["u8"] u8) (VInt 0))]), "x", ["T"], TpmsClockInfo.
    split; [repeat eexists|reflexivity].
Qed.

(** The generated functions, whatever the length of the array: if the encoding
    fits it and 16 bits, wrapping gives a well-formed sized buffer that holds
    the encoding, and unwrapping gives the value back ([canon]: bytes beyond the
    size of a sized buffer in it come back as zeros). *)
Theorem c72_generated w max v :
  wf_ty (w_type w) = true -> wf (w_type w) v = true ->
  (N.of_nat (length (enc (w_type w) v)) <= max)%N -> Z.of_nat (length (enc (w_type w) v)) < 65536 ->
  exists b, run_from_struct w max v = Ok b
    /\ wf (TTpm2b max) b = true /\ canonical (TTpm2b max) b
    /\ as_ref b = Ok (enc (w_type w) v)
    /\ run_to_struct w b = Ok (canon (w_type w) v)
    /\ (canonical (w_type w) v -> run_to_struct w b = Ok v).
Proof.
  intros Ht Hv Hm Hl. destruct w as [name p t]. cbn [w_type] in *.
  unfold run_from_struct. cbn [w_type].
  rewrite marshal_fits by (try assumption; rewrite repeat_length; lia). cbn [obind].
  rewrite Z.mod_small by lia. set (e := enc t v) in *.
  assert (O : overwrite e (repeat x00 (N.to_nat max)) = e ++ repeat x00 (N.to_nat max - length e)).
  { unfold overwrite. f_equal.
    replace (N.to_nat max) with (length e + (N.to_nat max - length e))%nat at 1 by lia.
    rewrite repeat_app. apply skipn_app_exact'. now rewrite repeat_length. }
  rewrite O. eexists. split; [reflexivity|]. split; [|split; [|split]].
  - cbn [wf]. rewrite app_length, repeat_length, !andb_true_iff. repeat split.
    + apply in_range_iff. change (pow256 2) with 65536. lia.
    + apply N.leb_le. lia.
    + apply N.eqb_eq. lia.
  - unfold canonical. cbn [canon]. rewrite Nat2Z.id, firstn_app_exact. reflexivity.
  - unfold as_ref, get_buffer.
    assert (Hu : usize (Z.of_nat (length e)) = N.of_nat (length e)).
    { unfold usize. rewrite Z.mod_small by lia. lia. }
    rewrite Hu, app_length. destruct (N.ltb_spec (N.of_nat (length e + length (repeat x00 (N.to_nat max - length e)))) (N.of_nat (length e))); [lia|].
    rewrite Nat2N.id, firstn_app_exact. reflexivity.
  - change (run_to_struct (Wrapper name p t)) with (to_struct t). rewrite to_struct_bytes by exact Hl.
    unfold e. rewrite <- (app_nil_r (enc t v)), unm_enc by assumption. cbn [fst].
    split; [reflexivity|]. unfold canonical. now intros ->.
Qed.

(** So with the documented form nothing can go wrong: every value of the named
    type fits, and the functions are those of C13 and C14. *)
Theorem c72_runs d name p t v :
  documented d name p t -> wf_ty t = true -> (size_of t < 65536)%N -> wf t v = true ->
  exists w b, derive_wrapper d = Ok w
    /\ run_from_struct w (size_of t) v = Ok b /\ from_struct t v = Ok b
    /\ as_ref b = Ok (enc t v)
    /\ run_to_struct w b = Ok (canon t v) /\ (canonical t v -> run_to_struct w b = Ok v).
Proof.
  intros Hd Ht Hs Hv. exists (Wrapper name p t).
  pose proof (enc_size_of t v Hv) as L.
  assert (L' : Z.of_nat (length (enc t v)) < 65536) by lia.
  destruct (c72_generated (Wrapper name p t) (size_of t) v Ht Hv L L') as (b & E & _ & _ & A & T).
  exists b. split; [now apply c72_documented|]. auto.
Qed.

(** The three declarations of base/src/lib.rs with this attribute (877-882,
    1207-1212, 1497-1502). *)
Definition wrappers : list (string * string * expr * ty) := [
  ("Tpm2bSensitiveCreate", "sensitive", size_of_call ["TpmsSensitiveCreate"] TpmsSensitiveCreate, TpmsSensitiveCreate);
  ("Tpm2bPublic", "public_area", size_of_call ["TpmtPublic"] TpmtPublic, TpmtPublic);
  ("Tpm2bCreationData", "creation_data", size_of_call ["TpmsCreationData"] TpmsCreationData, TpmsCreationData)].
(** Each is declared as documented, with the declaration of C67, for the type
    named in it; and every value of that type goes in and out. *)
Theorem c72_library n field e t : In (n, field, e, t) wrappers ->
  exists d tb p, In (n, d, tb) declarations
    /\ documented (SDecl (d_data d) e) field p t /\ In (t, tb) wrapped
    /\ forall v, wf t v = true ->
         exists w b, derive_wrapper (SDecl (d_data d) e) = Ok w
           /\ run_from_struct w (size_of t) v = Ok b /\ wf tb b = true
           /\ as_ref b = Ok (enc t v)
           /\ run_to_struct w b = Ok (canon t v) /\ (canonical t v -> run_to_struct w b = Ok v).
Proof.
  intros Hin.
  assert (H : exists d tb p, In (n, d, tb) declarations
    /\ documented (SDecl (d_data d) e) field p t /\ In (t, tb) wrapped).
  { destruct Hin as [E|[E|[E|[]]]]; injection E as <- <- <- <-.
    - eexists _, Tpm2bSensitiveCreate, ["TpmsSensitiveCreate"].
      split; [unfold declarations; repeat first [left; reflexivity | right]|].
      split; [|cbn; auto]. eexists. split; [reflexivity|]. split; [repeat eexists|reflexivity].
    - eexists _, Tpm2bPublic, ["TpmtPublic"].
      split; [unfold declarations; repeat first [left; reflexivity | right]|].
      split; [|cbn; auto]. eexists. split; [reflexivity|]. split; [repeat eexists|reflexivity].
    - eexists _, Tpm2bCreationData, ["TpmsCreationData"].
      split; [unfold declarations; repeat first [left; reflexivity | right]|].
      split; [|cbn; auto]. eexists. split; [reflexivity|]. split; [repeat eexists|reflexivity]. }
  destruct H as (d & tb & p & Hdecl & Hdoc & Hw). exists d, tb, p. split; [exact Hdecl|]. split; [exact Hdoc|].
  split; [exact Hw|]. intros v Hv.
  assert (O : wf_ty t = true /\ (size_of t < 65536)%N /\ tb = TTpm2b (size_of t)).
  { destruct Hw as [E|[E|[E|[]]]]; injection E as <- <-; vm_compute; auto. }
  destruct O as (Ht & Hs & ->). pose proof (enc_size_of t v Hv) as L.
  assert (L' : Z.of_nat (length (enc t v)) < 65536) by lia.
  destruct (c72_generated (Wrapper field p t) (size_of t) v Ht Hv L L') as (b & E & W & _ & A & T).
  exists (Wrapper field p t), b. split; [now apply c72_documented|]. auto.
Qed.

(** *** The hypotheses can be met *)
Example c72_example :
  exists d name p b,
    documented d name p TpmsSensitiveCreate
    /\ wf TpmsSensitiveCreate sample_sensitive = true /\ canonical TpmsSensitiveCreate sample_sensitive
    /\ run_from_struct (Wrapper name p TpmsSensitiveCreate) (size_of TpmsSensitiveCreate) sample_sensitive = Ok b
    /\ get_size b = Z.of_nat (length (enc TpmsSensitiveCreate sample_sensitive))
    /\ run_to_struct (Wrapper name p TpmsSensitiveCreate) b = Ok sample_sensitive.
Proof.
  eexists (SDecl (Struct (Named [Field "size" [] (TyPath ["u16"] u16);
      Field "sensitive" [] (TyArray (size_of TpmsSensitiveCreate) (TyPath ["u8"] u8) (VInt 0))]))
    (size_of_call ["TpmsSensitiveCreate"] TpmsSensitiveCreate)), "sensitive", ["TpmsSensitiveCreate"], _.
  split. { eexists. split; [reflexivity|]. split; [repeat eexists|reflexivity]. }
  split; [vm_compute; reflexivity|]. split; [vm_compute; reflexivity|].
  split; [vm_compute; reflexivity|]. split; vm_compute; reflexivity.
Qed.
(** Wrong forms are refused. *)
Example c72_refused :
  derive_wrapper (SDecl Union ExOther) = Err SNotAStruct
  /\ derive_wrapper (SDecl (Struct Unit) (size_of_call ["T"] u8)) = Err (STpm2b [Tpm2bGeneral])
  /\ derive_wrapper (SDecl (Struct (Named [Field "size" [] (TyPath ["u16"] u16);
       Field "x" [] (TyArray 3 (TyPath ["u8"] u8) (VInt 0))])) ExOther) = Err SSizeOf.
Proof. repeat split. Qed.
