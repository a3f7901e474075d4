(** C93: the bytes of a command say what was asked for. *)
From Coq Require Import String ZArith NArith List Lia Bool.
From Coq Require Import Init.Byte.
From Verif Require Import Prelude Types Marshal WireSpec MarshalProofs MarshalFacts Layout Catalogue
  Samples Errors Attrs Tpm2b Tpm2bFacts Client ClientSpec ClientProofs ClientFacts.
Import ListNotations.
Open Scope Z_scope.

(** What a call gives to the connection. *)
Definition sent {S E} (from_tss : Z -> E) (tpm : connection S E) (s : S) c cmd handles a : list (list byte) :=
  snd (fst (run_command_with_handles from_tss (recording tpm) (s, []) c cmd handles a)).

Lemma auth_command_wf_ty : wf_ty TpmsAuthCommand = true.
Proof. reflexivity. Qed.
Lemma auth_command_nonempty v : wf TpmsAuthCommand v = true -> enc TpmsAuthCommand v <> [].
Proof.
  intros Hw E. pose proof (unm_enc TpmsAuthCommand v [] auth_command_wf_ty Hw) as U. rewrite E in U. cbn in U. discriminate U.
Qed.
Lemma auth_bytes_same ss1 : forall ss2, Forall wf_session ss1 -> Forall wf_session ss2 ->
  auth_bytes ss1 = auth_bytes ss2 ->
  map (fun s => canon TpmsAuthCommand (auth_command s)) ss1 = map (fun s => canon TpmsAuthCommand (auth_command s)) ss2.
Proof.
  induction ss1 as [|s1 ss1 IH]; intros [|s2 ss2] F1 F2 E; [reflexivity| | |].
  - exfalso. inversion F2; subst. symmetry in E. cbn [auth_bytes flat_map] in E. apply app_eq_nil in E.
    exact (auth_command_nonempty _ H1 (proj1 E)).
  - exfalso. inversion F1; subst. cbn [auth_bytes flat_map] in E. apply app_eq_nil in E.
    exact (auth_command_nonempty _ H1 (proj1 E)).
  - inversion F1; inversion F2; subst. cbn [auth_bytes flat_map] in E.
    destruct (c10_unique_decodability TpmsAuthCommand _ _ _ _ auth_command_wf_ty H1 H5 E) as [C R].
    cbn [map]. f_equal; [exact C|]. now apply IH.
Qed.
Lemma enc_canon v : wf TpmsAuthCommand v = true -> enc TpmsAuthCommand (canon TpmsAuthCommand v) = enc TpmsAuthCommand v.
Proof.
  intros Hv. pose proof (unm_enc TpmsAuthCommand v [] auth_command_wf_ty Hv) as H'.
  apply unm_inv in H'; [|exact auth_command_wf_ty]. destruct H' as (_ & _ & H'). rewrite !app_nil_r in H'. symmetry. exact H'.
Qed.
Lemma be_bytes_same n x y : 0 <= x < pow256 n -> 0 <= y < pow256 n -> be_bytes n x = be_bytes n y -> x = y.
Proof.
  intros Hx Hy E. apply (f_equal be_val) in E. rewrite !be_val_bytes, !Z.mod_small in E by lia. exact E.
Qed.
Lemma app_same {A} (a b c d : list A) : length a = length c -> a ++ b = c ++ d -> a = c /\ b = d.
Proof.
  revert c. induction a as [|x a IH]; intros [|y c] L E; try discriminate L; [auto|].
  injection E as -> E. destruct (IH c (eq_add_S _ _ L) E) as [-> ->]. auto.
Qed.

Lemma sent_frame S E (from_tss : Z -> E) (tpm : connection S E) s c cmd handles a f :
  valid_call c cmd handles a -> sent from_tss tpm s c cmd handles a = [f] ->
  f = command_frame c cmd handles a /\ fits (command_frame c cmd handles a).
Proof.
  intros V E1. unfold sent in E1. rewrite c30_frame in E1 by exact V.
  destruct (Z.leb_spec (Z.of_nat (length (command_frame c cmd handles a))) 4096) as [L|L]; [|discriminate].
  injection E1 as <-. split; [reflexivity|exact L].
Qed.
Lemma frame_same c1 cmd1 handles1 a1 c2 cmd2 handles2 a2 :
  valid_call c1 cmd1 handles1 a1 -> valid_call c2 cmd2 handles2 a2 ->
  fits (command_frame c1 cmd1 handles1 a1) ->
  command_frame c1 cmd1 handles1 a1 = command_frame c2 cmd2 handles2 a2 ->
  code c1 = code c2
  /\ (handles_ty c1 = handles_ty c2 -> cmd_ty c1 = cmd_ty c2 ->
      canon (handles_ty c1) handles1 = canon (handles_ty c2) handles2
      /\ canon (cmd_ty c1) cmd1 = canon (cmd_ty c2) cmd2
      /\ map (fun s => canon TpmsAuthCommand (auth_command s)) (sessions_of a1)
         = map (fun s => canon TpmsAuthCommand (auth_command s)) (sessions_of a2)).
Proof.
  intros V1 V2 L E. assert (L2 : fits (command_frame c2 cmd2 handles2 a2)) by (rewrite <- E; exact L).
  destruct V1 as (C1 & P1 & H1 & A1), V2 as (C2 & P2 & H2 & A2).
  unfold fits in L, L2. rewrite frame_length in L, L2. unfold command_frame in E.
  apply app_same in E; [|rewrite !be_bytes_length; reflexivity]. destruct E as [T E].
  apply app_same in E; [|rewrite !be_bytes_length; reflexivity]. destruct E as [_ E].
  apply app_same in E; [|rewrite !be_bytes_length; reflexivity]. destruct E as [K E].
  apply be_bytes_same in K; [|change (pow256 4) with (2 ^ 32); apply C1|change (pow256 4) with (2 ^ 32); apply C2].
  split; [exact K|]. intros TH TC. unfold command_body in *.
  assert (WH : wf_ty (handles_ty c1) = true) by apply C1. assert (WC : wf_ty (cmd_ty c1) = true) by apply C1.
  rewrite <- TH, <- TC in *.
  apply c10_unique_decodability in E; [|assumption..]. destruct E as [-> E].
  apply be_bytes_same in T; [|change (pow256 2) with 65536; destruct (sessions_of a1); split; reflexivity || discriminate|change (pow256 2) with 65536; destruct (sessions_of a2); split; reflexivity || discriminate].
  assert (B : map (fun s => canon TpmsAuthCommand (auth_command s)) (sessions_of a1)
       = map (fun s => canon TpmsAuthCommand (auth_command s)) (sessions_of a2)
       /\ enc (cmd_ty c1) cmd1 = enc (cmd_ty c1) cmd2).
  { unfold wf_area in *. rewrite !app_length in L, L2.
    destruct (sessions_of a1) as [|s1 ss1], (sessions_of a2) as [|s2 ss2]; try discriminate T.
    { split; [reflexivity|exact E]. }
    cbn [auth_area] in *. set (x := auth_bytes (s1 :: ss1)) in *. set (y := auth_bytes (s2 :: ss2)) in *.
    rewrite !app_length, be_bytes_length in L, L2. rewrite <- !app_assoc in E.
    apply app_same in E; [|rewrite !be_bytes_length; reflexivity]. destruct E as [N E].
    apply be_bytes_same in N; [|change (pow256 4) with (2 ^ 32); lia..].
    apply app_same in E; [|lia]. destruct E as [X E]. split; [|exact E]. now apply auth_bytes_same. }
  destruct B as [B D]. repeat split; [|exact B].
  assert (D' : enc (cmd_ty c1) cmd1 ++ [] = enc (cmd_ty c1) cmd2 ++ []) by now rewrite D.
  apply c10_unique_decodability in D'; [|assumption..]. apply D'.
Qed.

(** ** C93 *)
(** Two calls that give the connection the same bytes have the same command
    code; if it stands for the same types, they have the same handles, the same
    parameters, and as many sessions with the same authorizations.  ([canon] is
    the value without entries behind a count, which are not sent.) *)
Theorem c93_same_bytes : forall S1 S2 E1 E2 (from_tss1 : Z -> E1) (from_tss2 : Z -> E2)
    (tpm1 : connection S1 E1) (tpm2 : connection S2 E2) s1 s2 c1 c2 cmd1 cmd2 handles1 handles2 a1 a2 frame,
  valid_call c1 cmd1 handles1 a1 -> valid_call c2 cmd2 handles2 a2 ->
  sent from_tss1 tpm1 s1 c1 cmd1 handles1 a1 = [frame] ->
  sent from_tss2 tpm2 s2 c2 cmd2 handles2 a2 = [frame] ->
  code c1 = code c2
  /\ (handles_ty c1 = handles_ty c2 -> cmd_ty c1 = cmd_ty c2 ->
      canon (handles_ty c1) handles1 = canon (handles_ty c2) handles2
      /\ canon (cmd_ty c1) cmd1 = canon (cmd_ty c2) cmd2
      /\ map (fun s => canon TpmsAuthCommand (auth_command s)) (sessions_of a1)
         = map (fun s => canon TpmsAuthCommand (auth_command s)) (sessions_of a2)).
Proof.
  intros S1 S2 E1 E2 f1 f2 tpm1 tpm2 s1 s2 c1 c2 cmd1 cmd2 h1 h2 a1 a2 frame V1 V2 X1 X2.
  apply sent_frame in X1; [|exact V1]. apply sent_frame in X2; [|exact V2].
  destruct X1 as [-> L], X2 as [E _]. now apply frame_same.
Qed.
(** The library's commands: the bytes tell which one. *)
Theorem c93_library : forall S1 S2 E1 E2 (from_tss1 : Z -> E1) (from_tss2 : Z -> E2)
    (tpm1 : connection S1 E1) (tpm2 : connection S2 E2) s1 s2 c1 c2 cmd1 cmd2 handles1 handles2 a1 a2 frame,
  In c1 library_commands -> In c2 library_commands ->
  valid_call c1 cmd1 handles1 a1 -> valid_call c2 cmd2 handles2 a2 ->
  sent from_tss1 tpm1 s1 c1 cmd1 handles1 a1 = [frame] ->
  sent from_tss2 tpm2 s2 c2 cmd2 handles2 a2 = [frame] ->
  c1 = c2 /\ canon (cmd_ty c1) cmd1 = canon (cmd_ty c2) cmd2.
Proof.
  intros S1 S2 E1 E2 f1 f2 tpm1 tpm2 s1 s2 c1 c2 cmd1 cmd2 h1 h2 a1 a2 frame I1 I2 V1 V2 X1 X2.
  destruct (c93_same_bytes _ _ _ _ _ _ _ _ _ _ _ _ _ _ _ _ _ _ _ V1 V2 X1 X2) as [K R].
  assert (c1 = c2) as <-.
  { unfold library_commands in I1, I2. cbn [In] in I1, I2.
    decompose [or] I1; try contradiction; subst c1; decompose [or] I2; try contradiction; subst c2;
      try reflexivity; discriminate K. }
  destruct (R eq_refl eq_refl) as (_ & C & _). auto.
Qed.
(** With password sessions the passwords are the same too. *)
Theorem c93_passwords : forall S1 S2 E1 E2 (from_tss1 : Z -> E1) (from_tss2 : Z -> E2)
    (tpm1 : connection S1 E1) (tpm2 : connection S2 E2) s1 s2 c cmd1 cmd2 handles1 handles2 a1 a2 frame ps1 ps2,
  let protects ps a := Forall2 (fun p s => exists auth, password_new p = Ok auth /\ s = password_session auth) ps (sessions_of a) in
  valid_call c cmd1 handles1 a1 -> valid_call c cmd2 handles2 a2 ->
  protects ps1 a1 -> protects ps2 a2 ->
  sent from_tss1 tpm1 s1 c cmd1 handles1 a1 = [frame] ->
  sent from_tss2 tpm2 s2 c cmd2 handles2 a2 = [frame] ->
  ps1 = ps2.
Proof.
  intros S1 S2 E1 E2 f1 f2 tpm1 tpm2 s1 s2 c cmd1 cmd2 h1 h2 a1 a2 frame ps1 ps2 protects V1 V2 F1 F2 X1 X2.
  destruct (c93_same_bytes _ _ _ _ _ _ _ _ _ _ _ _ _ _ _ _ _ _ _ V1 V2 X1 X2) as [_ R].
  destruct (R eq_refl eq_refl) as (_ & _ & M). clear R X1 X2. unfold protects in *. clear protects.
  destruct V1 as (_ & _ & _ & A1), V2 as (_ & _ & _ & A2). unfold wf_area in *.
  revert ps2 F2 M A2. generalize (sessions_of a2). revert A1. induction F1 as [|p1 x1 ps1 l1 (auth1 & N1 & ->) F1 IH];
    intros A1 l2 ps2 F2 M A2; inversion F2 as [|p2 x2 ps2' l2' (auth2 & N2 & ->) F2']; subst; try discriminate M; [reflexivity|].
  cbn [map] in M. inversion A1 as [|? ? W1 A1']; inversion A2 as [|? ? W2 A2']; subst.
  assert (M2 := f_equal (@tl val) M). cbn [tl] in M2.
  assert (M1 : canon TpmsAuthCommand (auth_command (password_session auth1))
             = canon TpmsAuthCommand (auth_command (password_session auth2))) by exact (f_equal (hd VUnit) M).
  f_equal; [|exact (IH A1' l2' ps2' F2' M2 A2')].
  assert (Q : enc TpmsAuthCommand (auth_command (password_session auth1))
            = enc TpmsAuthCommand (auth_command (password_session auth2))).
  { rewrite <- (enc_canon (auth_command (password_session auth1))) by exact W1.
    rewrite M1. apply enc_canon. exact W2. }
  destruct (c36_auth_command p1 auth1 N1) as [_ Q1]. destruct (c36_auth_command p2 auth2 N2) as [_ Q2].
  rewrite Q1, Q2 in Q. do 3 (apply app_same in Q; [destruct Q as [_ Q]|rewrite !be_bytes_length; reflexivity]).
  apply app_same in Q; [|rewrite !be_bytes_length; reflexivity]. apply Q.
Qed.

(** Two requests that differ, and their bytes: the same number with another
    password, and a password that looks like the number. *)
Example c93_example :
  let pw p := password_session (v2b 64 p) in
  valid_call GetRandom (VStruct [VInt 2]) VUnit (area1 (pw [x00; x02]))
  /\ command_frame GetRandom (VStruct [VInt 2]) VUnit (area1 (pw [x00; x02]))
     <> command_frame GetRandom (VStruct [VInt 2]) VUnit (area1 (pw [x00; x03]))
  /\ command_frame GetRandom (VStruct [VInt 2]) VUnit (area1 (pw [x00; x02]))
     <> command_frame GetRandom (VStruct [VInt 2]) VUnit (area2 (pw []) (pw []))
  /\ fits (command_frame GetRandom (VStruct [VInt 2]) VUnit (area1 (pw [x00; x02]))).
Proof.
  cbv zeta. split.
  - split; [split; [cbn; lia|vm_compute; auto]|]. split; [vm_compute; reflexivity|]. split; [reflexivity|].
    repeat constructor; vm_compute; reflexivity.
  - split; [vm_compute; discriminate|]. split; [vm_compute; discriminate|]. unfold fits. vm_compute. discriminate.
Qed.
