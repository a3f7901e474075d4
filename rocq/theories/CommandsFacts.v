(** The commands of the library against TPM 2.0 Part 3. *)
From Coq Require Import String ZArith NArith List Lia Bool.
From Coq Require Import Init.Byte.
From Verif Require Import Prelude Types Marshal WireSpec MarshalProofs Catalogue Samples Errors Limits MarshalWrite Layout Part2 Part2Constants LayoutProofs LayoutFacts Client ClientSpec ClientProofs ClientFacts ConstantsFacts Part3.
Import ListNotations.
Local Open Scope string_scope.
Local Open Scope list_scope.
Open Scope Z_scope.

(** Which command of the library is which of the specification. *)
Definition commands : list (command * schematic) := [
  (GetCapability, TPM2_GetCapability); (PcrRead, TPM2_PCR_Read); (GetRandom, TPM2_GetRandom);
  (Startup, TPM2_Startup)].

Lemma commands_fit : Forall (fun x =>
  LayoutProofs.fits (handles_ty (fst x)) (command_handles (snd x))
  /\ LayoutProofs.fits (cmd_ty (fst x)) (command_parameters (snd x))
  /\ LayoutProofs.fits (resp_handles_ty (fst x)) (response_handles (snd x))
  /\ LayoutProofs.fits (resp_ty (fst x)) (response_parameters (snd x))) commands.
Proof.
  assert (F : forall t f, In (t, f) part2 -> LayoutProofs.fits t f).
  { intros t f H. pose proof part2_fits as P. rewrite Forall_forall in P. exact (P _ H). }
  unfold commands. repeat apply Forall_cons; try apply Forall_nil;
    (repeat apply conj; apply F; cbn -[In]; unfold part2;
     repeat (first [left; reflexivity | right])).
Qed.

Lemma library_command x : In x commands -> In (fst x) library_commands.
Proof. intros H. cbn in H. decompose [or] H; subst; cbn; tauto. Qed.
Lemma no_handles x : In x commands -> handles_ty (fst x) = TUnit /\ resp_handles_ty (fst x) = TUnit
  /\ command_handles (snd x) = EMPTY /\ response_handles (snd x) = EMPTY.
Proof. intros H. cbn in H. decompose [or] H; subst; try contradiction; repeat split. Qed.

(** ** C65 *)
(** Every command of the library has the code of the specification ... *)
Theorem c65_code (c : command) (s : schematic) : In (c, s) commands -> has_code s (code c).
Proof.
  intros H. unfold has_code. cbn in H.
  decompose [or] H; try contradiction;
    match goal with E : (_, _) = (c, s) |- _ => injection E as <- <- end;
    apply has_in; vm_compute; reflexivity.
Qed.

(** ... and no command of the library is left out. *)
Theorem c65_complete : map fst commands = library_commands.
Proof. reflexivity. Qed.

(** What [run_command] hands to the connection is the command of the
    specification. *)
Theorem c65_sent (S E : Type) (from_tss : Z -> E) (tpm : connection S E) (st : S) (log : list (list byte))
    (c : command) (s : schematic) (cmd : val) :
  In (c, s) commands -> wf (cmd_ty c) cmd = true ->
  exists cc, has_code s cc
  /\ snd (fst (run_command from_tss (recording tpm) (st, log) c cmd))
     = log ++ [command_without_sessions s cc (Rec []) (view (cmd_ty c) cmd)].
Proof.
  intros Hin Hw. exists (code c). split; [now apply c65_code|].
  rewrite c30_run_command by (assumption || exact (library_command _ Hin)). do 2 f_equal.
  pose proof commands_fit as F. rewrite Forall_forall in F. specialize (F _ Hin). cbn [fst snd] in F.
  destruct F as (_ & F & _ & _). rewrite (F _ Hw).
  destruct (no_handles _ Hin) as (_ & _ & E1 & _). cbn [snd] in E1.
  unfold command_without_sessions. rewrite E1. cbn [EMPTY app].
  do 3 f_equal. f_equal. lia.
Qed.

(** With sessions: after the code come the sessions and then the parameters. *)
Theorem c65_sent_sessions (c : command) (s : schematic) (cmd : val) (a : area) :
  In (c, s) commands -> wf (cmd_ty c) cmd = true ->
  skipn 10 (command_frame c cmd VUnit a)
  = command_handles s (Rec []) ++ auth_area (sessions_of a) ++ command_parameters s (view (cmd_ty c) cmd).
Proof.
  intros Hin Hw. pose proof commands_fit as F. rewrite Forall_forall in F. specialize (F _ Hin).
  cbn [fst snd] in F. destruct F as (_ & F & _ & _). rewrite <- (F _ Hw).
  destruct (no_handles _ Hin) as (E0 & _ & E1 & _). cbn [fst snd] in E0, E1. rewrite E1.
  unfold command_frame. rewrite app_assoc, app_assoc, skipn_app, skipn_all2
    by (rewrite !app_length, !be_bytes_length; reflexivity).
  rewrite !app_length, !be_bytes_length. cbn [Nat.add Nat.sub skipn app].
  unfold command_body. rewrite E0. reflexivity.
Qed.

(** A response that the specification allows gives the caller its parameters. *)
Theorem c65_received (S E : Type) (from_tss : Z -> E) (tpm : connection S E) (st st' : S) (rsp : list byte)
    (n : nat) (c : command) (s : schematic) (cmd resp : val) (cc : Z) :
  In (c, s) commands -> wf_connection tpm -> has_code s cc ->
  wf (cmd_ty c) cmd = true -> wf (resp_ty c) resp = true -> canonical (resp_ty c) resp ->
  transact tpm st (command_without_sessions s cc (Rec []) (view (cmd_ty c) cmd)) empty_buffer
  = (st', response_without_sessions s (Rec []) (view (resp_ty c) resp) ++ rsp, Ok n) ->
  run_command from_tss tpm st c cmd = (st', Ok resp).
Proof.
  intros Hin HC Hcc Hw Hr Hcan T. pose proof commands_fit as F. rewrite Forall_forall in F.
  specialize (F _ Hin). cbn [fst snd] in F. destruct F as (_ & F & _ & G).
  destruct (no_handles _ Hin) as (E0 & E1 & E2 & E3). cbn [fst snd] in E0, E1, E2, E3.
  assert (Ec : cc = code c).
  { pose proof (c65_code _ _ Hin) as H. unfold has_code in *.
    refine (ConstantsFacts.functional_spec TPM_CC _ _ _ _ _ Hcc H eq_refl). vm_compute. reflexivity. }
  subst cc.
  assert (Ef : command_frame c cmd (zero_of (handles_ty c)) area0
     = command_without_sessions s (code c) (Rec []) (view (cmd_ty c) cmd)).
  { unfold command_without_sessions, command_frame, command_body. rewrite E0, E2, <- (F _ Hw).
    unfold area0, sessions_of, auth_area, EMPTY. cbn [app enc zero_of].
    do 2 f_equal. f_equal. lia. }
  assert (Hrun : run_command_with_handles from_tss tpm st c cmd (zero_of (handles_ty c)) area0
     = (st', Ok (resp, VUnit))).
  { apply c33_accepted_iff.
    - split; [|split; [assumption|split; [rewrite E0; reflexivity|constructor]]].
      cbn in Hin. decompose [or] Hin; try contradiction;
        match goal with E : (_, _) = (c, s) |- _ => injection E as <- <- end; repeat split; cbn; lia.
    - assumption.
    - split.
      + unfold ClientSpec.fits. rewrite Ef. unfold command_without_sessions.
        rewrite E2, <- (F _ Hw). rewrite !app_length, !be_bytes_length. cbn [EMPTY app length].
        pose proof (enc_size_of _ _ Hw) as B.
        assert (size_of (cmd_ty c) <= 4000)%N
          by (cbn in Hin; decompose [or] Hin; try contradiction;
              match goal with E : (_, _) = (c, s) |- _ => injection E as <- <- end; vm_compute; discriminate).
        lia.
      + exists n, 0x8001, 0, [], rsp. cbn zeta. rewrite Ef, T. split.
        { do 2 f_equal. unfold response_without_sessions, response_frame, response_body.
          rewrite E1, E3, <- (G _ Hr). cbn [EMPTY app Z.eqb Pos.eqb flat_map enc].
          rewrite !app_nil_r, <- !app_assoc. reflexivity. }
        rewrite E1. repeat split; try lia; try assumption. constructor. }
  unfold run_command. rewrite Hrun. reflexivity.
Qed.

(** TPM2_PCR_Read of PCR 0 and 23 of the SHA-256 bank, and a response to
    TPM2_GetRandom. *)
Example c65_example :
  command_without_sessions TPM2_GetRandom 0x17B (Rec []) (Rec [("bytes_requested", Num 32)])
  = [x80; x01; x00; x00; x00; x0c; x00; x00; x01; x7b; x00; x20]
  /\ has_code TPM2_GetRandom 0x17B
  /\ response_without_sessions TPM2_GetRandom (Rec []) (Rec [("random_bytes", Sized [xaa; xbb])])
     = [x80; x01; x00; x00; x00; x0e; x00; x00; x00; x00; x00; x02; xaa; xbb]
  /\ command_without_sessions TPM2_PCR_Read 0x17E (Rec [])
       (Rec [("pcr_selection_in", Rec [("count", Num 1); ("pcr_selections", Items [
          Rec [("hash", Num 0xB); ("sizeof_select", Num 3); ("pcr_select", Items [Num 1; Num 0; Num 128])]])])])
     = [x80; x01; x00; x00; x00; x14; x00; x00; x01; x7e; x00; x00; x00; x01; x00; x0b; x03; x01; x00; x80].
Proof.
  split; [vm_compute; reflexivity|]. split; [apply has_in; vm_compute; reflexivity|].
  split; vm_compute; reflexivity.
Qed.
