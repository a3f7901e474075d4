(** What the client does not look at in a response: which tag it has, and the
    parameter size (C82). *)
From Coq Require Import String ZArith NArith List Lia Bool.
From Coq Require Import Init.Byte.
From Verif Require Import Prelude Types Marshal WireSpec MarshalProofs MarshalFacts Layout Catalogue
  Samples Errors Attrs Tpm2b Tpm2bFacts Client ClientSpec ClientProofs ClientFacts.
Import ListNotations.
Open Scope Z_scope.

(** ** C82 *)

(** A response as TPM 2.0 Part 1, 15.2.1 and 15.5, has it: the tag
    TPM_ST_SESSIONS exactly if the command had sessions, the parameter size
    (then only) the number of bytes of the parameters. *)
Definition as_specified (c : command) (a : area) (tag psize : Z) (resp : val) : Prop :=
  match sessions_of a with
  | [] => tag = 0x8001
  | _ => tag = 0x8002 /\ psize = Z.of_nat (length (enc (resp_ty c) resp))
  end.

(** Responses as specified are accepted, with the values in them. *)
Theorem c82_specified S E (from_tss : Z -> E) (tpm : connection S E) s c cmd handles a s' n
    tag psize resp rh auths ignored :
  valid_call c cmd handles a -> wf_connection tpm -> fits (command_frame c cmd handles a) ->
  as_specified c a tag psize resp -> Z.of_nat (length (enc (resp_ty c) resp)) < 2 ^ 32 ->
  wf (resp_ty c) resp = true -> canonical (resp_ty c) resp ->
  wf (resp_handles_ty c) rh = true -> canonical (resp_handles_ty c) rh ->
  Forall2 accepted (sessions_of a) auths ->
  let body := response_body c tag psize resp rh auths in
  transact tpm s (command_frame c cmd handles a) empty_buffer
    = (s', response_frame tag (10 + Z.of_nat (length body)) 0 (body ++ ignored), Ok n) ->
  run_command_with_handles from_tss tpm s c cmd handles a = (s', Ok (resp, rh)).
Proof.
  intros V Wc L Sp Lp W1 C1 W2 C2 F body T.
  apply c33_accepted_iff; [assumption..|]. split; [assumption|].
  unfold as_specified in Sp.
  destruct (sessions_of a) as [|s0 ss] eqn:Es.
  - subst tag. exists n, 0x8001, 0, auths, ignored. cbn zeta.
    split; [exact T|]. split; [lia|]. split; [lia|]. auto.
  - destruct Sp as [-> ->]. exists n, 0x8002, (Z.of_nat (length (enc (resp_ty c) resp))), auths, ignored.
    cbn zeta. split; [exact T|]. split; [lia|]. split; [lia|]. auto.
Qed.

Lemma parse_body_psize c a hs p1 p2 rest k :
  (exists h, wf (resp_handles_ty c) h = true /\ hs = enc (resp_handles_ty c) h) ->
  wf_ty (resp_handles_ty c) = true ->
  parse_body c a 0x8002 (firstn k (hs ++ be_bytes 4 p1 ++ rest))
  = parse_body c a 0x8002 (firstn k (hs ++ be_bytes 4 p2 ++ rest)).
Proof.
  intros (h & Wh & ->) T. set (hs := enc (resp_handles_ty c) h).
  destruct (Nat.leb_spec (length hs) k).
  - rewrite !firstn_app, (firstn_all2 hs) by assumption. rewrite !be_bytes_length.
    assert (U : forall r, unmarshal (resp_handles_ty c) (hs ++ r) = (Ok (canon (resp_handles_ty c) h), r))
      by (intros r; now apply unm_enc).
    unfold parse_body. rewrite !U. cbn [omap_err obind].
    change (0x8002 =? st_Sessions) with true. cbv iota.
    destruct (Nat.leb_spec 4 (k - length hs)).
    + rewrite !(firstn_all2 (be_bytes 4 _)) by (rewrite be_bytes_length; lia).
      unfold unm_int, unm_bytes, buf_get. rewrite !app_length, !be_bytes_length.
      destruct (N.ltb_spec (N.of_nat (4 + length (firstn (k - length hs - 4) rest))) (N.of_nat 4)); [lia|].
      rewrite !Nat2N.id, !skipn_app_exact' by (now rewrite be_bytes_length). reflexivity.
    + unfold unm_int, unm_bytes, buf_get. rewrite !app_length, !firstn_length, !be_bytes_length.
      replace (k - length hs - 4)%nat with 0%nat by lia. cbn [Nat.min length].
      destruct (N.ltb_spec (N.of_nat (Nat.min (k - length hs) 4 + 0)) (N.of_nat 4)); [reflexivity|lia].
  - rewrite !firstn_app_le by lia. reflexivity.
Qed.

(** But the value of the parameter size makes no difference: two responses that
    differ in nothing else have the same result, whatever the rest of them. *)
Theorem c82_parameter_size_partial S E (from_tss : Z -> E) (tpm1 tpm2 : connection S E) s c cmd handles a
    s1 s2 n1 n2 size rc rh p1 p2 rest :
  valid_call c cmd handles a -> fits (command_frame c cmd handles a) ->
  header_ok 0x8002 size rc -> wf (resp_handles_ty c) rh = true ->
  let response p := response_frame 0x8002 size rc (enc (resp_handles_ty c) rh ++ be_bytes 4 p ++ rest) in
  transact tpm1 s (command_frame c cmd handles a) empty_buffer = (s1, response p1, Ok n1) ->
  transact tpm2 s (command_frame c cmd handles a) empty_buffer = (s2, response p2, Ok n2) ->
  snd (run_command_with_handles from_tss tpm1 s c cmd handles a)
  = snd (run_command_with_handles from_tss tpm2 s c cmd handles a).
Proof.
  intros V L H W response T1 T2. unfold response in T1, T2.
  erewrite (run_transact S E from_tss tpm1) by eassumption.
  erewrite (run_transact S E from_tss tpm2) by eassumption.
  cbn [snd]. rewrite !parse_frame by assumption.
  rewrite (parse_body_psize c a _ p1 p2) by (first [exists rh; auto | apply V]).
  rewrite !app_length, !be_bytes_length. reflexivity.
Qed.

(** And all tags but TPM_ST_SESSIONS are the same, whether the command had
    sessions or not. *)
Theorem c82_tag_partial S E (from_tss : Z -> E) (tpm1 tpm2 : connection S E) s c cmd handles a
    s1 s2 n1 n2 tag1 tag2 size rc rest :
  valid_call c cmd handles a -> fits (command_frame c cmd handles a) ->
  header_ok tag1 size rc -> header_ok tag2 size rc -> tag1 <> 0x8002 -> tag2 <> 0x8002 ->
  transact tpm1 s (command_frame c cmd handles a) empty_buffer = (s1, response_frame tag1 size rc rest, Ok n1) ->
  transact tpm2 s (command_frame c cmd handles a) empty_buffer = (s2, response_frame tag2 size rc rest, Ok n2) ->
  snd (run_command_with_handles from_tss tpm1 s c cmd handles a)
  = snd (run_command_with_handles from_tss tpm2 s c cmd handles a).
Proof.
  intros V L H1 H2 N1 N2 T1 T2.
  erewrite (run_transact S E from_tss tpm1) by eassumption.
  erewrite (run_transact S E from_tss tpm2) by eassumption.
  cbn [snd]. rewrite !parse_frame by assumption. unfold parse_body.
  change st_Sessions with 0x8002.
  destruct (Z.eqb_spec tag1 0x8002); [congruence|]. destruct (Z.eqb_spec tag2 0x8002); [congruence|].
  reflexivity.
Qed.

(** So a response with any other tag and one with a parameter size of four
    billion are accepted, for a command with a session and for one without. *)
Theorem c82_refuted :
  exists a resp rh,
    sessions_of a <> [] /\ wf_area a
    /\ (exists psize bytes, ~ as_specified GetRandom a 0x8002 psize resp
        /\ bytes = response_frame 0x8002 23 0 (response_body GetRandom 0x8002 psize resp rh [VStruct [v2b 64 []; vi 1; v2b 64 []]])
        /\ run_command_with_handles id (canned bytes) tt GetRandom (VStruct [VInt 2]) VUnit a = (tt, Ok (resp, rh)))
    /\ (exists tag bytes, ~ as_specified GetRandom a tag 4 resp
        /\ bytes = response_frame tag 19 0 (response_body GetRandom tag 4 resp rh [VStruct [v2b 64 []; vi 1; v2b 64 []]])
        /\ run_command_with_handles id (canned bytes) tt GetRandom (VStruct [VInt 2]) VUnit a = (tt, Ok (resp, rh)))
    /\ (exists tag bytes, ~ as_specified GetRandom area0 tag 0 resp
        /\ bytes = response_frame tag 14 0 (response_body GetRandom tag 0 resp rh [])
        /\ run_command_with_handles id (canned bytes) tt GetRandom (VStruct [VInt 2]) VUnit area0 = (tt, Ok (resp, rh))).
Proof.
  exists (area1 (password_session (v2b 64 [x01; x02]))), (VStruct [v2b 64 [xca; xfe]]), VUnit.
  split; [discriminate|]. split; [repeat constructor|]. repeat split.
  - eexists 0xffffffff, _. split; [intros [_ H]; vm_compute in H; discriminate|]. split; [reflexivity|]. vm_compute. reflexivity.
  - eexists 0x8001, _. split; [intros [H _]; discriminate|]. split; [reflexivity|]. vm_compute. reflexivity.
  - eexists 0x1234, _. split; [cbn; discriminate|]. split; [reflexivity|]. vm_compute. reflexivity.
Qed.
Example c82_example :
  let a := area1 (password_session (v2b 64 [x01; x02])) in
  let resp := VStruct [v2b 64 [xca; xfe]] in
  as_specified GetRandom a 0x8002 4 resp /\ as_specified GetRandom area0 0x8001 0 resp
  /\ run_command_with_handles id (canned (response_frame 0x8002 23 0
       (response_body GetRandom 0x8002 4 resp VUnit [VStruct [v2b 64 []; vi 1; v2b 64 []]]))) tt
       GetRandom (VStruct [VInt 2]) VUnit a = (tt, Ok (resp, VUnit))
  /\ run_command_with_handles id (canned (response_frame 0x8001 14 0
       (response_body GetRandom 0x8001 0 resp VUnit []))) tt
       GetRandom (VStruct [VInt 2]) VUnit area0 = (tt, Ok (resp, VUnit)).
Proof. repeat split. Qed.
