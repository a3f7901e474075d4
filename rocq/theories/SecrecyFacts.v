(** Where a password goes (C78). *)
From Coq Require Import String ZArith NArith List Lia Bool.
From Coq Require Import Init.Byte.
From Verif Require Import Prelude Types Marshal WireSpec MarshalProofs MarshalFacts Layout Catalogue
  Samples Errors Attrs Tpm2b Tpm2bFacts Client ClientSpec ClientProofs ClientFacts.
Import ListNotations.
Open Scope Z_scope.

(** The ways to put a session into an authorization area of the crate. *)
Inductive placement : (session -> area) -> Prop :=
| Only : placement (fun s => area1 s)
| First2 u : placement (fun s => area2 s u)
| Second2 t : placement (fun s => area2 t s)
| First3 u v : placement (fun s => area3 s u v)
| Second3 t v : placement (fun s => area3 t s v)
| Third3 t u : placement (fun s => area3 t u s).

Lemma placement_list place : placement place ->
  exists before after, forall s, sessions_of (place s) = before ++ s :: after.
Proof.
  intros [|u|t|u v|t v|t u].
  - exists [], []. reflexivity.
  - exists [], [u]. reflexivity.
  - exists [t], []. reflexivity.
  - exists [], [u; v]. reflexivity.
  - exists [t], [v]. reflexivity.
  - exists [t; u], []. reflexivity.
Qed.

Lemma read_all_validate before after s1 s2 b : validate s1 = validate s2 ->
  read_all (before ++ s1 :: after) b = read_all (before ++ s2 :: after) b.
Proof.
  intros E. revert b. induction before as [|x before IH]; intros b; cbn [app read_all].
  - unfold read_auth. rewrite E. reflexivity.
  - destruct (read_auth x b); cbn [obind]; auto.
Qed.

(** ** C78 *)
(** The bytes before and behind the password do not depend on it: they are fixed
    by the command, the other sessions and the password's length. *)
Theorem c78_confined place c cmd handles n :
  placement place ->
  exists before after, forall S E (from_tss : Z -> E) (tpm : connection S E) s log p auth,
    length p = n -> password_new p = Ok auth ->
    valid_call c cmd handles (place (password_session auth)) ->
    fits (command_frame c cmd handles (place (password_session auth))) ->
    snd (fst (run_command_with_handles from_tss (recording tpm) (s, log) c cmd handles
                (place (password_session auth))))
    = log ++ [before ++ p ++ after].
Proof.
  intros P. destruct (placement_list place P) as (b & a & L).
  set (fixed := (be_bytes 4 0x40000009 ++ be_bytes 2 0 ++ be_bytes 1 0 ++ be_bytes 2 (Z.of_nat n))%list).
  set (alen := Z.of_nat (length (auth_bytes b) + (length fixed + n) + length (auth_bytes a))).
  set (blen := Z.of_nat (10 + (length (enc (handles_ty c) handles) + (4 + Z.to_nat alen) + length (enc (cmd_ty c) cmd)))).
  exists (be_bytes 2 0x8002 ++ be_bytes 4 blen ++ be_bytes 4 (code c) ++ enc (handles_ty c) handles
          ++ be_bytes 4 alen ++ auth_bytes b ++ fixed),
         (auth_bytes a ++ enc (cmd_ty c) cmd).
  intros S E from_tss tpm s log p auth Lp N V F.
  rewrite c30_frame by exact V. unfold fits in F. rewrite (proj2 (Z.leb_le _ _) F). f_equal. f_equal.
  destruct (c36_auth_command p auth N) as (_ & W).
  assert (AB : auth_bytes (b ++ password_session auth :: a) = auth_bytes b ++ (fixed ++ p) ++ auth_bytes a).
  { unfold auth_bytes. rewrite flat_map_app. cbn [flat_map]. rewrite W, Lp. unfold fixed. rewrite <- !app_assoc. reflexivity. }
  assert (AL : Z.of_nat (length (auth_bytes (b ++ password_session auth :: a))) = alen).
  { rewrite AB, !app_length, Lp. unfold alen. lia. }
  assert (AA : auth_area (b ++ password_session auth :: a) = be_bytes 4 alen ++ auth_bytes b ++ (fixed ++ p) ++ auth_bytes a).
  { unfold auth_area. rewrite AL, AB. destruct b; reflexivity. }
  unfold command_frame, command_body. rewrite L, AA.
  replace (Z.of_nat (10 + length (enc (handles_ty c) handles
             ++ (be_bytes 4 alen ++ auth_bytes b ++ (fixed ++ p) ++ auth_bytes a) ++ enc (cmd_ty c) cmd))) with blen.
  2:{ rewrite !app_length, be_bytes_length, Lp. unfold blen, alen. lia. }
  destruct b; cbn [app]; rewrite <- !app_assoc; reflexivity.
Qed.

(** What the caller gets back does not depend on it either: to the same answer
    of the TPM corresponds the same result. *)
Theorem c78_result S1 S2 E (from_tss : Z -> E) (tpm1 : connection S1 E) (tpm2 : connection S2 E)
    s1 s2 place c cmd handles auth1 auth2 s1' s2' rsp r :
  placement place ->
  let a1 := place (password_session auth1) in
  let a2 := place (password_session auth2) in
  valid_call c cmd handles a1 -> valid_call c cmd handles a2 ->
  fits (command_frame c cmd handles a1) -> fits (command_frame c cmd handles a2) ->
  transact tpm1 s1 (command_frame c cmd handles a1) empty_buffer = (s1', rsp, r) ->
  transact tpm2 s2 (command_frame c cmd handles a2) empty_buffer = (s2', rsp, r) ->
  snd (run_command_with_handles from_tss tpm1 s1 c cmd handles a1)
  = snd (run_command_with_handles from_tss tpm2 s2 c cmd handles a2).
Proof.
  intros P a1 a2 V1 V2 F1 F2 T1 T2.
  rewrite (run_transact _ _ _ _ _ _ _ _ _ _ _ _ V1 F1 T1), (run_transact _ _ _ _ _ _ _ _ _ _ _ _ V2 F2 T2).
  cbn [snd]. destruct r; try reflexivity. f_equal. unfold parse_response.
  destruct (placement_list place P) as (before & after & L).
  assert (R : forall u, read_response_sessions a1 u = read_response_sessions a2 u).
  { intros u. rewrite !read_sessions_all. unfold a1, a2. rewrite !L. apply read_all_validate. reflexivity. }
  destruct (read_response_header rsp) as [[[tag size] read]| |]; cbn [obind]; try reflexivity.
  destruct (_ <? _)%N; [reflexivity|]. destruct (_ <? _)%N; [reflexivity|].
  destruct (unmarshal _ _) as [rh u1]. destruct (omap_err tss_of_merr rh); cbn [obind]; try reflexivity.
  destruct (if tag =? st_Sessions then _ else _) as [rp u2]. destruct (omap_err tss_of_merr rp); cbn [obind]; try reflexivity.
  destruct (unmarshal (resp_ty c) u2) as [rr u3]. destruct (omap_err tss_of_merr rr); cbn [obind]; try reflexivity.
  rewrite R. reflexivity.
Qed.

(** *** The hypotheses can be met *)
Example c78_example :
  placement (fun s => area2 (password_session (v2b 64 [])) s)
  /\ password_new [x70; x77] = Ok (v2b 64 [x70; x77])
  /\ valid_call GetRandom (VStruct [VInt 2]) VUnit (area2 (password_session (v2b 64 [])) (password_session (v2b 64 [x70; x77])))
  /\ fits (command_frame GetRandom (VStruct [VInt 2]) VUnit
             (area2 (password_session (v2b 64 [])) (password_session (v2b 64 [x70; x77])))).
Proof.
  split; [constructor|]. split; [vm_compute; reflexivity|]. split.
  - split; [split; [cbn; lia|vm_compute; auto]|]. split; [vm_compute; reflexivity|]. split; [reflexivity|].
    repeat constructor; vm_compute; reflexivity.
  - unfold fits. vm_compute. discriminate.
Qed.
