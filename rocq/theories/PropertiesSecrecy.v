(** Where a password goes (C78). *)
(* Restates the theorems of SecrecyFacts.v; proofs are there. *)
From Coq Require Import String ZArith NArith List Lia Bool.
From Coq Require Import Init.Byte.
From Verif Require Import Prelude Types Marshal WireSpec MarshalProofs MarshalFacts Layout Catalogue
  Samples Errors Attrs Tpm2b Tpm2bFacts Client ClientSpec ClientProofs ClientFacts.
From Verif Require Import SecrecyFacts.
Import ListNotations.
Open Scope Z_scope.

(** ** C78 *)
(** The bytes before and behind the password do not depend on it: they are fixed
    by the command, the other sessions and the password's length. *)
Theorem C78_confined place c cmd handles n :
  placement place ->
  exists before after, forall S E (from_tss : Z -> E) (tpm : connection S E) s log p auth,
    length p = n -> password_new p = Ok auth ->
    valid_call c cmd handles (place (password_session auth)) ->
    fits (command_frame c cmd handles (place (password_session auth))) ->
    snd (fst (run_command_with_handles from_tss (recording tpm) (s, log) c cmd handles
                (place (password_session auth))))
    = log ++ [before ++ p ++ after].
Proof. exact (c78_confined place c cmd handles n). Qed.
Print Assumptions C78_confined.

(** What the caller gets back does not depend on it either: to the same answer
    of the TPM corresponds the same result. *)
Theorem C78_result S1 S2 E (from_tss : Z -> E) (tpm1 : connection S1 E) (tpm2 : connection S2 E)
    s1 s2 place c cmd handles auth1 auth2 s1' s2' rsp r :
  placement place ->
  let a1 := place (password_session auth1) in
  let a2 := place (password_session auth2) in
  valid_call c cmd handles a1 -> valid_call c cmd handles a2 ->
  fits (command_frame c cmd handles a1) -> fits (command_frame c cmd handles a2) ->
  transact tpm1 s1 (command_frame c cmd handles a1) empty_buffer = (s1', rsp, r) ->
  transact tpm2 s2 (command_frame c cmd handles a2) empty_buffer = (s2', rsp, r) ->
  snd (run_command_with_handles from_tss tpm1 s1 c cmd handles a1)
  = snd (run_command_with_handles from_tss tpm2 s2 c cmd handles a2).
Proof. exact (c78_result S1 S2 E from_tss tpm1 tpm2 s1 s2 place c cmd handles auth1 auth2 s1' s2' rsp r). Qed.
Print Assumptions C78_result.

Example C78_example :
  placement (fun s => area2 (password_session (v2b 64 [])) s)
  /\ password_new [x70; x77] = Ok (v2b 64 [x70; x77])
  /\ valid_call GetRandom (VStruct [VInt 2]) VUnit (area2 (password_session (v2b 64 [])) (password_session (v2b 64 [x70; x77])))
  /\ fits (command_frame GetRandom (VStruct [VInt 2]) VUnit
             (area2 (password_session (v2b 64 [])) (password_session (v2b 64 [x70; x77])))).
Proof. exact c78_example. Qed.
