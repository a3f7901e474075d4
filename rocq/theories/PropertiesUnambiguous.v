(** C93: the bytes of a command say what was asked for. *)
(* Restates the theorems of UnambiguousFacts.v; proofs are there. *)
From Coq Require Import String ZArith NArith List Lia Bool.
From Coq Require Import Init.Byte.
From Verif Require Import Prelude Types Marshal WireSpec MarshalProofs MarshalFacts Layout Catalogue
  Samples Errors Attrs Tpm2b Tpm2bFacts Client ClientSpec ClientProofs ClientFacts.
From Verif Require Import UnambiguousFacts.
Import ListNotations.
Open Scope Z_scope.

(** ** C93 *)
(** Two calls that give the connection the same bytes have the same command
    code; if it stands for the same types, they have the same handles, the same
    parameters, and as many sessions with the same authorizations.  ([canon] is
    the value without entries behind a count, which are not sent.) *)
Theorem C93_same_bytes : forall S1 S2 E1 E2 (from_tss1 : Z -> E1) (from_tss2 : Z -> E2)
    (tpm1 : connection S1 E1) (tpm2 : connection S2 E2) s1 s2 c1 c2 cmd1 cmd2 handles1 handles2 a1 a2 frame,
  valid_call c1 cmd1 handles1 a1 -> valid_call c2 cmd2 handles2 a2 ->
  sent from_tss1 tpm1 s1 c1 cmd1 handles1 a1 = [frame] ->
  sent from_tss2 tpm2 s2 c2 cmd2 handles2 a2 = [frame] ->
  code c1 = code c2
  /\ (handles_ty c1 = handles_ty c2 -> cmd_ty c1 = cmd_ty c2 ->
      canon (handles_ty c1) handles1 = canon (handles_ty c2) handles2
      /\ canon (cmd_ty c1) cmd1 = canon (cmd_ty c2) cmd2
      /\ map (fun s => canon TpmsAuthCommand (auth_command s)) (sessions_of a1)
         = map (fun s => canon TpmsAuthCommand (auth_command s)) (sessions_of a2)).
Proof. exact c93_same_bytes. Qed.
Print Assumptions C93_same_bytes.

(** The library's commands: the bytes tell which one. *)
Theorem C93_library : forall S1 S2 E1 E2 (from_tss1 : Z -> E1) (from_tss2 : Z -> E2)
    (tpm1 : connection S1 E1) (tpm2 : connection S2 E2) s1 s2 c1 c2 cmd1 cmd2 handles1 handles2 a1 a2 frame,
  In c1 library_commands -> In c2 library_commands ->
  valid_call c1 cmd1 handles1 a1 -> valid_call c2 cmd2 handles2 a2 ->
  sent from_tss1 tpm1 s1 c1 cmd1 handles1 a1 = [frame] ->
  sent from_tss2 tpm2 s2 c2 cmd2 handles2 a2 = [frame] ->
  c1 = c2 /\ canon (cmd_ty c1) cmd1 = canon (cmd_ty c2) cmd2.
Proof. exact c93_library. Qed.
Print Assumptions C93_library.

(** With password sessions the passwords are the same too. *)
Theorem C93_passwords : forall S1 S2 E1 E2 (from_tss1 : Z -> E1) (from_tss2 : Z -> E2)
    (tpm1 : connection S1 E1) (tpm2 : connection S2 E2) s1 s2 c cmd1 cmd2 handles1 handles2 a1 a2 frame ps1 ps2,
  let protects ps a := Forall2 (fun p s => exists auth, password_new p = Ok auth /\ s = password_session auth) ps (sessions_of a) in
  valid_call c cmd1 handles1 a1 -> valid_call c cmd2 handles2 a2 ->
  protects ps1 a1 -> protects ps2 a2 ->
  sent from_tss1 tpm1 s1 c cmd1 handles1 a1 = [frame] ->
  sent from_tss2 tpm2 s2 c cmd2 handles2 a2 = [frame] ->
  ps1 = ps2.
Proof. exact c93_passwords. Qed.
Print Assumptions C93_passwords.

(** Two requests that differ, and their bytes: the same number with another
    password, and a password that looks like the number. *)
Example C93_example :
  let pw p := password_session (v2b 64 p) in
  valid_call GetRandom (VStruct [VInt 2]) VUnit (area1 (pw [x00; x02]))
  /\ command_frame GetRandom (VStruct [VInt 2]) VUnit (area1 (pw [x00; x02]))
     <> command_frame GetRandom (VStruct [VInt 2]) VUnit (area1 (pw [x00; x03]))
  /\ command_frame GetRandom (VStruct [VInt 2]) VUnit (area1 (pw [x00; x02]))
     <> command_frame GetRandom (VStruct [VInt 2]) VUnit (area2 (pw []) (pw []))
  /\ fits (command_frame GetRandom (VStruct [VInt 2]) VUnit (area1 (pw [x00; x02]))).
Proof. exact c93_example. Qed.
