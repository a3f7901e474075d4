(** The commands of the library against TPM 2.0 Part 3. *)
(* Restates the theorems of CommandsFacts.v; proofs are there. *)
From Coq Require Import String ZArith NArith List Lia Bool.
From Coq Require Import Init.Byte.
From Verif Require Import Prelude Types Marshal WireSpec MarshalProofs Catalogue Samples Errors Limits MarshalWrite Layout Part2 Part2Constants LayoutProofs LayoutFacts Client ClientSpec ClientProofs ClientFacts ConstantsFacts Part3.
From Verif Require Import CommandsFacts.
Import ListNotations.
Local Open Scope string_scope.
Local Open Scope list_scope.
Open Scope Z_scope.

(** ** C65 *)
(** Every command of the library has the code of the specification ... *)
Theorem C65_code (c : command) (s : schematic) : In (c, s) commands -> has_code s (code c).
Proof. exact (c65_code c s). Qed.
Print Assumptions C65_code.

(** ... and no command of the library is left out. *)
Theorem C65_complete : map fst commands = library_commands.
Proof. exact c65_complete. Qed.
Print Assumptions C65_complete.

(** What [run_command] hands to the connection is the command of the
    specification. *)
Theorem C65_sent (S E : Type) (from_tss : Z -> E) (tpm : connection S E) (st : S) (log : list (list byte))
    (c : command) (s : schematic) (cmd : val) :
  In (c, s) commands -> wf (cmd_ty c) cmd = true ->
  exists cc, has_code s cc
  /\ snd (fst (run_command from_tss (recording tpm) (st, log) c cmd))
     = log ++ [command_without_sessions s cc (Rec []) (view (cmd_ty c) cmd)].
Proof. exact (c65_sent S E from_tss tpm st log c s cmd). Qed.
Print Assumptions C65_sent.

(** With sessions: after the code come the sessions and then the parameters. *)
Theorem C65_sent_sessions (c : command) (s : schematic) (cmd : val) (a : area) :
  In (c, s) commands -> wf (cmd_ty c) cmd = true ->
  skipn 10 (command_frame c cmd VUnit a)
  = command_handles s (Rec []) ++ auth_area (sessions_of a) ++ command_parameters s (view (cmd_ty c) cmd).
Proof. exact (c65_sent_sessions c s cmd a). Qed.
Print Assumptions C65_sent_sessions.

(** A response that the specification allows gives the caller its parameters. *)
Theorem C65_received (S E : Type) (from_tss : Z -> E) (tpm : connection S E) (st st' : S) (rsp : list byte)
    (n : nat) (c : command) (s : schematic) (cmd resp : val) (cc : Z) :
  In (c, s) commands -> wf_connection tpm -> has_code s cc ->
  wf (cmd_ty c) cmd = true -> wf (resp_ty c) resp = true -> canonical (resp_ty c) resp ->
  transact tpm st (command_without_sessions s cc (Rec []) (view (cmd_ty c) cmd)) empty_buffer
  = (st', response_without_sessions s (Rec []) (view (resp_ty c) resp) ++ rsp, Ok n) ->
  run_command from_tss tpm st c cmd = (st', Ok resp).
Proof. exact (c65_received S E from_tss tpm st st' rsp n c s cmd resp cc). Qed.
Print Assumptions C65_received.

(** TPM2_PCR_Read of PCR 0 and 23 of the SHA-256 bank, and a response to
    TPM2_GetRandom. *)
Example C65_example :
  command_without_sessions TPM2_GetRandom 0x17B (Rec []) (Rec [("bytes_requested", Num 32)])
  = [x80; x01; x00; x00; x00; x0c; x00; x00; x01; x7b; x00; x20]
  /\ has_code TPM2_GetRandom 0x17B
  /\ response_without_sessions TPM2_GetRandom (Rec []) (Rec [("random_bytes", Sized [xaa; xbb])])
     = [x80; x01; x00; x00; x00; x0e; x00; x00; x00; x00; x00; x02; xaa; xbb]
  /\ command_without_sessions TPM2_PCR_Read 0x17E (Rec [])
       (Rec [("pcr_selection_in", Rec [("count", Num 1); ("pcr_selections", Items [
          Rec [("hash", Num 0xB); ("sizeof_select", Num 3); ("pcr_select", Items [Num 1; Num 0; Num 128])]])])])
     = [x80; x01; x00; x00; x00; x14; x00; x00; x01; x7e; x00; x00; x00; x01; x00; x0b; x03; x01; x00; x80].
Proof. exact c65_example. Qed.
