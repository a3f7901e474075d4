(** Commands, after "TPM 2.0 Library, Part 3: Commands" (version 185): the name,
    and the areas of the command and of the response.  None of these commands
    has handles. *)
From Coq Require Import String ZArith List.
From Coq Require Import Init.Byte.
From Verif Require Import Prelude WireSpec Part2 Part2Constants.
Import ListNotations.
Local Open Scope string_scope.
Local Open Scope list_scope.
Open Scope Z_scope.

Record schematic := Schematic {
  command_name : string;        (* without TPM2_ *)
  command_handles : format;
  command_parameters : format;
  response_handles : format;
  response_parameters : format
}.
(** Tables 238 and 239, 134 and 135, 75 and 76, 4 and 5. *)
Definition TPM2_GetCapability :=
  Schematic "GetCapability" EMPTY TPM2_GetCapability_In EMPTY TPM2_GetCapability_Out.
Definition TPM2_PCR_Read := Schematic "PCR_Read" EMPTY TPM2_PCR_Read_In EMPTY TPM2_PCR_Read_Out.
Definition TPM2_GetRandom := Schematic "GetRandom" EMPTY TPM2_GetRandom_In EMPTY TPM2_GetRandom_Out.
Definition TPM2_Startup := Schematic "Startup" EMPTY TPM2_Startup_In EMPTY EMPTY.

(** The code of a command is the one of the table of TPM_CC under its name. *)
Definition has_code (s : schematic) (code : Z) : Prop :=
  In (append "TPM_CC_" (command_name s), code) TPM_CC.

(** A command without sessions: tag TPM_ST_NO_SESSIONS, commandSize,
    commandCode, handles, parameters. *)
Definition command_without_sessions (s : schematic) (code : Z) (handles parameters : data) : list byte :=
  let body := command_handles s handles ++ command_parameters s parameters in
  be_bytes 2 0x8001 ++ be_bytes 4 (2 + 4 + 4 + Z.of_nat (length body)) ++ be_bytes 4 code ++ body.
(** A successful response to it. *)
Definition response_without_sessions (s : schematic) (handles parameters : data) : list byte :=
  let body := response_handles s handles ++ response_parameters s parameters in
  be_bytes 2 0x8001 ++ be_bytes 4 (2 + 4 + 4 + Z.of_nat (length body)) ++ be_bytes 4 0 ++ body.
