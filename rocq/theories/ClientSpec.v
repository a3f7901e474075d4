(** Specification of what goes over the wire between client and TPM, after
    TPM 2.0 Part 1, "Command/Response Structure". *)
From Coq Require Import String ZArith NArith List Lia Bool.
From Coq Require Import Init.Byte.
From Verif Require Import Prelude Types WireSpec Catalogue Client.
Import ListNotations.
Open Scope Z_scope.

(** The sessions of an authorization area: those before the first gap. *)
Definition sessions_of (a : area) : list session :=
  match a with
  | (None, _, _) => []
  | (Some s1, None, _) => [s1]
  | (Some s1, Some s2, None) => [s1; s2]
  | (Some s1, Some s2, Some s3) => [s1; s2; s3]
  end.

(** Authorization area: absent without sessions, else a 4-byte size and the
    sessions' authorizations. *)
Definition auth_bytes (ss : list session) : list byte :=
  flat_map (fun s => enc TpmsAuthCommand (auth_command s)) ss.
Definition auth_area (ss : list session) : list byte :=
  match ss with
  | [] => []
  | _ => be_bytes 4 (Z.of_nat (length (auth_bytes ss))) ++ auth_bytes ss
  end.

(** Command: tag, commandSize, commandCode, handles, authorization area,
    parameters. *)
Definition command_body (c : command) (cmd handles : val) (a : area) : list byte :=
  enc (handles_ty c) handles ++ auth_area (sessions_of a) ++ enc (cmd_ty c) cmd.
Definition command_frame (c : command) (cmd handles : val) (a : area) : list byte :=
  let body := command_body c cmd handles a in
  be_bytes 2 (match sessions_of a with [] => 0x8001 | _ => 0x8002 end)
  ++ be_bytes 4 (Z.of_nat (10 + length body))
  ++ be_bytes 4 (code c)
  ++ body.

(** Successful response: tag, responseSize, TPM_RC_SUCCESS, handles,
    parameterSize (only with tag TPM_ST_SESSIONS; its value is not looked at),
    parameters, one authorization per session. *)
Definition response_body (c : command) (tag : Z) (psize : Z) (resp handles : val) (auths : list val)
    : list byte :=
  enc (resp_handles_ty c) handles
  ++ (if tag =? 0x8002 then be_bytes 4 psize else [])
  ++ enc (resp_ty c) resp
  ++ flat_map (enc TpmsAuthResponse) auths.
Definition response_frame (tag size rc : Z) (body : list byte) : list byte :=
  be_bytes 2 tag ++ be_bytes 4 size ++ be_bytes 4 rc ++ body.

(** Values and types a program can hold. *)
Definition wf_command (c : command) : Prop :=
  0 <= code c < 2 ^ 32 /\ wf_ty (cmd_ty c) = true /\ wf_ty (handles_ty c) = true
  /\ wf_ty (resp_ty c) = true /\ wf_ty (resp_handles_ty c) = true.
Definition wf_session (s : session) : Prop := wf TpmsAuthCommand (auth_command s) = true.
Definition wf_area (a : area) : Prop := Forall wf_session (sessions_of a).
(** A call a program can make. *)
Definition valid_call (c : command) (cmd handles : val) (a : area) : Prop :=
  wf_command c /\ wf (cmd_ty c) cmd = true /\ wf (handles_ty c) handles = true /\ wf_area a.
(** [rsp] is a slice: its length cannot change, and the returned slice is
    part of it. *)
Definition wf_connection {S E} (tpm : connection S E) : Prop :=
  forall s cmd rsp s' rsp' r, transact tpm s cmd rsp = (s', rsp', r) ->
    length rsp' = length rsp /\ forall n, r = Ok n -> (n <= length rsp)%nat.

(** Header fields in the range of their types. *)
Definition header_ok (tag size rc : Z) : Prop :=
  0 <= tag < 2 ^ 16 /\ 0 <= size < 2 ^ 32 /\ 0 <= rc < 2 ^ 32.

(** An authorization from the TPM that the session takes. *)
Definition accepted (s : session) (auth : val) : Prop :=
  wf TpmsAuthResponse auth = true /\ canonical TpmsAuthResponse auth /\ validate s auth = Ok tt.

(** Sessions whose validation does not panic. *)
Definition total_session (s : session) : Prop := 
  forall auth, wf TpmsAuthResponse auth = true -> validate s auth <> Panic.

(** Both buffers of the client have 4096 bytes; the response buffer starts
    out with zeros. *)
Definition fits (bytes : list byte) : Prop := Z.of_nat (length bytes) <= 4096.
Definition empty_buffer : list byte := repeat x00 (Z.to_nat 4096).

(** A connection that also records the commands it was given. *)
Definition recording {S E} (tpm : connection S E) : connection (S * list (list byte)) E :=
  {| transact := fun s cmd rsp =>
       let '(s', rsp', r) := transact tpm (fst s) cmd rsp in
       ((s', snd s ++ [cmd]), rsp', r) |}.
