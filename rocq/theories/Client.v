(** Model of the client, crates/tpm2-client/src/lib.rs and src/sessions.

    Errors are [TssError] codes ([Z]).  A buffer passed as [&mut [u8]] is
    returned with the result.  [size_of::<u32>()] is 4. *)
From Coq Require Import String ZArith NArith List Lia Bool.
From Coq Require Import Init.Byte.
From Verif Require Import Prelude Types Marshal Catalogue Errors Attrs Tpm2b.
Import ListNotations.
Open Scope Z_scope.

Definition cres : Type := list byte * outcome Z nat.

(** lib.rs:16-17 *)
Definition CMD_BUFFER_SIZE : nat := 4096.
Definition RESP_BUFFER_SIZE : nat := 4096.

(** [?] on a marshalling result, lib.rs:66-106 and 155-173: the error becomes a
    [TssError] (crates/tpm2-rs-errors). *)
Definition tss_err (r : mres) : cres := (fst r, omap_err tss_of_merr (snd r)).
(** [written += f(&mut buffer[written..])?], lib.rs:155-173. *)
Definition cseq (f : list byte -> cres) (w : nat) (buf : list byte) : cres :=
  if (length buf <? w)%nat then (buf, Panic)
  else let '(sub, r) := f (skipn w buf) in
       (firstn w buf ++ sub, omap (fun n => (w + n)%nat) r).
Definition cthen (r : cres) (k : nat -> list byte -> cres) : cres :=
  match r with
  | (buf, Ok w) => k w buf
  | (buf, Err e) => (buf, Err e)
  | (buf, Panic) => (buf, Panic)
  end.

(** The trait [Session], sessions/session.rs:4-9: what the two methods return.
    Implementations outside the crate are arbitrary, so these are too. *)
Record session := {
  auth_command : val;                        (* get_auth_command *)
  validate : val -> outcome Z unit           (* validate_auth_response *)
}.

(** [AuthorizationArea::decompose_ref], authorization_area/mod.rs:10-15: an
    arbitrary implementation; the four of the crate are [area0]..[area3]
    (s0.rs, s1.rs, s2.rs, s3.rs).  [NoSession] has no values outside the
    crate and none is ever constructed.  Simplified: an implementation gives the
    same answer each time it is asked, and does not override [is_empty]; Own.v
    has those that do. *)
Definition area := (option session * option session * option session)%type.
Definition area0 : area := (None, None, None).
Definition area1 (t : session) : area := (Some t, None, None).
Definition area2 (t u : session) : area := (Some t, Some u, None).
Definition area3 (t u v : session) : area := (Some t, Some u, Some v).
(** authorization_area/mod.rs:12-14 *)
Definition area_is_empty (a : area) : bool :=
  match a with (None, _, _) => true | _ => false end.

(** [CmdHeader::new], lib.rs:33-42.  The parameter is called [has_sessions];
    the caller passes [is_empty()], and the branches are swapped to match. *)
Definition st_NoSessions := 0x8001.
Definition st_Sessions := 0x8002.
Definition cmd_header_tag (has_sessions : bool) : Z :=
  if has_sessions then st_NoSessions else st_Sessions.
Definition cmd_header (tag size code : Z) : val :=
  VStruct [VStruct [VInt tag]; VInt size; VStruct [VInt code]].

(** [marshal_auth_size], lib.rs:66-70.  [auth_offset - 4] is computed in
    [usize]: it cannot underflow as the offset starts at 4. *)
Definition marshal_auth_size (auth_offset : nat) (buf : list byte) : cres :=
  let '(buf', r) := tss_err (marshal u32 (VInt ((Z.of_nat auth_offset - 4) mod 2 ^ 32)) buf) in
  (buf', omap (fun _ => auth_offset) r).

(** One [auth_offset += s.get_auth_command().try_marshal(&mut buffer[auth_offset..])?]
    of lib.rs:73-106. *)
Definition write_auth (s : session) (off : nat) (buf : list byte) : cres :=
  cseq (fun b => tss_err (marshal TpmsAuthCommand (auth_command s) b)) off buf.

(** [write_command_sessions], lib.rs:73-106. *)
Definition write_command_sessions (a : area) (buf : list byte) : cres :=
  if area_is_empty a then (buf, Ok 0%nat)
  else let '(s1, s2, s3) := a in
  match s1 with
  | None => marshal_auth_size 4 buf
  | Some s1 =>
      cthen (write_auth s1 4 buf) (fun off b =>
      match s2 with
      | None => marshal_auth_size off b
      | Some s2 =>
          cthen (write_auth s2 off b) (fun off b =>
          match s3 with
          | None => marshal_auth_size off b
          | Some s3 => cthen (write_auth s3 off b) (fun off b => marshal_auth_size off b)
          end)
      end)
  end.

(** [read_response_header], lib.rs:109-116: tag, size and how much was read. *)
Definition read_response_header (buf : list byte) : outcome Z (Z * Z * nat) :=
  match unmarshal RespHeader buf with
  | (Ok (VStruct [VStruct [VInt tag]; VInt size; VInt rc]), rest) =>
      match tss_try_from rc with
      | Ok e => Err e
      | _ => Ok (tag, size, (length buf - length rest)%nat)
      end
  | (Ok _, _) => Panic                       (* not a RespHeader: excluded by typing *)
  | (Err e, _) => Err (tss_of_merr e)
  | (Panic, _) => Panic
  end.

(** One [auth = TpmsAuthResponse::try_unmarshal(buffer)?; s.validate_auth_response(&auth)?]
    of lib.rs:119-139. *)
Definition read_auth (s : session) (buf : list byte) : outcome Z (list byte) :=
  match unmarshal TpmsAuthResponse buf with
  | (Ok auth, rest) => omap (fun _ => rest) (validate s auth)
  | (Err e, _) => Err (tss_of_merr e)
  | (Panic, _) => Panic
  end.
(** [read_response_sessions], lib.rs:119-139: the rest of the [UnmarshalBuf]. *)
Definition read_response_sessions (a : area) (buf : list byte) : outcome Z (list byte) :=
  let '(s1, s2, s3) := a in
  match s1 with
  | None => Ok buf
  | Some s1 => obind (read_auth s1 buf) (fun buf =>
      match s2 with
      | None => Ok buf
      | Some s2 => obind (read_auth s2 buf) (fun buf =>
          match s3 with
          | None => Ok buf
          | Some s3 => read_auth s3 buf
          end)
      end)
  end.

(** The trait [TpmCommand], base/src/commands.rs:105-114. *)
Record command := {
  code : Z;             (* CMD_CODE *)
  cmd_ty : ty;          (* Self *)
  handles_ty : ty;      (* Handles *)
  resp_ty : ty;         (* RespT *)
  resp_handles_ty : ty  (* RespHandles *)
}.
(** Its implementations: capability.rs:15-20, pcr.rs:19-24, random.rs:13-18,
    startup.rs:14-19; codes base/src/constants.rs:142, 192-197. *)
Definition GetCapability : command :=
  {| code := 0x17A; cmd_ty := GetCapabilityCmd; handles_ty := TUnit;
     resp_ty := GetCapabilityResp; resp_handles_ty := TUnit |}.
Definition PcrRead : command :=
  {| code := 0x17E; cmd_ty := PcrReadCmd; handles_ty := TUnit;
     resp_ty := PcrReadResp; resp_handles_ty := TUnit |}.
Definition GetRandom : command :=
  {| code := 0x17B; cmd_ty := GetRandomCmd; handles_ty := TUnit;
     resp_ty := GetRandomResp; resp_handles_ty := TUnit |}.
Definition Startup : command :=
  {| code := 0x144; cmd_ty := StartupCmd; handles_ty := TUnit;
     resp_ty := TUnit; resp_handles_ty := TUnit |}.
Definition library_commands : list command := [GetCapability; PcrRead; GetRandom; Startup].

(** The bytes handed to the connection, lib.rs:155-173 and [&cmd_buffer[..written]]
    of line 176. *)
Definition build_command (c : command) (cmd handles : val) (a : area) : outcome Z (list byte) :=
  let tag := cmd_header_tag (area_is_empty a) in
  let '(buf, r) :=
    cthen (tss_err (marshal CmdHeader (cmd_header tag 0 (code c)) (repeat x00 CMD_BUFFER_SIZE)))
      (fun w buf =>
    cthen (cseq (fun b => tss_err (marshal (handles_ty c) handles b)) w buf) (fun w buf =>
    cthen (cseq (write_command_sessions a) w buf) (fun w buf =>
    cseq (fun b => tss_err (marshal (cmd_ty c) cmd b)) w buf))) in
  match r with
  | Ok written =>
      let '(buf, r2) :=
        tss_err (marshal CmdHeader (cmd_header tag (Z.of_nat written mod 2 ^ 32) (code c)) buf) in
      match r2 with
      | Ok _ => if (length buf <? written)%nat then Panic else Ok (firstn written buf)
      | Err e => Err e
      | Panic => Panic
      end
  | Err e => Err e
  | Panic => Panic
  end.

(** What is done with the response buffer, lib.rs:178-194. *)
Definition parse_response (c : command) (a : area) (resp_buffer : list byte)
    : outcome Z (val * val) :=
  obind (read_response_header resp_buffer) (fun '(tag, size, read) =>
  let resp_size := usize size in
  if (N.of_nat (length resp_buffer) <? resp_size)%N then Err (tcs_code OutOfMemory)
  else if (resp_size <? N.of_nat read)%N then Panic
  else
    let u0 := skipn read (firstn (N.to_nat resp_size) resp_buffer) in
    let '(rh, u1) := unmarshal (resp_handles_ty c) u0 in
    obind (omap_err tss_of_merr rh) (fun resp_handles =>
    let '(rp, u2) := if tag =? st_Sessions then unm_int false 4 u1 else (Ok 0, u1) in
    obind (omap_err tss_of_merr rp) (fun _ =>
    let '(rr, u3) := unmarshal (resp_ty c) u2 in
    obind (omap_err tss_of_merr rr) (fun resp =>
    obind (read_response_sessions a u3) (fun u4 =>
    match u4 with
    | [] => Ok (resp, resp_handles)
    | _ :: _ => Err (tcs_code TpmUnexpected)
    end))))).

(** The trait [Connection], connection/mod.rs:11-26: an arbitrary stateful
    object.  [transact s cmd rsp] is the new state, the contents of [rsp]
    afterwards, and the result: the length of the returned slice, or an error. *)
Record connection (S E : Type) := {
  transact : S -> list byte -> list byte -> S * list byte * outcome E nat
}.
Arguments transact {S E} _.

(** [run_command_with_handles], lib.rs:142-195; [from_tss] is
    [From<TssError> for T::Error]. *)
Definition run_command_with_handles {S E} (from_tss : Z -> E) (tpm : connection S E) (s : S)
    (c : command) (cmd handles : val) (a : area) : S * outcome E (val * val) :=
  match build_command c cmd handles a with
  | Err e => (s, Err (from_tss e))
  | Panic => (s, Panic)
  | Ok bytes =>
      let '(s', resp_buffer, r) := transact tpm s bytes (repeat x00 RESP_BUFFER_SIZE) in
      match r with
      | Ok _ => (s', omap_err from_tss (parse_response c a resp_buffer))
      | Err e => (s', Err e)
      | Panic => (s', Panic)
      end
  end.

(** [run_command], lib.rs:53-58; [get_capability], 19-24, is an instance. *)
Definition run_command {S E} (from_tss : Z -> E) (tpm : connection S E) (s : S)
    (c : command) (cmd : val) : S * outcome E val :=
  let '(s', r) := run_command_with_handles from_tss tpm s c cmd (zero_of (handles_ty c)) area0 in
  (s', omap fst r).

(** ** Password sessions, sessions/password.rs *)

(** [PasswordSession::new], 43-47; the struct is its [auth] field. *)
Definition password_new (password : list byte) : outcome Z val :=
  omap_err rc_of_merr (from_bytes 64 password).
(** [get_secret], 49-51. *)
Definition get_secret (auth : val) : outcome merr (list byte) := get_buffer auth.
(** [Session for PasswordSession], 54-74. *)
Definition password_auth_command (auth : val) : val :=
  VStruct [VStruct [VInt RS_PW]; tpm2b_default 64; VStruct [VInt 0]; auth].
Definition password_validate (resp : val) : outcome Z unit :=
  match resp with
  | VStruct [nonce; VStruct [VInt attrs]; hmac] =>
      if negb (get_size nonce =? 0) || negb (attrs =? 1) || negb (get_size hmac =? 0)
      then Err (tcs_code BadParameter) else Ok tt
  | _ => Panic                               (* not a TpmsAuthResponse: excluded by typing *)
  end.
Definition password_session (auth : val) : session :=
  {| auth_command := password_auth_command auth; validate := password_validate |}.
