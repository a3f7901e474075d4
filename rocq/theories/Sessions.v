(** The client with sessions that keep state (crates/tpm2-client/src/lib.rs:72-139,
    142-195; sessions/session.rs:4-9).

    [get_auth_command] and [validate_auth_response] take [&self], but a session
    is free to keep its nonces in a [Cell], to share them with other sessions or
    with the connection.  Client.v has sessions without state; here one world
    [W] holds the state of the sessions and of the connection, and every call
    can change it. *)
From Coq Require Import String ZArith NArith List Lia Bool.
From Coq Require Import Init.Byte.
From Verif Require Import Prelude Types Marshal Catalogue Errors Tpm2b Client.
Import ListNotations.
Open Scope Z_scope.

(** The trait [Session], sessions/session.rs:4-9. *)
Record live (W : Type) := {
  give : W -> W * val;                         (* get_auth_command *)
  take : W -> val -> W * outcome Z unit        (* validate_auth_response *)
}.
Arguments give {W} _.
Arguments take {W} _.
(** [AuthorizationArea::decompose_ref] and [is_empty], authorization_area/mod.rs:10-15;
    simplified as in Client.v. *)
Definition live_area (W : Type) : Type := (option (live W) * option (live W) * option (live W))%type.
Definition live_is_empty {W} (a : live_area W) : bool :=
  match a with (None, _, _) => true | _ => false end.

(** One [auth_offset += s.get_auth_command().try_marshal(&mut buffer[auth_offset..])?]
    of lib.rs:73-106. *)
Definition live_write_auth {W} (s : live W) (off : nat) (buf : list byte) (w : W) : W * cres :=
  let '(w', v) := give s w in
  (w', cseq (fun b => tss_err (marshal TpmsAuthCommand v b)) off buf).
(** [?] on a result that comes with a changed world. *)
Definition live_then {W} (r : W * cres) (k : nat -> list byte -> W -> W * cres) : W * cres :=
  match r with
  | (w, (buf, Ok n)) => k n buf w
  | (w, (buf, Err e)) => (w, (buf, Err e))
  | (w, (buf, Panic)) => (w, (buf, Panic))
  end.
(** [write_command_sessions], lib.rs:73-106. *)
Definition live_write_command_sessions {W} (a : live_area W) (buf : list byte) (w : W) : W * cres :=
  if live_is_empty a then (w, (buf, Ok 0%nat))
  else let '(s1, s2, s3) := a in
  match s1 with
  | None => (w, marshal_auth_size 4 buf)
  | Some s1 =>
      live_then (live_write_auth s1 4 buf w) (fun off b w =>
      match s2 with
      | None => (w, marshal_auth_size off b)
      | Some s2 =>
          live_then (live_write_auth s2 off b w) (fun off b w =>
          match s3 with
          | None => (w, marshal_auth_size off b)
          | Some s3 => live_then (live_write_auth s3 off b w) (fun off b w => (w, marshal_auth_size off b))
          end)
      end)
  end.
(** One [auth = TpmsAuthResponse::try_unmarshal(buffer)?; s.validate_auth_response(&auth)?]
    of lib.rs:119-139. *)
Definition live_read_auth {W} (s : live W) (buf : list byte) (w : W) : W * outcome Z (list byte) :=
  match unmarshal TpmsAuthResponse buf with
  | (Ok auth, rest) => let '(w', r) := take s w auth in (w', omap (fun _ => rest) r)
  | (Err e, _) => (w, Err (tss_of_merr e))
  | (Panic, _) => (w, Panic)
  end.
Definition live_bind {W A B} (r : W * outcome Z A) (k : A -> W -> W * outcome Z B) : W * outcome Z B :=
  match r with
  | (w, Ok a) => k a w
  | (w, Err e) => (w, Err e)
  | (w, Panic) => (w, Panic)
  end.
(** [read_response_sessions], lib.rs:119-139. *)
Definition live_read_response_sessions {W} (a : live_area W) (buf : list byte) (w : W)
    : W * outcome Z (list byte) :=
  let '(s1, s2, s3) := a in
  match s1 with
  | None => (w, Ok buf)
  | Some s1 => live_bind (live_read_auth s1 buf w) (fun buf w =>
      match s2 with
      | None => (w, Ok buf)
      | Some s2 => live_bind (live_read_auth s2 buf w) (fun buf w =>
          match s3 with
          | None => (w, Ok buf)
          | Some s3 => live_read_auth s3 buf w
          end)
      end)
  end.

(** The bytes handed to the connection, lib.rs:155-173. *)
Definition live_build_command {W} (c : command) (cmd handles : val) (a : live_area W) (w : W)
    : W * outcome Z (list byte) :=
  let tag := cmd_header_tag (live_is_empty a) in
  let '(w, (buf, r)) :=
    live_then (w, tss_err (marshal CmdHeader (cmd_header tag 0 (code c)) (repeat x00 CMD_BUFFER_SIZE)))
      (fun n buf w =>
    live_then (w, cseq (fun b => tss_err (marshal (handles_ty c) handles b)) n buf) (fun n buf w =>
    (* [written += write_command_sessions(&cmd_sessions, &mut cmd_buffer[written..])?] *)
    live_then (if (length buf <? n)%nat then (w, (buf, Panic))
               else let '(w, (sub, r)) := live_write_command_sessions a (skipn n buf) w in
                    (w, (firstn n buf ++ sub, omap (fun m => (n + m)%nat) r))) (fun n buf w =>
    (w, cseq (fun b => tss_err (marshal (cmd_ty c) cmd b)) n buf)))) in
  (w, match r with
      | Ok written =>
          let '(buf, r2) :=
            tss_err (marshal CmdHeader (cmd_header tag (Z.of_nat written mod 2 ^ 32) (code c)) buf) in
          match r2 with
          | Ok _ => if (length buf <? written)%nat then Panic else Ok (firstn written buf)
          | Err e => Err e
          | Panic => Panic
          end
      | Err e => Err e
      | Panic => Panic
      end).
(** What is done with the response buffer, lib.rs:178-194. *)
Definition live_parse_response {W} (c : command) (a : live_area W) (resp_buffer : list byte) (w : W)
    : W * outcome Z (val * val) :=
  live_bind (w, read_response_header resp_buffer) (fun '(tag, size, read) w =>
  let resp_size := usize size in
  if (N.of_nat (length resp_buffer) <? resp_size)%N then (w, Err (tcs_code OutOfMemory))
  else if (resp_size <? N.of_nat read)%N then (w, Panic)
  else
    let u0 := skipn read (firstn (N.to_nat resp_size) resp_buffer) in
    let '(rh, u1) := unmarshal (resp_handles_ty c) u0 in
    live_bind (w, omap_err tss_of_merr rh) (fun resp_handles w =>
    let '(rp, u2) := if tag =? st_Sessions then unm_int false 4 u1 else (Ok 0, u1) in
    live_bind (w, omap_err tss_of_merr rp) (fun _ w =>
    let '(rr, u3) := unmarshal (resp_ty c) u2 in
    live_bind (w, omap_err tss_of_merr rr) (fun resp w =>
    live_bind (live_read_response_sessions a u3 w) (fun u4 w =>
    match u4 with
    | [] => (w, Ok (resp, resp_handles))
    | _ :: _ => (w, Err (tcs_code TpmUnexpected))
    end))))).
(** [run_command_with_handles], lib.rs:142-195. *)
Definition live_run {W E} (from_tss : Z -> E) (tpm : connection W E) (w : W)
    (c : command) (cmd handles : val) (a : live_area W) : W * outcome E (val * val) :=
  match live_build_command c cmd handles a w with
  | (w, Err e) => (w, Err (from_tss e))
  | (w, Panic) => (w, Panic)
  | (w, Ok bytes) =>
      let '(w, resp_buffer, r) := transact tpm w bytes (repeat x00 RESP_BUFFER_SIZE) in
      match r with
      | Ok _ => let '(w, r) := live_parse_response c a resp_buffer w in (w, omap_err from_tss r)
      | Err e => (w, Err e)
      | Panic => (w, Panic)
      end
  end.
