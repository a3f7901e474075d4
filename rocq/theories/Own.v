(** The client with an authorization area of the program's own
    (crates/tpm2-client/src/lib.rs:72-139, 142-195; authorization_area/mod.rs:10-15).

    [AuthorizationArea] is a public trait: a program can implement it, override
    [is_empty], and answer differently each time it is asked.  Client.v and
    Sessions.v ask an area once and derive [is_empty] from the answer; here the
    area is asked as often as the code asks it, and one world [W] holds the state
    of area, sessions and connection. *)
From Coq Require Import String ZArith NArith List Lia Bool.
From Coq Require Import Init.Byte.
From Verif Require Import Prelude Types Marshal Catalogue Errors Tpm2b Client Sessions.
Import ListNotations.
Open Scope Z_scope.

(** The trait [AuthorizationArea], authorization_area/mod.rs:10-15. *)
Record own (W : Type) := {
  says_empty : W -> W * bool;                  (* is_empty *)
  parts : W -> W * live_area W                 (* decompose_ref *)
}.
Arguments says_empty {W} _.
Arguments parts {W} _.
(** An implementation that leaves [is_empty] as it is, mod.rs:12-14, and always
    has the same sessions: those of the crate, s0.rs, s1.rs, s2.rs, s3.rs. *)
Definition ordinary {W} (a : live_area W) : own W :=
  {| says_empty := fun w => (w, live_is_empty a); parts := fun w => (w, a) |}.

(** [write_command_sessions], lib.rs:73-106. *)
Definition own_write_command_sessions {W} (a : own W) (buf : list byte) (w : W) : W * cres :=
  let '(w, empty) := says_empty a w in
  if empty then (w, (buf, Ok 0%nat))
  else let '(w, (s1, s2, s3)) := parts a w in
  match s1 with
  | None => (w, marshal_auth_size 4 buf)
  | Some s1 =>
      live_then (live_write_auth s1 4 buf w) (fun off b w =>
      match s2 with
      | None => (w, marshal_auth_size off b)
      | Some s2 =>
          live_then (live_write_auth s2 off b w) (fun off b w =>
          match s3 with
          | None => (w, marshal_auth_size off b)
          | Some s3 => live_then (live_write_auth s3 off b w) (fun off b w => (w, marshal_auth_size off b))
          end)
      end)
  end.
(** [read_response_sessions], lib.rs:119-139. *)
Definition own_read_response_sessions {W} (a : own W) (buf : list byte) (w : W)
    : W * outcome Z (list byte) :=
  let '(w, d) := parts a w in live_read_response_sessions d buf w.

(** The bytes handed to the connection, lib.rs:155-173. *)
Definition own_build_command {W} (c : command) (cmd handles : val) (a : own W) (w : W)
    : W * outcome Z (list byte) :=
  let '(w, empty) := says_empty a w in
  let tag := cmd_header_tag empty in
  let '(w, (buf, r)) :=
    live_then (w, tss_err (marshal CmdHeader (cmd_header tag 0 (code c)) (repeat x00 CMD_BUFFER_SIZE)))
      (fun n buf w =>
    live_then (w, cseq (fun b => tss_err (marshal (handles_ty c) handles b)) n buf) (fun n buf w =>
    (* [written += write_command_sessions(&cmd_sessions, &mut cmd_buffer[written..])?] *)
    live_then (if (length buf <? n)%nat then (w, (buf, Panic))
               else let '(w, (sub, r)) := own_write_command_sessions a (skipn n buf) w in
                    (w, (firstn n buf ++ sub, omap (fun m => (n + m)%nat) r))) (fun n buf w =>
    (w, cseq (fun b => tss_err (marshal (cmd_ty c) cmd b)) n buf)))) in
  (w, match r with
      | Ok written =>
          let '(buf, r2) :=
            tss_err (marshal CmdHeader (cmd_header tag (Z.of_nat written mod 2 ^ 32) (code c)) buf) in
          match r2 with
          | Ok _ => if (length buf <? written)%nat then Panic else Ok (firstn written buf)
          | Err e => Err e
          | Panic => Panic
          end
      | Err e => Err e
      | Panic => Panic
      end).
(** What is done with the response buffer, lib.rs:178-194. *)
Definition own_parse_response {W} (c : command) (a : own W) (resp_buffer : list byte) (w : W)
    : W * outcome Z (val * val) :=
  live_bind (w, read_response_header resp_buffer) (fun '(tag, size, read) w =>
  let resp_size := usize size in
  if (N.of_nat (length resp_buffer) <? resp_size)%N then (w, Err (tcs_code OutOfMemory))
  else if (resp_size <? N.of_nat read)%N then (w, Panic)
  else
    let u0 := skipn read (firstn (N.to_nat resp_size) resp_buffer) in
    let '(rh, u1) := unmarshal (resp_handles_ty c) u0 in
    live_bind (w, omap_err tss_of_merr rh) (fun resp_handles w =>
    let '(rp, u2) := if tag =? st_Sessions then unm_int false 4 u1 else (Ok 0, u1) in
    live_bind (w, omap_err tss_of_merr rp) (fun _ w =>
    let '(rr, u3) := unmarshal (resp_ty c) u2 in
    live_bind (w, omap_err tss_of_merr rr) (fun resp w =>
    live_bind (own_read_response_sessions a u3 w) (fun u4 w =>
    match u4 with
    | [] => (w, Ok (resp, resp_handles))
    | _ :: _ => (w, Err (tcs_code TpmUnexpected))
    end))))).
(** [run_command_with_handles], lib.rs:142-195. *)
Definition own_run {W E} (from_tss : Z -> E) (tpm : connection W E) (w : W)
    (c : command) (cmd handles : val) (a : own W) : W * outcome E (val * val) :=
  match own_build_command c cmd handles a w with
  | (w, Err e) => (w, Err (from_tss e))
  | (w, Panic) => (w, Panic)
  | (w, Ok bytes) =>
      let '(w, resp_buffer, r) := transact tpm w bytes (repeat x00 RESP_BUFFER_SIZE) in
      match r with
      | Ok _ => let '(w, r) := own_parse_response c a resp_buffer w in (w, omap_err from_tss r)
      | Err e => (w, Err e)
      | Panic => (w, Panic)
      end
  end.
