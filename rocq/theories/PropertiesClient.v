(** Properties of the client (C30-C37, C55, C56). *)
(* Restates the theorems of ClientFacts.v; proofs are there. *)
From Coq Require Import String ZArith NArith List Lia Bool.
From Coq Require Import Init.Byte.
From Verif Require Import Prelude Types Marshal WireSpec MarshalProofs MarshalFacts Layout Catalogue
  Samples Errors Attrs Tpm2b Tpm2bFacts Client ClientSpec ClientProofs.
From Verif Require Import ClientFacts.
Import ListNotations.
Open Scope Z_scope.

(** ** C30 *)
(** What the connection is given: the frame, once, or nothing if it is longer
    than the command buffer. *)
Theorem C30_frame S E (from_tss : Z -> E) (tpm : connection S E) s log c cmd handles a :
  valid_call c cmd handles a ->
  snd (fst (run_command_with_handles from_tss (recording tpm) (s, log) c cmd handles a))
  = if Z.of_nat (length (command_frame c cmd handles a)) <=? 4096
    then log ++ [command_frame c cmd handles a] else log.
Proof. exact (c30_frame S E from_tss tpm s log c cmd handles a). Qed.
Print Assumptions C30_frame.

(** Recording does not change what happens. *)
Theorem C30_recording S E (from_tss : Z -> E) (tpm : connection S E) s log c cmd handles a :
  let '(s1, r1) := run_command_with_handles from_tss tpm s c cmd handles a in
  let '((s2, _), r2) := run_command_with_handles from_tss (recording tpm) (s, log) c cmd handles a in
  s1 = s2 /\ r1 = r2.
Proof. exact (c30_recording S E from_tss tpm s log c cmd handles a). Qed.
Print Assumptions C30_recording.

(** The fields of the frame, read off its bytes. *)
Theorem C30_fields c cmd handles a :
  0 <= code c < 2 ^ 32 ->
  let f := command_frame c cmd handles a in
  fits f ->
  be_val (firstn 2 f) = (if area_is_empty a then 0x8001 else 0x8002)
  /\ be_val (firstn 4 (skipn 2 f)) = Z.of_nat (length f)
  /\ be_val (firstn 4 (skipn 6 f)) = code c
  /\ skipn 10 f = enc (handles_ty c) handles ++ auth_area (sessions_of a) ++ enc (cmd_ty c) cmd.
Proof. exact (c30_fields c cmd handles a). Qed.
Print Assumptions C30_fields.

(** A command without sessions. *)
Theorem C30_run_command S E (from_tss : Z -> E) (tpm : connection S E) s log c cmd :
  In c library_commands -> wf (cmd_ty c) cmd = true ->
  snd (fst (run_command from_tss (recording tpm) (s, log) c cmd))
  = log ++ [be_bytes 2 0x8001 ++ be_bytes 4 (Z.of_nat (10 + length (enc (cmd_ty c) cmd)))
            ++ be_bytes 4 (code c) ++ enc (cmd_ty c) cmd].
Proof. exact (c30_run_command S E from_tss tpm s log c cmd). Qed.
Print Assumptions C30_run_command.

Example C30_example :
  snd (fst (run_command id (recording silent) (tt, []) GetRandom (VStruct [VInt 32])))
  = [[x80; x01; x00; x00; x00; x0c; x00; x00; x01; x7b; x00; x20]].
Proof. exact c30_example. Qed.


(** ** C31 *)
(** The authorization area of each shape the crate offers: a 4-byte size
    counting the bytes that follow it, then the sessions' structures in order. *)
Theorem C31_area S E (from_tss : Z -> E) (tpm : connection S E) s log c cmd handles a :
  valid_call c cmd handles a ->
  fits (command_frame c cmd handles a) ->
  let wire s := enc TpmsAuthCommand (auth_command s) in
  exists header, length header = 10%nat /\
  forall auth,
    (a = area0 -> auth = []) ->
    (forall t, a = area1 t -> auth = be_bytes 4 (Z.of_nat (length (wire t))) ++ wire t) ->
    (forall t u, a = area2 t u ->
      auth = be_bytes 4 (Z.of_nat (length (wire t) + length (wire u))) ++ wire t ++ wire u) ->
    (forall t u v, a = area3 t u v ->
      auth = be_bytes 4 (Z.of_nat (length (wire t) + length (wire u) + length (wire v)))
             ++ wire t ++ wire u ++ wire v) ->
    (a = area0 \/ (exists t, a = area1 t) \/ (exists t u, a = area2 t u) \/ exists t u v, a = area3 t u v) ->
    snd (fst (run_command_with_handles from_tss (recording tpm) (s, log) c cmd handles a))
    = log ++ [header ++ enc (handles_ty c) handles ++ auth ++ enc (cmd_ty c) cmd].
Proof. exact (c31_area S E from_tss tpm s log c cmd handles a). Qed.
Print Assumptions C31_area.

(** PCR_Read with a password session with password 01 02. *)
Example C31_example :
  exists auth, password_new [x01; x02] = Ok auth
  /\ snd (fst (run_command_with_handles id (recording silent) (tt, []) GetRandom (VStruct [VInt 32]) VUnit
          (area2 (password_session auth) (password_session auth))))
  = [[x80; x02; x00; x00; x00; x26; x00; x00; x01; x7b;
      x00; x00; x00; x16;
      x40; x00; x00; x09; x00; x00; x00; x00; x02; x01; x02;
      x40; x00; x00; x09; x00; x00; x00; x00; x02; x01; x02;
      x00; x20]].
Proof. exact c31_example. Qed.


(** ** C32 *)
(** A response code other than zero is the result, whatever the rest of the
    buffer holds. *)
Theorem C32_error_code S E (from_tss : Z -> E) (tpm : connection S E) s c cmd handles a
    s' tag size rc rest n :
  valid_call c cmd handles a -> fits (command_frame c cmd handles a) ->
  header_ok tag size rc -> rc <> 0 ->
  transact tpm s (command_frame c cmd handles a) empty_buffer
    = (s', response_frame tag size rc rest, Ok n) ->
  run_command_with_handles from_tss tpm s c cmd handles a = (s', Err (from_tss rc)).
Proof. exact (c32_error_code S E from_tss tpm s c cmd handles a s' tag size rc rest n). Qed.
Print Assumptions C32_error_code.

Example C32_example :
  run_command id (canned [x80; x01; x00; x00; x00; x0a; x00; x00; x01; x43]) tt GetRandom
    (VStruct [VInt 8]) = (tt, Err 0x143).
Proof. exact c32_example. Qed.


(** ** C33 *)
(** Exactly the responses that are accepted, and what is returned for them. *)
Theorem C33_accepted_iff S E (from_tss : Z -> E) (tpm : connection S E) s c cmd handles a s' resp rh :
  valid_call c cmd handles a -> wf_connection tpm ->
  (run_command_with_handles from_tss tpm s c cmd handles a = (s', Ok (resp, rh))
   <-> fits (command_frame c cmd handles a)
       /\ exists n tag psize auths ignored,
          let body := response_body c tag psize resp rh auths in
          transact tpm s (command_frame c cmd handles a) empty_buffer
            = (s', response_frame tag (10 + Z.of_nat (length body)) 0 (body ++ ignored), Ok n)
          /\ 0 <= tag < 2 ^ 16 /\ 0 <= psize < 2 ^ 32
          /\ wf (resp_ty c) resp = true /\ canonical (resp_ty c) resp
          /\ wf (resp_handles_ty c) rh = true /\ canonical (resp_handles_ty c) rh
          /\ Forall2 accepted (sessions_of a) auths).
Proof. exact (c33_accepted_iff S E from_tss tpm s c cmd handles a s' resp rh). Qed.
Print Assumptions C33_accepted_iff.

(** Two bytes from GetRandom, authorized by a password session. *)
Example C33_example :
  let rsp := [x80; x02; x00; x00; x00; x17; x00; x00; x00; x00; x00; x00; x00; x04;
              x00; x02; xca; xfe; x00; x00; x01; x00; x00] in
  run_command_with_handles id (canned rsp) tt GetRandom (VStruct [VInt 2]) VUnit
    (area1 (password_session (v2b 64 [x01; x02])))
  = (tt, Ok (VStruct [v2b 64 [xca; xfe]], VUnit))
  /\ snd (run_command_with_handles id (canned (rsp ++ [x00])) tt GetRandom (VStruct [VInt 2]) VUnit
           (area1 (password_session (v2b 64 [x01; x02]))))
     = Ok (VStruct [v2b 64 [xca; xfe]], VUnit)
  /\ snd (run_command_with_handles id (canned (firstn 5 rsp ++ [x18] ++ skipn 6 rsp)) tt GetRandom
           (VStruct [VInt 2]) VUnit (area1 (password_session (v2b 64 [x01; x02]))))
     = Err 0x2010.
Proof. exact c33_example. Qed.


(** ** C34 *)
Theorem C34_panics_iff_partial S E (from_tss : Z -> E) (tpm : connection S E) s c cmd handles a s' rsp n :
  valid_call c cmd handles a -> fits (command_frame c cmd handles a) ->
  Forall total_session (sessions_of a) ->
  transact tpm s (command_frame c cmd handles a) empty_buffer = (s', rsp, Ok n) ->
  (snd (run_command_with_handles from_tss tpm s c cmd handles a) = Panic
   <-> exists tag size rest, header_ok tag size 0 /\ size < 10 /\ rsp = response_frame tag size 0 rest).
Proof. exact (c34_panics_iff_partial S E from_tss tpm s c cmd handles a s' rsp n). Qed.
Print Assumptions C34_panics_iff_partial.

(** The sessions of the crate validate without panicking. *)
Theorem C34_password_total auth : total_session (password_session auth).
Proof. exact (c34_password_total auth). Qed.
Print Assumptions C34_password_total.

(** Size fields 9 and 10 in otherwise equal responses, and one of the error
    responses that have no such effect. *)
Example C34_example :
  let rsp size code := [x80; x01; x00; x00; x00; size; x00; x00; x01; code] in
  let zero size := [x80; x01; x00; x00; x00; size; x00; x00; x00; x00] in
  snd (run_command id (canned (zero x09)) tt Startup (VStruct [vi 0])) = Panic
  /\ is_ok (snd (run_command id (canned (zero x0a)) tt Startup (VStruct [vi 0]))) = true
  /\ snd (run_command id (canned (rsp x09 x43)) tt Startup (VStruct [vi 0])) = Err 0x143
  /\ valid_call Startup (VStruct [vi 0]) VUnit area0
  /\ Z.of_nat (length (command_frame Startup (VStruct [vi 0]) VUnit area0)) = 12.
Proof. exact c34_example. Qed.

(** Ten zero bytes are enough. *)
Theorem C34_refuted :
  exists bytes cmd, wf (cmd_ty Startup) cmd = true
  /\ snd (run_command id (canned bytes) tt Startup cmd) = Panic.
Proof. exact c34_refuted. Qed.
Print Assumptions C34_refuted.


(** ** C35 *)
(** The result depends on the reported bytes only, provided they include the
    header and its size field does not exceed their number. *)
Theorem C35_reported_only_partial S1 S2 E (from_tss : Z -> E)
    (tpm1 : connection S1 E) (tpm2 : connection S2 E) s1 s2 c cmd handles a s1' s2' rsp1 rsp2 n :
  valid_call c cmd handles a -> fits (command_frame c cmd handles a) ->
  wf_connection tpm1 -> wf_connection tpm2 ->
  transact tpm1 s1 (command_frame c cmd handles a) empty_buffer = (s1', rsp1, Ok n) ->
  transact tpm2 s2 (command_frame c cmd handles a) empty_buffer = (s2', rsp2, Ok n) ->
  firstn n rsp1 = firstn n rsp2 ->
  (10 <= n)%nat -> be_val (firstn 4 (skipn 2 rsp1)) <= Z.of_nat n ->
  snd (run_command_with_handles from_tss tpm1 s1 c cmd handles a)
  = snd (run_command_with_handles from_tss tpm2 s2 c cmd handles a).
Proof. exact (c35_reported_only_partial S1 S2 E from_tss tpm1 tpm2 s1 s2 c cmd handles a s1' s2' rsp1 rsp2 n). Qed.
Print Assumptions C35_reported_only_partial.

(** Two connections that report the same fourteen bytes and leave the buffer
    differently behind them. *)
Example C35_example :
  let reported := [x80; x01; x00; x00; x00; x0e; x00; x00; x00; x00; x00; x02; xca; xfe] in
  let leaving fill := {| transact := fun (s : unit) (cmd rsp : list byte) =>
                           (s, overwrite (reported ++ fill) rsp, @Ok Z nat 14%nat) |} in
  firstn 14 (snd (fst (transact (leaving [xaa]) tt [] empty_buffer))) = reported
  /\ firstn 14 (snd (fst (transact (leaving []) tt [] empty_buffer))) = reported
  /\ be_val (firstn 4 (skipn 2 reported)) <= 14
  /\ snd (run_command id (leaving [xaa]) tt GetRandom (VStruct [VInt 2])) = Ok (VStruct [v2b 64 [xca; xfe]])
  /\ snd (run_command id (leaving []) tt GetRandom (VStruct [VInt 2])) = Ok (VStruct [v2b 64 [xca; xfe]]).
Proof. exact c35_example. Qed.

(** Twelve bytes are reported, the size field says 16, and the four bytes that
    were never sent are decoded as part of the result. *)
Theorem C35_refuted :
  exists (tpm1 tpm2 : connection unit Z) cmd reported,
  wf_connection tpm1 /\ wf_connection tpm2 /\ wf (cmd_ty GetRandom) cmd = true
  /\ (forall command rsp, Z.of_nat (length rsp) = 4096 -> exists rsp1 rsp2,
        transact tpm1 tt command rsp = (tt, rsp1, Ok (length reported))
        /\ transact tpm2 tt command rsp = (tt, rsp2, Ok (length reported))
        /\ firstn (length reported) rsp1 = reported /\ firstn (length reported) rsp2 = reported)
  /\ is_ok (snd (run_command id tpm1 tt GetRandom cmd)) = true
  /\ is_ok (snd (run_command id tpm2 tt GetRandom cmd)) = true
  /\ snd (run_command id tpm1 tt GetRandom cmd) <> snd (run_command id tpm2 tt GetRandom cmd).
Proof. exact c35_refuted. Qed.
Print Assumptions C35_refuted.


(** ** C36 *)
Theorem C36_new password :
  if (length password <=? 64)%nat
  then exists auth, password_new password = Ok auth /\ wf Tpm2bDigest auth = true
         /\ get_secret auth = Ok password
  else password_new password = Err 0x095.
Proof. exact (c36_new password). Qed.
Print Assumptions C36_new.

(** What is sent: TPM_RS_PW, no nonce, attributes 0, the password. *)
Theorem C36_auth_command password auth :
  password_new password = Ok auth ->
  wf_session (password_session auth)
  /\ enc TpmsAuthCommand (auth_command (password_session auth))
     = be_bytes 4 0x40000009 ++ be_bytes 2 0 ++ be_bytes 1 0
       ++ be_bytes 2 (Z.of_nat (length password)) ++ password.
Proof. exact (c36_auth_command password auth). Qed.
Print Assumptions C36_auth_command.

(** What is accepted: no nonce, continueSession set, no hmac. *)
Theorem C36_validate auth resp :
  wf TpmsAuthResponse resp = true ->
  validate (password_session auth) resp
  = if list_eq_dec Byte.byte_eq_dec (enc TpmsAuthResponse resp) [x00; x00; x01; x00; x00]
    then Ok tt else Err 0x2003.
Proof. exact (c36_validate auth resp). Qed.
Print Assumptions C36_validate.

Example C36_example :
  exists auth, password_new (repeat x70 64) = Ok auth /\ password_new (repeat x70 65) = Err 0x095
  /\ password_validate (VStruct [v2b 64 []; vi 1; v2b 64 []]) = Ok tt
  /\ password_validate (VStruct [v2b 64 []; vi 0; v2b 64 []]) = Err 0x2003
  /\ wf TpmsAuthResponse (VStruct [v2b 64 []; vi 1; v2b 64 []]) = true.
Proof. exact c36_example. Qed.


(** ** C37 *)
Theorem C37_too_long S E (from_tss : Z -> E) (tpm : connection S E) s log c cmd handles a :
  valid_call c cmd handles a ->
  ~ fits (command_frame c cmd handles a) ->
  fst (run_command_with_handles from_tss (recording tpm) (s, log) c cmd handles a) = (s, log)
  /\ (snd (run_command_with_handles from_tss (recording tpm) (s, log) c cmd handles a)
       = Err (from_tss 0x904)
     \/ snd (run_command_with_handles from_tss (recording tpm) (s, log) c cmd handles a) = Panic).
Proof. exact (c37_too_long S E from_tss tpm s log c cmd handles a). Qed.
Print Assumptions C37_too_long.

(** The commands of the library always fit, with any sessions. *)
Theorem C37_library_fits c cmd handles a :
  In c library_commands -> valid_call c cmd handles a ->
  fits (command_frame c cmd handles a).
Proof. exact (c37_library_fits c cmd handles a). Qed.
Print Assumptions C37_library_fits.

Example C37_example :
  valid_call BigCommand (v2b 5000 (repeat x11 4085)) VUnit area0
  /\ (length (command_frame BigCommand (v2b 5000 (repeat x11 4085)) VUnit area0) =? 4097)%nat = true
  /\ build_command BigCommand (v2b 5000 (repeat x11 4085)) VUnit area0 = Panic
  /\ is_ok (build_command BigCommand (v2b 5000 (repeat x11 4084)) VUnit area0) = true.
Proof. exact c37_example. Qed.


(** ** C55 *)
(** An error of the connection is returned as it is. *)
Theorem C55_connection_error S E (from_tss : Z -> E) (tpm : connection S E) s c cmd handles a s' rsp e :
  valid_call c cmd handles a -> fits (command_frame c cmd handles a) ->
  transact tpm s (command_frame c cmd handles a) empty_buffer = (s', rsp, Err e) ->
  run_command_with_handles from_tss tpm s c cmd handles a = (s', Err e).
Proof. exact (c55_connection_error S E from_tss tpm s c cmd handles a s' rsp e). Qed.
Print Assumptions C55_connection_error.

(** However the connection answers, it is called once. *)
Theorem C55_once S E (from_tss : Z -> E) (tpm : connection S E) s c cmd handles a :
  valid_call c cmd handles a -> fits (command_frame c cmd handles a) ->
  let counting := {| transact := fun (x : nat * S) command response =>
    let '(s', rsp, r) := transact tpm (snd x) command response in ((1 + fst x, s')%nat, rsp, r) |} in
  fst (fst (run_command_with_handles from_tss counting (O, s) c cmd handles a)) = 1%nat.
Proof. exact (c55_once S E from_tss tpm s c cmd handles a). Qed.
Print Assumptions C55_once.

Example C55_example :
  run_command id silent tt Startup (VStruct [vi 1]) = (tt, Err 7).
Proof. exact c55_example. Qed.


(** ** C56 *)
(** The errors a response with code zero can lead to. *)
Theorem C56_local_errors_partial S E (from_tss : Z -> E) (tpm : connection S E) s c cmd handles a
    s' tag size rest n err :
  valid_call c cmd handles a -> fits (command_frame c cmd handles a) ->
  header_ok tag size 0 ->
  transact tpm s (command_frame c cmd handles a) empty_buffer
    = (s', response_frame tag size 0 rest, Ok n) ->
  snd (run_command_with_handles from_tss tpm s c cmd handles a) = Err err ->
  exists e, err = from_tss e
  /\ (In e [0x095; 0x904; 0x098; 0x2005; 0x2010]
      \/ exists sess auth, In sess (sessions_of a) /\ validate sess auth = Err e).
Proof. exact (c56_local_errors_partial S E from_tss tpm s c cmd handles a s' tag size rest n err). Qed.
Print Assumptions C56_local_errors_partial.

(** Local errors: no body, a buffer longer than its type, bytes left over, and a
    size field beyond the buffer. *)
Example C56_example :
  let rsp hi lo body := [x80; x01; x00; x00; hi; lo; x00; x00; x00; x00] ++ body in
  let answer r := snd (run_command id (canned r) tt GetRandom (VStruct [VInt 2])) in
  answer (rsp x00 x0a []) = Err 0x904
  /\ answer (rsp x00 x4d ([x00; x41] ++ repeat x11 65)) = Err 0x904
  /\ answer (rsp x00 x0d [x00; x00; xff]) = Err 0x2010
  /\ answer (rsp x20 x00 []) = Err 0x2005
  /\ is_ok (answer (rsp x00 x0c [x00; x00])) = true.
Proof. exact c56_example. Qed.

(** A success response that lacks its body, and an error response with code
    TPM_RC_MEMORY, give the same result. *)
Theorem C56_refuted :
  exists success error cmd,
  wf (cmd_ty GetRandom) cmd = true
  /\ firstn 4 (skipn 6 success) = be_bytes 4 0
  /\ firstn 4 (skipn 6 error) = be_bytes 4 0x904
  /\ snd (run_command id (canned success) tt GetRandom cmd)
     = snd (run_command id (canned error) tt GetRandom cmd).
Proof. exact c56_refuted. Qed.
Print Assumptions C56_refuted.
