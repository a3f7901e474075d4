(** The code again, for a target whose [usize] has [w] bits.

    The other files model a 64-bit target.  Here everything that converts to
    [usize] or adds in [usize] says so; the rest is repeated unchanged. *)
From Coq Require Import String ZArith NArith List Lia Bool.
From Coq Require Import Init.Byte.
From Verif Require Import Prelude Types Marshal Catalogue Errors Attrs Tpm2b Client Server.
Import ListNotations.
Open Scope Z_scope.

(** [x as usize]. *)
Definition usize_at (w : Z) (z : Z) : N := Z.to_N (z mod 2 ^ w).
(** [a + b] in [usize]: [checks] is whether overflow checks are compiled in
    (a debug build); without them the sum wraps around. *)
Definition add_at (w : Z) (checks : bool) (a b : nat) : option nat :=
  if Z.of_nat a + Z.of_nat b <? 2 ^ w then Some (a + b)%nat
  else if checks then None else Some (Z.to_nat ((Z.of_nat a + Z.of_nat b) mod 2 ^ w)).

(** [try_marshal], as [marshal] of Marshal.v; [self.len as usize] is in
    marshalable-derive/src/lib.rs:415. *)
Fixpoint marshal_at (w : Z) (t : ty) (v : val) (buf : list byte) {struct t} : mres :=
  match t, v with
  | TInt _ k, VInt z => mar_int k z buf
  | TUnit, VUnit => (buf, Ok 0%nat)
  | TBytes _, VBytes l => mar_bytes l buf
  | TNamed fs, VStruct vs => marshal_fields_at w [] fs vs 0 buf
  | TTuple ts, VStruct vs => marshal_tys_at w ts vs 0 buf
  | TEnum k vrs, VEnum sel args =>
      mthen (mseq (mar_int k sel) 0 buf)
        (fun n b => mseq (marshal_variant_at w vrs sel args) n b)
  | TTpm2b max, VTpm2b size field => mar_tpm2b max size field buf
  | TSplit pre k mid vrs, VStruct [VStruct a; VStruct b; VEnum sel args] =>
      mthen (marshal_tys_at w pre a 0 buf)
        (fun n buf1 => mthen (mseq (mar_int k sel) n buf1)
          (fun n buf2 => mthen (marshal_tys_at w mid b n buf2)
            (fun n buf3 => mseq (marshal_variant_at w vrs sel args) n buf3)))
  | _, _ => (buf, Panic)
  end
with marshal_fields_at (w : Z) (env : lenv) (fs : fields) (vs : list val) (n : nat) (buf : list byte)
    {struct fs} : mres :=
  match fs, vs with
  | FNil, [] => (buf, Ok n)
  | FCons name KPlain t rest, v :: vs' =>
      mthen (mseq (marshal_at w t v) n buf) (marshal_fields_at w (bind_len name v env) rest vs')
  | FCons _ (KArr m) t rest, VArr l :: vs' =>
      mthen (mar_arr (marshal_at w t) m l n buf) (marshal_fields_at w env rest vs')
  | FCons _ (KLen _ len _) t rest, VArr l :: vs' =>
      match lookup_len len env with
      | Some c => mthen (mar_arr (marshal_at w t) (usize_at w c) l n buf) (marshal_fields_at w env rest vs')
      | None => (buf, Panic)
      end
  | _, _ => (buf, Panic)
  end
with marshal_tys_at (w : Z) (ts : tys) (vs : list val) (n : nat) (buf : list byte) {struct ts} : mres :=
  match ts, vs with
  | TNil, [] => (buf, Ok n)
  | TCons t rest, v :: vs' => mthen (mseq (marshal_at w t v) n buf) (marshal_tys_at w rest vs')
  | _, _ => (buf, Panic)
  end
with marshal_variant_at (w : Z) (vrs : variants) (sel : Z) (args : list val) (buf : list byte)
    {struct vrs} : mres :=
  match vrs with
  | VNil => (buf, Panic)
  | VCons s ts rest => if sel =? s then marshal_tys_at w ts args 0 buf
                       else marshal_variant_at w rest sel args buf
  end.

(** [try_unmarshal], as [unmarshal] of Marshal.v; [len as usize] is in
    marshalable-derive/src/lib.rs:609 and 613. *)
Fixpoint unmarshal_at (w : Z) (t : ty) (buf : list byte) {struct t} : ures val :=
  match t with
  | TInt sg k => umap VInt (unm_int sg k buf)
  | TUnit => (Ok VUnit, buf)
  | TBytes n => umap VBytes (unm_bytes n buf)
  | TNamed fs => umap VStruct (unmarshal_fields_at w [] fs buf)
  | TTuple ts => umap VStruct (unmarshal_tys_at w ts buf)
  | TEnum k vrs =>
      uthen (unm_int false k buf) (fun sel b => umap (VEnum sel) (unmarshal_variant_at w vrs sel b))
  | TTpm2b max => unm_tpm2b max buf
  | TSplit pre k mid vrs =>
      uthen (unmarshal_tys_at w pre buf) (fun a b1 =>
      uthen (unm_int false k b1) (fun sel b2 =>
      uthen (unmarshal_tys_at w mid b2) (fun b b3 =>
      umap (fun args => VStruct [VStruct a; VStruct b; VEnum sel args])
           (unmarshal_variant_at w vrs sel b3))))
  end
with unmarshal_fields_at (w : Z) (env : lenv) (fs : fields) (buf : list byte) {struct fs} : ures (list val) :=
  match fs with
  | FNil => (Ok [], buf)
  | FCons name KPlain t rest =>
      uthen (unmarshal_at w t buf) (fun v b =>
      umap (cons v) (unmarshal_fields_at w (bind_len name v env) rest b))
  | FCons _ (KArr n) t rest =>
      uthen (unm_arr (unmarshal_at w t) (N.to_nat n) buf) (fun l b =>
      umap (cons (VArr l)) (unmarshal_fields_at w env rest b))
  | FCons _ (KLen n len dflt) t rest =>
      match lookup_len len env with
      | None => (Panic, buf)
      | Some c =>
          if (n <? usize_at w c)%N then (Err ArrayLengthExceeded, buf)
          else uthen (unm_arr (unmarshal_at w t) (N.to_nat (usize_at w c)) buf) (fun l b =>
               umap (cons (VArr (l ++ repeat dflt (N.to_nat n - length l))))
                    (unmarshal_fields_at w env rest b))
      end
  end
with unmarshal_tys_at (w : Z) (ts : tys) (buf : list byte) {struct ts} : ures (list val) :=
  match ts with
  | TNil => (Ok [], buf)
  | TCons t rest =>
      uthen (unmarshal_at w t buf) (fun v b => umap (cons v) (unmarshal_tys_at w rest b))
  end
with unmarshal_variant_at (w : Z) (vrs : variants) (sel : Z) (buf : list byte) {struct vrs}
    : ures (list val) :=
  match vrs with
  | VNil => (Err UnknownSelector, buf)
  | VCons s ts rest => if sel =? s then unmarshal_tys_at w ts buf
                       else unmarshal_variant_at w rest sel buf
  end.

(** ** The client, crates/tpm2-client/src/lib.rs

    Headers and authorizations have no array with a length field, so their
    encoding does not convert to [usize] and Client.v is used for them; nothing
    that is added up exceeds the 4096 bytes of a buffer. *)

(** [run_command_with_handles], 142-195, up to the bytes handed over
    ([build_command] of Client.v). *)
Definition build_command_at (w : Z) (c : command) (cmd handles : val) (a : area) : outcome Z (list byte) :=
  let tag := cmd_header_tag (area_is_empty a) in
  let '(buf, r) :=
    cthen (tss_err (marshal CmdHeader (cmd_header tag 0 (code c)) (repeat x00 CMD_BUFFER_SIZE)))
      (fun n buf =>
    cthen (cseq (fun b => tss_err (marshal_at w (handles_ty c) handles b)) n buf) (fun n buf =>
    cthen (cseq (write_command_sessions a) n buf) (fun n buf =>
    cseq (fun b => tss_err (marshal_at w (cmd_ty c) cmd b)) n buf))) in
  match r with
  | Ok written =>
      let '(buf, r2) :=
        tss_err (marshal CmdHeader (cmd_header tag (Z.of_nat written mod 2 ^ 32) (code c)) buf) in
      match r2 with
      | Ok _ => if (length buf <? written)%nat then Panic else Ok (firstn written buf)
      | Err e => Err e
      | Panic => Panic
      end
  | Err e => Err e
  | Panic => Panic
  end.
(** The same, 178-194 ([parse_response] of Client.v); [resp_header.size as usize]
    is in line 179. *)
Definition parse_response_at (w : Z) (c : command) (a : area) (resp_buffer : list byte)
    : outcome Z (val * val) :=
  obind (read_response_header resp_buffer) (fun '(tag, size, read) =>
  let resp_size := usize_at w size in
  if (N.of_nat (length resp_buffer) <? resp_size)%N then Err (tcs_code OutOfMemory)
  else if (resp_size <? N.of_nat read)%N then Panic
  else
    let u0 := skipn read (firstn (N.to_nat resp_size) resp_buffer) in
    let '(rh, u1) := unmarshal_at w (resp_handles_ty c) u0 in
    obind (omap_err tss_of_merr rh) (fun resp_handles =>
    let '(rp, u2) := if tag =? st_Sessions then unm_int false 4 u1 else (Ok 0, u1) in
    obind (omap_err tss_of_merr rp) (fun _ =>
    let '(rr, u3) := unmarshal_at w (resp_ty c) u2 in
    obind (omap_err tss_of_merr rr) (fun resp =>
    obind (read_response_sessions a u3) (fun u4 =>
    match u4 with
    | [] => Ok (resp, resp_handles)
    | _ :: _ => Err (tcs_code TpmUnexpected)
    end))))).
(** The whole call. *)
Definition run_command_with_handles_at (w : Z) {S E} (from_tss : Z -> E) (tpm : connection S E) (s : S)
    (c : command) (cmd handles : val) (a : area) : S * outcome E (val * val) :=
  match build_command_at w c cmd handles a with
  | Err e => (s, Err (from_tss e))
  | Panic => (s, Panic)
  | Ok bytes =>
      let '(s', resp_buffer, r) := transact tpm s bytes (repeat x00 RESP_BUFFER_SIZE) in
      match r with
      | Ok _ => (s', omap_err from_tss (parse_response_at w c a resp_buffer))
      | Err e => (s', Err e)
      | Panic => (s', Panic)
      end
  end.

(** ** The command processor, crates/tpm2-impl/src

    The other sums of offsets are of numbers below 17 and need no [add_at]. *)
Section Server.
Context {D X : Type} (dr : Drbg D) (es : EntropySource X) (w : Z) (checks : bool).
Local Notation ctx := (context D X).

(** [write_callback] for [[u8]], platform/buffer.rs:82-93; the outer [None] is a
    panic. *)
Definition slice_write_callback_at {A} (buf : list byte) (offset size : nat)
    (callback : list byte -> A * list byte) : option (option (A * list byte)) :=
  match add_at w checks offset size with
  | None => None
  | Some stop =>
      Some (if ((offset <=? stop) && (stop <=? length buf))%nat
            then let '(a, new) := callback (firstn (stop - offset) (skipn offset buf)) in
                 Some (a, firstn offset buf ++ new ++ skipn stop buf)
            else None)
  end.
(** [Response::write_callback], req_resp.rs:71-83.  The sum in line 81 is the
    one that [slice_write_callback_at] has computed. *)
Definition write_callback_at {A B} (bb : buffers B) (c : cursor B) (size : nat)
    (callback : list byte -> A * list byte) : option (option (A * cursor B)) :=
  match slice_write_callback_at (response bb (bufs c)) (response_offset c) size callback with
  | None => None
  | Some None => Some None
  | Some (Some (a, r)) => Some (Some (a, {| bufs := set_response bb (bufs c) r;
      request_offset := request_offset c; response_offset := response_offset c + size |}))
  end.
(** [get_random], handler/random.rs:29-43; [as usize] is in line 34. *)
Definition get_random_at {B} (bb : buffers B) (c : ctx) (cur : cursor B) : ctx * cursor B * outcome Z unit :=
  match read_be_u16 bb cur with
  | None => (c, cur, Err rc_CommandSize)
  | Some (requested_bytes, cur) =>
      match write_callback_at bb cur (N.to_nat (usize_at w requested_bytes)) (get_random_or_failure dr es c) with
      | None => (c, cur, Panic)
      | Some None => (c, cur, Err rc_Memory)
      | Some (Some ((c', r), cur')) => (c', cur', r)
      end
  end.
(** [execute_command], tpmctx.rs:58-95; [size as usize] is in line 66. *)
Definition execute_command_at {B} (bb : buffers B) (c : ctx) (b : B) : ctx * B * outcome Z nat :=
  let request_size := request_len bb b in
  let cur := {| bufs := b; request_offset := 0; response_offset := 10 |} in
  match read_be_u16 bb cur with
  | None => (c, b, Err rc_CommandSize)
  | Some (_, cur) =>
  match read_be_u32 bb cur with
  | None => (c, b, Err rc_CommandSize)
  | Some (size, cur) =>
  if negb (usize_at w size =? N.of_nat request_size)%N then (c, b, Err rc_CommandSize) else
  match read_be_u32 bb cur with
  | None => (c, b, Err rc_CommandSize)
  | Some (command_code, cur) =>
  let '(c', cur', r) :=
    if command_code =? cc_GetRandom then get_random_at bb c cur else (c, cur, Err rc_CommandCode) in
  let b' := bufs cur' in
  match r with
  | Err e => (c', b', Err e)
  | Panic => (c', b', Panic)
  | Ok _ =>
      let response_size := response_offset cur' in
      match slice_write (response bb b') 0 (be_bytes 2 0x8001) with
      | None => (c', b', Err rc_Memory)
      | Some r1 =>
      match slice_write r1 2 (be_bytes 4 (Z.of_nat response_size mod 2 ^ 32)) with
      | None => (c', set_response bb b' r1, Err rc_Memory)
      | Some r2 =>
      match slice_write r2 6 (be_bytes 4 0) with
      | None => (c', set_response bb b' r2, Err rc_Memory)
      | Some r3 => (c', set_response bb b' r3, Ok response_size)
      end end end
  end end end end.
(** [execute_command_separate], 24-34, and [execute_command_in_place], 38-48. *)
Definition execute_command_separate_at (c : ctx) (request resp : list byte)
    : ctx * list byte * outcome unit nat :=
  let '(c', b, r) := execute_command_at separate c (request, resp) in
  match r with
  | Ok size => (c', snd b, Ok size)
  | Err err => let '(resp', n) := fill_error (snd b) err in (c', resp', Ok n)
  | Panic => (c', snd b, Panic)
  end.
Definition execute_command_in_place_at (c : ctx) (in_out : list byte) (request_size : nat)
    : ctx * list byte * outcome unit nat :=
  let '(c', b, r) := execute_command_at inout c (inout_new in_out request_size) in
  match r with
  | Ok size => (c', fst b, Ok size)
  | Err err => let '(buf', n) := fill_error (fst b) err in (c', buf', Ok n)
  | Panic => (c', fst b, Panic)
  end.
End Server.
