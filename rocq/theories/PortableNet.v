(** The rest of the code that converts to [usize], for a target whose [usize]
    has [w] bits: the simulator connection and the TPML lists.  (Sized buffers
    convert from 16 bits only.) *)
From Coq Require Import ZArith NArith List Lia Bool.
From Coq Require Import Init.Byte.
From Verif Require Import Prelude Types Marshal Errors Client Tcp TcpSpec ListSpec Tpml Portable.
Import ListNotations.
Open Scope Z_scope.

Section Net.
Context {W H C : Type} (sys : world W H C) (w : Z).
(** [get_command_response_sizes], crates/tpm2-client/src/connection/tcp.rs:234-255;
    [length.get() as usize] is in line 242. *)
Definition get_command_response_sizes_at (c : tcp H) : io W (Z * Z * Z * Z) :=
  write_all sys (plat_tcp c) (u32_bytes GetCommandResponseSizes) ;;
  read_u32 sys (plat_tcp c) >>= fun length =>
  if negb (usize_at w length =? 16)%N then io_err InvalidData else
  read_bytes sys (plat_tcp c) 16 >>= fun resp =>
  check_response_end sys (plat_tcp c) ;;
  io_ret (le_val (firstn 4 resp), be_val (firstn 4 (skipn 4 resp)),
          le_val (firstn 4 (skipn 8 resp)), be_val (skipn 12 resp)).
(** [transact], 392-432; [resp_hdr.length.get() as usize] is in lines 420, 427
    and 431.  The conversion of the command's length to [u32] (395-398) is from a
    [usize] of [w] bits and fails exactly if it does not fit. *)
Definition tcp_transact_at (c : tcp H) (s : W) (command response : list byte)
    : W * list byte * outcome io_error nat :=
  if 2 ^ 32 <=? Z.of_nat (length command) then (s, response, Err InvalidInput)
  else
    let t := tpm_tcp c in
    match (write_whole sys t (u32_bytes SendCommand ++ be_bytes 1 (locality c)
                          ++ u32_bytes (Z.of_nat (length command)) ++ command) ;; read_u32 sys t) s with
    | (s, Ok len) =>
        if (N.of_nat (length response) <? usize_at w len)%N then (s, response, Err InvalidInput)
        else
          let n := N.to_nat (usize_at w len) in
          let '(s, bs, r) := read_exact sys t n s in
          let response := overwrite bs response in
          match r with
          | Ok _ => let '(s, r) := check_response_end sys t s in (s, response, omap (fun _ => n) r)
          | Err e => (s, response, Err e)
          | Panic => (s, response, Panic)
          end
    | (s, Err e) => (s, response, Err e)
    | (s, Panic) => (s, response, Panic)
    end.
(** Any operation: the others do not convert to [usize]. *)
Definition perform_at (c : tcp H) (o : operation) (s : W) : tcp H * W * outcome io_error answer :=
  match o with
  | Transact command response =>
      let '(s', response', r) := tcp_transact_at c s command response in
      (c, s', omap (fun n => Payload (firstn n response')) r)
  | ResponseSizes =>
      let '(s', r) := get_command_response_sizes_at c s in
      (c, s', omap (fun '(x1, x2, x3, x4) => Sizes x1 x2 x3 x4) r)
  | _ => perform sys c o s
  end.
End Net.

(** [count], base/src/lib.rs:1563-1565, and what uses it: [add], 1553-1561, and
    the accessor, 1567-1569. *)
Definition tpml_count_at (w : Z) (x : tpml_val) : nat := N.to_nat (usize_at w (count_ x)).
Definition tpml_add_at (w : Z) (e : val) (x : tpml_val) : tpml_val * outcome Z unit :=
  if (length (list_ x) <=? tpml_count_at w x)%nat then (x, Err rc_Size)
  else match set_nth (tpml_count_at w x) e (list_ x) with
       | None => (x, Panic)
       | Some l =>
           if count_ x + 1 <? 2 ^ 32
           then ({| count_ := count_ x + 1; list_ := l |}, Ok tt)
           else ({| count_ := count_ x; list_ := l |}, Panic)
       end.
Definition tpml_elements_at (w : Z) (cap : nat) (x : tpml_val) : outcome Z (list val) :=
  let m := Nat.min (tpml_count_at w x) cap in
  if (length (list_ x) <? m)%nat then Panic else Ok (firstn m (list_ x)).
(** A call on a list ([tpml_step] of Tpml.v). *)
Definition tpml_step_at (w : Z) (cap : nat) (dflt : val) (x : tpml_val) (op : list_op val)
    : tpml_val * list_obs val :=
  match op with
  | OpNew es => tpml_step cap dflt x (OpNew es)
  | OpAdd e => match tpml_add_at w e x with
               | (y, Ok _) => (y, ObsDone)
               | (y, Err c) => (y, ObsErr c)
               | (y, Panic) => (y, ObsPanic)
               end
  | OpCount => (x, ObsCount (tpml_count_at w x))
  | OpElements => (x, match tpml_elements_at w cap x with
                      | Ok l => ObsElements l
                      | Err c => ObsErr c
                      | Panic => ObsPanic
                      end)
  end.
