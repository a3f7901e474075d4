(** What C107 says about the server and buffers that are a program's own. *)
From Coq Require Import ZArith NArith List Lia Bool.
From Coq Require Import Init.Byte.
From Verif Require Import Prelude Server Shared Foreign.
Import ListNotations.
Open Scope Z_scope.

(** A call of a method of a buffer, with its answer. *)
Inductive access :=
| Length (n : nat)                                                  (* len() *)
| Read (offset bytes : nat) (answer : outcome unit Z)               (* read_be_u16, read_be_u32 *)
| Begin (offset size : nat) (slice : option (list byte))            (* write_callback, up to the callback *)
| Finish (out : option (list byte)) (answer : outcome unit unit)   (* ... and the rest of it *)
| Write (offset : nat) (data : list byte) (answer : outcome unit unit).

(** Buffers that note the calls of their methods. *)
Definition noting {E} (fb : foreign E) : foreign (E * list access) := {|
  f_len := fun '(e, l) => let '(e, n) := f_len fb e in ((e, l ++ [Length n]), n);
  f_u16 := fun '(e, l) offset => let '(e, o) := f_u16 fb e offset in ((e, l ++ [Read offset 2 o]), o);
  f_u32 := fun '(e, l) offset => let '(e, o) := f_u32 fb e offset in ((e, l ++ [Read offset 4 o]), o);
  f_write := fun '(e, l) offset data =>
    let '(e, o) := f_write fb e offset data in ((e, l ++ [Write offset data o]), o);
  f_begin := fun '(e, l) offset size =>
    let '(e, s) := f_begin fb e offset size in ((e, l ++ [Begin offset size s]), s);
  f_finish := fun '(e, l) out =>
    let '(e, o) := f_finish fb e out in ((e, l ++ [Finish out o]), o)
|}.

(** What is asked of the buffers to execute a command, in this order, if [n]
    bytes are requested. *)
Inductive question :=
| ALength | ARead (offset bytes : nat) | ABegin (offset size : nat) | AFinish | AWrite (offset : nat) (data : list byte).
Definition asks (a : access) : question :=
  match a with
  | Length _ => ALength
  | Read offset bytes _ => ARead offset bytes
  | Begin offset size _ => ABegin offset size
  | Finish _ _ => AFinish
  | Write offset data _ => AWrite offset data
  end.
Definition in_order (n : nat) : list question :=
  [ALength; ARead 0 2; ARead 2 4; ARead 6 4; ARead 10 2; ABegin 10 n; AFinish;
   AWrite 0 [x80; x01]; AWrite 2 (be_bytes 4 (10 + Z.of_nat n)); AWrite 6 [x00; x00; x00; x00]].

(** The accesses of a command that is executed to the end. *)
Definition all_granted (len : nat) (n : Z) (l : list access) : Prop :=
  exists tag slice out,
    l = [Length len; Read 0 2 (Ok tag); Read 2 4 (Ok (Z.of_nat len)); Read 6 4 (Ok 0x17B); Read 10 2 (Ok n);
         Begin 10 (Z.to_nat n) slice; Finish out (Ok tt);
         Write 0 [x80; x01] (Ok tt); Write 2 (be_bytes 4 (10 + n)) (Ok tt); Write 6 [x00; x00; x00; x00] (Ok tt)].

(** The response code for an access that ends the command, for a request of
    length [len]. *)
Definition objection (len : nat) (a : access) : option Z :=
  match a with
  | Read _ _ (Err _) => Some 0x142                                   (* TPM_RC_COMMAND_SIZE *)
  | Read 2 4 (Ok z) => if z =? Z.of_nat len then None else Some 0x142
  | Read 6 4 (Ok z) => if z =? 0x17B then None else Some 0x143       (* TPM_RC_COMMAND_CODE *)
  | Finish _ (Err _) | Write _ _ (Err _) => Some 0x904               (* TPM_RC_MEMORY *)
  | _ => None
  end.
(** The access panicked. *)
Definition panicked (a : access) : Prop :=
  match a with
  | Read _ _ Panic | Finish _ Panic | Write _ _ Panic => True
  | _ => False
  end.
(** It neither ended the command nor panicked. *)
Definition granted (len : nat) (a : access) : Prop :=
  objection len a = None /\ ~ panicked a.
(** The slice the callback got, if it was run. *)
Definition handed (l : list access) : list (list byte) :=
  flat_map (fun a => match a with Begin _ _ (Some s) => [s] | _ => [] end) l.
(** The buffers give numbers of 16 and 32 bits. *)
Definition numbers {E} (fb : foreign E) : Prop :=
  (forall e offset e' z, f_u16 fb e offset = (e', Ok z) -> 0 <= z < 2 ^ 16)
  /\ (forall e offset e' z, f_u32 fb e offset = (e', Ok z) -> 0 <= z < 2 ^ 32).

(** *** Reading in place *)
(** A buffer that notes which bytes were read. *)
Definition noting_reads {W} (rw : shared_read W) : shared_read (W * list (nat * nat)) := {|
  sh_len := fun '(w, l) => let '(w, n) := sh_len rw w in ((w, l), n);
  sh_into := fun '(w, l) offset k => let '(w, o) := sh_into rw w offset k in ((w, l ++ [(offset, k)]), o);
  sh_u16 := fun '(w, l) offset => let '(w, o) := sh_u16 rw w offset in ((w, l ++ [(offset, 2%nat)]), o);
  sh_u32 := fun '(w, l) offset => let '(w, o) := sh_u32 rw w offset in ((w, l ++ [(offset, 4%nat)]), o)
|}.
Definition also_noting {W} (wi : foreign_write W) : foreign_write (W * list (nat * nat)) := {|
  fw_write := fun '(w, l) offset data => let '(w, o) := fw_write wi w offset data in ((w, l), o);
  fw_begin := fun '(w, l) offset size => let '(w, s) := fw_begin wi w offset size in ((w, l), s);
  fw_finish := fun '(w, l) out => let '(w, o) := fw_finish wi w out in ((w, l), o)
|}.

(** *** Byte slices (platform/buffer.rs:60-94) as such buffers *)
Definition slice_into (b : list byte) (offset k : nat) : list byte * outcome unit (list byte) :=
  (b, match slice_read b offset k with Some bytes => Ok bytes | None => Err tt end).
Definition slice_reads : shared_read (list byte) := {|
  sh_len := fun b => (b, length b);
  sh_into := slice_into;
  sh_u16 := sh_provided slice_into 2;
  sh_u32 := sh_provided slice_into 4
|}.
(** While the callback runs, [write_callback] knows offset and size. *)
Definition framed : Type := list byte * (nat * nat).
Definition slice_writes : foreign_write framed := {|
  fw_write := fun '(b, p) offset data =>
    match slice_write b offset data with Some b' => ((b', p), Ok tt) | None => ((b, p), Err tt) end;
  fw_begin := fun '(b, _) offset size =>
    ((b, (offset, size)),
     if (offset + size <=? length b)%nat then Some (firstn size (skipn offset b)) else None);
  fw_finish := fun '(b, (offset, size)) out =>
    match out with
    | Some bytes => ((firstn offset b ++ bytes ++ skipn (offset + size) b, (offset, size)), Ok tt)
    | None => ((b, (offset, size)), Err tt)
    end
|}.
Definition framed_reads : shared_read framed := {|
  sh_len := fun '(b, p) => ((b, p), length b);
  sh_into := fun '(b, p) offset k => ((b, p), snd (slice_into b offset k));
  sh_u16 := fun '(b, p) offset => ((b, p), snd (sh_provided slice_into 2 b offset));
  sh_u32 := fun '(b, p) offset => ((b, p), snd (sh_provided slice_into 4 b offset))
|}.
