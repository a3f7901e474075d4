(** Specification: the life of a stream, and how many system calls there may be. *)
From Coq Require Import ZArith NArith List Lia Bool.
From Coq Require Import Init.Byte.
From Verif Require Import Prelude Tcp TcpSpec.
Import ListNotations.
Open Scope Z_scope.

(** One entry for each system call. *)
Inductive call (H : Type) :=
| Opened (h : H)
| Used (h : H)             (* written to, read from or shut down, successfully or not *)
| Closed (h : H)
| Elsewhere.               (* clock, files, processes, connections refused *)
Arguments Opened {H} _.
Arguments Used {H} _.
Arguments Closed {H} _.
Arguments Elsewhere {H}.

(** A world that counts. *)
Definition traced {W H C} (sys : world W H C) : world (W * list (call H)) H C := {|
  tcp_connect := fun w ip port => let '(w', r) := tcp_connect sys (fst w) ip port in
                   ((w', snd w ++ [match r with Ok h => Opened h | _ => Elsewhere end]), r);
  write := fun w h buf => let '(w', r) := write sys (fst w) h buf in ((w', snd w ++ [Used h]), r);
  read := fun w h n => let '(w', r) := read sys (fst w) h n in ((w', snd w ++ [Used h]), r);
  shutdown := fun w h => let '(w', r) := shutdown sys (fst w) h in ((w', snd w ++ [Used h]), r);
  sleep_one_second := fun w => (sleep_one_second sys (fst w), snd w ++ [Elsewhere]);
  read_to_string := fun w p => let '(w', r) := read_to_string sys (fst w) p in ((w', snd w ++ [Elsewhere]), r);
  spawn := fun w bin args cwd => let '(w', r) := spawn sys (fst w) bin args cwd in ((w', snd w ++ [Elsewhere]), r);
  kill := fun w c => let '(w', r) := kill sys (fst w) c in ((w', snd w ++ [Elsewhere]), r)
|}.
Definition traced_close {W H} (close : W -> H -> W) (w : W * list (call H)) (h : H) : W * list (call H) :=
  (close (fst w) h, snd w ++ [Closed h]).

(** [lives before calls after]: with [before] open, every stream used or closed
    by [calls] is open at that time, and [after] are open in the end. *)
Inductive lives {H : Type} : list H -> list (call H) -> list H -> Prop :=
| lives_end o : lives o [] o
| lives_opened h o l o' : lives (h :: o) l o' -> lives o (Opened h :: l) o'
| lives_used h o l o' : List.In h o -> lives o l o' -> lives o (Used h :: l) o'
| lives_closed h o1 o2 l o' : lives (o1 ++ o2) l o' -> lives (o1 ++ h :: o2) (Closed h :: l) o'
| lives_elsewhere o l o' : lives o l o' -> lives o (Elsewhere :: l) o'.

(** The most system calls an operation makes, if the network takes and delivers
    one byte at a time. *)
Definition most_calls (o : operation) : nat :=
  match o with
  | Transact _ response => 1 + 4 + length response + 4
  | Hcrtm _ => (4 + 4) + (1 + 4) + (4 + 4)
  | Handshake _ => 1 + 8 + 4
  | AlternativeResult _ | FirmwareHash _ | FirmwareSvn _ => 1 + 4
  | Signal _ | FailureMode => 4 + 4
  | Reinit => 4 * (4 + 4)
  | ResponseSizes => 4 + 4 + 16 + 4
  | ActSignaled _ => 1 + 4 + 4
  | Locality _ => 0
  | EndSession | StopSimulator => (4 + 1) + (4 + 1)
  end.
