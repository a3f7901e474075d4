(** The server on buffers that are a program's own (C107). *)
(* Restates the theorems of ForeignFacts.v; proofs are there. *)
From Coq Require Import ZArith NArith List Lia Bool.
From Coq Require Import Init.Byte.
From Verif Require Import Prelude Errors Server ServerSpec ServerProofs ServerFacts Buffers BuffersFacts Shared Foreign ForeignSpec.
From Verif Require Import ForeignFacts.
Import ListNotations.
Open Scope Z_scope.

(** ** C107 *)
(** Whatever the buffers answer, they are asked for their length, for the four
    fields of the request, to run the callback and to take the three parts of
    the header, in this order and each at most once; then at most once more, to
    take an error code. *)
Theorem C107_order D X E (dr : Drbg D) (es : EntropySource X) (fb : foreign E) c e :
  numbers fb ->
  let accesses := snd (snd (fst (answer_foreign dr es (noting fb) c (e, [])))) in
  exists n k, Z.of_nat n < 2 ^ 16
  /\ (map asks accesses = firstn k (in_order n)
      \/ exists code, In code [0x142; 0x143; 0x904]
         /\ map asks accesses = firstn k (in_order n) ++ [AWrite 6 (be_bytes 4 code)]).
Proof. exact (c107_order D X E dr es fb c e). Qed.
Print Assumptions C107_order.

(** The result is: success, of ten bytes more than were requested, if every
    access was granted; else the code of the first objection is written, and the
    result is ten, or zero if this is refused too; or a panic, if a method of
    the buffers or the generator panicked. *)
Theorem C107_result D X E (dr : Drbg D) (es : EntropySource X) (fb : foreign E) c e :
  numbers fb ->
  let '(_, (_, l), r) := answer_foreign dr es (noting fb) c (e, []) in
  exists len, hd_error l = Some (Length len)
  /\ ((exists n, 0 <= n < 2 ^ 16 /\ all_granted len n l /\ r = Ok (10 + Z.to_nat n)%nat)
      \/ (exists l0 a code ans, l = l0 ++ [a; Write 6 (be_bytes 4 code) ans]
          /\ Forall (granted len) l0 /\ objection len a = Some code
          /\ r = match ans with Ok _ => Ok 10%nat | Err _ => Ok 0%nat | Panic => Panic end)
      \/ (exists l0 a, l = l0 ++ [a] /\ Forall (granted len) l0 /\ r = Panic
          /\ (panicked a
              \/ exists offset size s, a = Begin offset size (Some s)
                 /\ snd (fst (get_random_or_failure dr es c s)) = Panic))).
Proof. exact (c107_result D X E dr es fb c e). Qed.
Print Assumptions C107_result.

(** The generator is used once if the buffer runs the callback, on the slice the
    buffer hands out, whatever its length; otherwise the server does not change. *)
Theorem C107_generator D X E (dr : Drbg D) (es : EntropySource X) (fb : foreign E) c e :
  numbers fb ->
  let '(c', (_, l), _) := answer_foreign dr es (noting fb) c (e, []) in
  match handed l with
  | [] => c' = c /\ forall out ans, In (Finish out ans) l -> out = None
  | [s] => c' = fst (fst (get_random_or_failure dr es c s))
           /\ forall out ans, In (Finish out ans) l -> out = Some (snd (get_random_or_failure dr es c s))
  | _ => False
  end.
Proof. exact (c107_generator D X E dr es fb c e). Qed.
Print Assumptions C107_generator.

(** Noting the accesses changes nothing. *)
Theorem C107_noting D X E (dr : Drbg D) (es : EntropySource X) (fb : foreign E) c e :
  let '(c1, (e1, _), r1) := answer_foreign dr es (noting fb) c (e, []) in
  answer_foreign dr es fb c e = (c1, e1, r1).
Proof. exact (c107_noting D X E dr es fb c e). Qed.
Print Assumptions C107_noting.

(** In place, no byte behind the request is ever read. *)
Theorem C107_in_place D X W (dr : Drbg D) (es : EntropySource X) (rw : shared_read W) (wi : foreign_write W)
    c in_out request_size :
  Forall (fun '(offset, k) => offset + k <= request_size)%nat
    (snd (snd (fst (served_in_place dr es (noting_reads rw) (also_noting wi) c (in_out, []) request_size)))).
Proof. exact (c107_in_place D X W dr es rw wi c in_out request_size). Qed.
Print Assumptions C107_in_place.

(** Byte slices are such buffers, and the server does with them what it does in
    Server.v. *)
Theorem C107_slices D X (dr : Drbg D) (es : EntropySource X) c request resp frame :
  let '(c1, (r1, (w1, _)), o1) := served_separate dr es slice_reads slice_writes c request (resp, frame) in
  let '(c2, w2, o2) := execute_command_separate dr es c request resp in
  c1 = c2 /\ r1 = request /\ o1 = o2 /\ (o1 <> Panic -> w1 = w2).
Proof. exact (c107_slices D X dr es c request resp frame). Qed.
Print Assumptions C107_slices.

Theorem C107_slices_in_place D X (dr : Drbg D) (es : EntropySource X) c in_out request_size frame :
  let '(c1, (w1, _), o1) := served_in_place dr es framed_reads slice_writes c (in_out, frame) request_size in
  let '(c2, w2, o2) := execute_command_in_place dr es c in_out request_size in
  c1 = c2 /\ o1 = o2 /\ (o1 <> Panic -> w1 = w2).
Proof. exact (c107_slices_in_place D X dr es c in_out request_size frame). Qed.
Print Assumptions C107_slices_in_place.

Example C107_example :
  numbers (separate_foreign slice_reads slice_writes)
  /\ (let '(_, (_, l), r) := answer_foreign FakeDrbg FakeEntropy
         (noting (separate_foreign slice_reads slice_writes)) fake ((ask_four, (repeat xff 14, (0, 0)%nat)), []) in
      r = Ok 14%nat /\ map asks l = in_order 4 /\ handed l = [repeat xff 4])
  (* no room for the random bytes *)
  /\ (let '(_, (_, l), r) := answer_foreign FakeDrbg FakeEntropy
         (noting (separate_foreign slice_reads slice_writes)) fake ((ask_four, (repeat xff 13, (0, 0)%nat)), []) in
      r = Ok 10%nat /\ map asks l = firstn 7 (in_order 4) ++ [AWrite 6 [x00; x00; x09; x04]] /\ handed l = []).
Proof. exact c107_example. Qed.

Example C107_believed :
  served_separate FakeDrbg FakeEntropy slice_reads lazy_writes fake ask_four (repeat xff 14, (0, 0)%nat)
  = (fake, (ask_four, ([x80; x01; x00; x00; x00; x0e; x00; x00; x00; x00; xff; xff; xff; xff], (0, 0)%nat)), Ok 14%nat).
Proof. exact c107_believed. Qed.
