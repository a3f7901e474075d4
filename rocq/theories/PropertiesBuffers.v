(** The server on any buffers that keep the trait contract (C69). *)
(* Restates the theorems of BuffersFacts.v; proofs are there. *)
From Coq Require Import ZArith NArith List Lia Bool.
From Coq Require Import Init.Byte.
From Verif Require Import Prelude Errors Server ServerSpec Buffers BuffersSpec BuffersProofs ServerFacts.
From Verif Require Import BuffersFacts.
Import ListNotations.
Open Scope Z_scope.

(** ** C69 *)
(** The implementations for byte slices, the only ones in the crate, keep the
    contract. *)
Theorem C69_slices :
  reads slice_reader (fun b => b) /\ writes slice_writer (fun b => b).
Proof. exact c69_slices. Qed.
Print Assumptions C69_slices.

(** Any two buffer types whose values stand for byte strings ([rcont], [wcont])
    and that keep the contract: the server does what it does for those byte
    strings, for every request.  The generator must not look at what it
    overwrites (C58). *)
Theorem C69_separate D X R W (dr : Drbg D) (es : EntropySource X) (ri : read_buffer R) (wi : write_buffer W)
    rcont wcont c (request : R) (resp : W) :
  reads ri rcont -> writes wi wcont -> wf_drbg dr -> ignores_contents dr ->
  exists w, separate_any dr es ri wi c request resp
    = (fst (fst (serve dr es c (Separate (rcont request) (wcont resp)))), w,
       snd (serve dr es c (Separate (rcont request) (wcont resp))))
  /\ (snd (serve dr es c (Separate (rcont request) (wcont resp))) <> Panic ->
      wcont w = snd (fst (serve dr es c (Separate (rcont request) (wcont resp))))).
Proof. exact (c69_separate D X R W dr es ri wi rcont wcont c request resp). Qed.
Print Assumptions C69_separate.

(** The same in place. *)
Theorem C69_in_place D X W (dr : Drbg D) (es : EntropySource X) (wi : write_buffer W)
    wcont c (in_out : W) n :
  writes wi wcont -> wf_drbg dr -> ignores_contents dr ->
  exists w, in_place_any dr es wi c in_out n
    = (fst (fst (serve dr es c (InPlace (wcont in_out) n))), w, snd (serve dr es c (InPlace (wcont in_out) n)))
  /\ (snd (serve dr es c (InPlace (wcont in_out) n)) <> Panic ->
      wcont w = snd (fst (serve dr es c (InPlace (wcont in_out) n)))).
Proof. exact (c69_in_place D X W dr es wi wcont c in_out n). Qed.
Print Assumptions C69_in_place.

(** Hence nothing depends on how a buffer is represented. *)
Theorem C69_representation D X R R' W W' (dr : Drbg D) (es : EntropySource X)
    (ri : read_buffer R) (ri' : read_buffer R') (wi : write_buffer W) (wi' : write_buffer W')
    rcont rcont' wcont wcont' c (request : R) (request' : R') (resp : W) (resp' : W') :
  reads ri rcont -> reads ri' rcont' -> writes wi wcont -> writes wi' wcont' ->
  wf_drbg dr -> ignores_contents dr ->
  rcont request = rcont' request' -> wcont resp = wcont' resp' ->
  let '(c1, w1, o1) := separate_any dr es ri wi c request resp in
  let '(c2, w2, o2) := separate_any dr es ri' wi' c request' resp' in
  c1 = c2 /\ o1 = o2 /\ (o1 <> Panic -> wcont w1 = wcont' w2).
Proof. exact (c69_representation D X R R' W W' dr es ri ri' wi wi' rcont rcont' wcont wcont' c request request' resp resp'). Qed.
Print Assumptions C69_representation.

(** A request in two pieces, answered into two pieces with the split inside
    the header. *)
Example C69_example :
  let request : pieces := (firstn 3 get12, skipn 3 get12) in
  let resp : pieces := (repeat xaa 4, repeat xbb 20) in
  separate_any FakeDrbg FakeEntropy pieces_reader pieces_writer fake request resp
  = ({| drbg := 12; entropy := tt |},
     ([x80; x01; x00; x00],
      [x00; x16; x00; x00; x00; x00; x01; x02; x03; x04; x05; x06; x07; x08; x09; x0a; x0b; x0c; xbb; xbb]),
     Ok 22%nat).
Proof. exact c69_example. Qed.

Example C69_example_in_place :
  in_place_any FakeDrbg FakeEntropy pieces_writer fake (firstn 3 get12, skipn 3 get12 ++ repeat xbb 11) 12
  = ({| drbg := 12; entropy := tt |},
     ([x80; x01; x00],
      [x00; x00; x16; x00; x00; x00; x00; x01; x02; x03; x04; x05; x06; x07; x08; x09; x0a; x0b; x0c; xbb]),
     Ok 22%nat).
Proof. exact c69_example_in_place. Qed.

Example C69_needs_filling :
  let c := {| drbg := tt; entropy := tt |} in
  let resp := repeat xbb 22 in
  joined (snd (fst (separate_any AddDrbg FakeEntropy pieces_reader pieces_writer c (get12, []) (resp, []))))
  <> snd (fst (separate_any AddDrbg FakeEntropy slice_reader slice_writer c get12 resp)).
Proof. exact c69_needs_filling. Qed.
