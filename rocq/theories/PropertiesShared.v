(** Requests that others write to while they are executed (C100). *)
(* Restates the theorems of SharedFacts.v; proofs are there. *)
From Coq Require Import ZArith NArith List Lia Bool.
From Coq Require Import Init.Byte.
From Verif Require Import Prelude Errors Server ServerSpec ServerProofs ServerFacts Buffers BuffersSpec BuffersProofs BuffersFacts Shared.
From Verif Require Import SharedFacts.
Import ListNotations.
Open Scope Z_scope.

(** ** C100 *)
(** Whatever others do to the request meanwhile, the command is executed as some
    one request of that length, which does not change, is executed from a slice;
    however the response is written. *)
Theorem C100_separate D X R W (dr : Drbg D) (es : EntropySource X) (ri : shared_read R) (wi : write_buffer W)
    size c (request : R) (resp : W) :
  fetches ri size ->
  exists req, length req = size request
  /\ separate_shared dr es ri wi c request resp = separate_any dr es slice_reader wi c req resp.
Proof. exact (c100_separate D X R W dr es ri wi size c request resp). Qed.
Print Assumptions C100_separate.

(** That request is put together from what was in the memory: each of the fields
    that are there was in it at some moment. *)
Theorem C100_moments D X R W (dr : Drbg D) (es : EntropySource X) (ri : shared_read R) (wi : write_buffer W)
    content c (request : R) (resp : W) :
  fetches ri (fun r => length (content r)) ->
  (forall r offset bs, bytes_at (content r) offset 2 bs -> snd (sh_u16 ri r offset) = Ok (be_val bs)) ->
  (forall r offset bs, bytes_at (content r) offset 4 bs -> snd (sh_u32 ri r offset) = Ok (be_val bs)) ->
  exists req, length req = length (content request)
  /\ (forall offset k, In (offset, k) [(0, 2); (2, 4); (6, 4); (10, 2)]%nat -> (offset + k <= length req)%nat ->
      exists r field, while_read ri request r
        /\ bytes_at (content r) offset k field /\ bytes_at req offset k field)
  /\ separate_shared dr es ri wi c request resp = separate_any dr es slice_reader wi c req resp.
Proof. exact (c100_moments D X R W dr es ri wi content c request resp). Qed.
Print Assumptions C100_moments.

(** In place, too: as some one request from a slice, with the response written to
    the buffer as it is after the reads. *)
Theorem C100_in_place D X W (dr : Drbg D) (es : EntropySource X) (rw : shared_read W) (wi : write_buffer W)
    size c (in_out : W) n :
  fetches rw size ->
  exists req w, length req = Nat.min n (size in_out) /\ while_read rw in_out w /\ size w = size in_out
  /\ in_place_shared dr es rw wi c in_out n = separate_any dr es slice_reader wi c req w.
Proof. exact (c100_in_place D X W dr es rw wi size c in_out n). Qed.
Print Assumptions C100_in_place.

Theorem C100_in_place_moments D X W (dr : Drbg D) (es : EntropySource X) (rw : shared_read W) (wi : write_buffer W)
    content c (in_out : W) n :
  fetches rw (fun w => length (content w)) ->
  (forall w offset k bs, bytes_at (content w) offset k bs -> snd (sh_into rw w offset k) = Ok bs) ->
  exists req w, length req = Nat.min n (length (content in_out))
  /\ (forall offset k, In (offset, k) [(0, 2); (2, 4); (6, 4); (10, 2)]%nat -> (offset + k <= length req)%nat ->
      exists w' field, while_read rw in_out w'
        /\ bytes_at (content w') offset k field /\ bytes_at req offset k field)
  /\ while_read rw in_out w /\ length (content w) = length (content in_out)
  /\ in_place_shared dr es rw wi c in_out n = separate_any dr es slice_reader wi c req w.
Proof. exact (c100_in_place_moments D X W dr es rw wi content c in_out n). Qed.
Print Assumptions C100_in_place_moments.

(** So with buffers that keep the contract for writing, the answer, the state
    and the size are those that the server of C43 to C47 gives for that request. *)
Theorem C100_served D X R W (dr : Drbg D) (es : EntropySource X) (ri : shared_read R) (wi : write_buffer W)
    size wcont c (request : R) (resp : W) :
  fetches ri size -> writes wi wcont -> wf_drbg dr -> ignores_contents dr ->
  exists req w, length req = size request
  /\ separate_shared dr es ri wi c request resp
     = (fst (fst (serve dr es c (Separate req (wcont resp)))), w, snd (serve dr es c (Separate req (wcont resp))))
  /\ (snd (serve dr es c (Separate req (wcont resp))) <> Panic ->
      wcont w = snd (fst (serve dr es c (Separate req (wcont resp))))).
Proof. exact (c100_served D X R W dr es ri wi size wcont c request resp). Qed.
Print Assumptions C100_served.

(** The length is asked for once, and then the four fields, each once and in
    order, as far as needed; whatever the reader does. *)
Theorem C100_read_once D X R W (dr : Drbg D) (es : EntropySource X) (ri : shared_read R) (wi : write_buffer W)
    c (request : R) (resp : W) :
  exists k, snd (request_after dr es (watched ri) wi c (request, []) resp)
            = firstn k [Len; U16 0; U32 2; U32 6; U16 10].
Proof. exact (c100_read_once D X R W dr es ri wi c request resp). Qed.
Print Assumptions C100_read_once.

Theorem C100_in_place_read_once D X W (dr : Drbg D) (es : EntropySource X) (rw : shared_read W) (wi : write_buffer W)
    c (in_out : W) n :
  exists k, snd (snd (fst (in_place_shared dr es (watched rw) (beside wi) c (in_out, []) n)))
            = firstn k [Len; Into 0 2; Into 2 4; Into 6 4; Into 10 2].
Proof. exact (c100_in_place_read_once D X W dr es rw wi c in_out n). Qed.
Print Assumptions C100_in_place_read_once.

Theorem C100_still D X R W (dr : Drbg D) (es : EntropySource X) (ri : read_buffer R) (wi : write_buffer W)
    c (rq : R) (resp : W) :
  separate_shared dr es (still ri) wi c rq resp = separate_any dr es ri wi c rq resp.
Proof. exact (c100_still D X R W dr es ri wi c rq resp). Qed.
Print Assumptions C100_still.

Example C100_fetches : forall now next, length now = length next -> fetches (flickering now next) (fun _ => length now).
Proof. exact c100_fetches. Qed.

(** The count is read once: what the second party puts there later is not used.
    The other way round the large count is the one that is read, and refused. *)
Example C100_example :
  let five := asks [x00; x05] in
  let many := asks [xff; xff] in
  separate_shared FakeDrbg FakeEntropy (flickering five many) slice_writer fake true (repeat xaa 16)
  = ({| drbg := 5; entropy := tt |},
     [x80; x01; x00; x00; x00; x0f; x00; x00; x00; x00; x01; x02; x03; x04; x05; xaa], Ok 15%nat)
  /\ separate_shared FakeDrbg FakeEntropy (flickering many five) slice_writer fake true (repeat xaa 16)
  = (fake, [xaa; xaa; xaa; xaa; xaa; xaa; x00; x00; x09; x04; xaa; xaa; xaa; xaa; xaa; xaa], Ok 10%nat).
Proof. exact c100_example. Qed.
