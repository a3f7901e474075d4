(** Specification of the server: what a request is answered with, and what
    the random number generator and entropy source are asked for. *)
From Coq Require Import ZArith NArith List Lia Bool.
From Coq Require Import Init.Byte.
From Verif Require Import Prelude Server.
Import ListNotations.
Open Scope Z_scope.

(** Fields of a request: tag (2 bytes), size (4), command code (4), and for
    GetRandom the number of bytes (2). *)
Definition size_field (request : list byte) : Z := be_val (firstn 4 (skipn 2 request)).
Definition code_field (request : list byte) : Z := be_val (firstn 4 (skipn 6 request)).
Definition count_field (request : list byte) : Z := be_val (firstn 2 (skipn 10 request)).

(** What a request deserves when [room] bytes are available for the response. *)
Inductive verdict := Refuse (rc : Z) | Random (n : nat).
Definition verdict_of (request : list byte) (room : nat) : verdict :=
  let len := Z.of_nat (length request) in
  if (len <? 10) || negb (size_field request =? len) then Refuse 0x142        (* TPM_RC_COMMAND_SIZE *)
  else if negb (code_field request =? 0x17B) then Refuse 0x143                (* TPM_RC_COMMAND_CODE *)
  else if len <? 12 then Refuse 0x142
  else if Z.of_nat room <? 10 + count_field request then Refuse 0x904         (* TPM_RC_MEMORY *)
  else Random (Z.to_nat (count_field request)).

(** Error response: the code at offset 6, if there is room. *)
Definition error_response (resp : list byte) (rc : Z) : list byte :=
  if (length resp <? 10)%nat then resp else firstn 6 resp ++ be_bytes 4 rc ++ skipn 10 resp.
Definition error_size (resp : list byte) : nat := if (length resp <? 10)%nat then 0%nat else 10%nat.
(** Success response with the random bytes [out]. *)
Definition random_response (resp out : list byte) : list byte :=
  be_bytes 2 0x8001 ++ be_bytes 4 (10 + Z.of_nat (length out)) ++ be_bytes 4 0
  ++ out ++ skipn (10 + length out) resp.

(** Implementations a server can be built from: filling a slice keeps its
    length. *)
Definition wf_drbg {D} (dr : Drbg D) : Prop :=
  forall d ai dest d' out r, fill_bytes dr d ai dest = (d', out, r) -> length out = length dest.
Definition wf_source {X} (es : EntropySource X) : Prop :=
  forall x dest x' out, fill_entropy es x dest = (x', out) -> length out = length dest.
(** A generator that does not fail (without additional input). *)
Definition never_fails {D} (dr : Drbg D) : Prop :=
  (forall d seed, snd (reseed dr d seed []) = Ok tt)
  /\ (forall d dest, snd (fill_bytes dr d [] dest) = Ok tt).
(** A generator that "entirely fills dest with new data" (drbg/mod.rs:139):
    nothing depends on what was there before. *)
Definition ignores_contents {D} (dr : Drbg D) : Prop :=
  forall d ai dest1 dest2, length dest1 = length dest2 ->
    fill_bytes dr d ai dest1 = fill_bytes dr d ai dest2.

(** ** Watching the generator and the entropy source *)
Inductive drbg_event :=
| EvInstantiate (entropy nonce personalization : list byte)
| EvAskReseed (answer : bool)
| EvReseed (seed additional : list byte)
| EvFill (additional out : list byte)
| EvNext.

Definition watched_drbg {D} (dr : Drbg D) : Drbg (D * list drbg_event) := {|
  entropy_default := entropy_default dr;
  nonce_default := nonce_default dr;
  instantiate := fun e n p => omap (fun d => (d, [EvInstantiate e n p])) (instantiate dr e n p);
  reseed := fun d seed ai => let '(d', r) := reseed dr (fst d) seed ai in
                             ((d', snd d ++ [EvReseed seed ai]), r);
  next_u32 := fun d ai => let '(d', r) := next_u32 dr (fst d) ai in ((d', snd d ++ [EvNext]), r);
  next_u64 := fun d ai => let '(d', r) := next_u64 dr (fst d) ai in ((d', snd d ++ [EvNext]), r);
  fill_bytes := fun d ai dest => let '(d', out, r) := fill_bytes dr (fst d) ai dest in
                                 ((d', snd d ++ [EvFill ai out]), out, r);
  requires_reseeding := fun d => let '(d', b) := requires_reseeding dr (fst d) in
                                 ((d', snd d ++ [EvAskReseed b]), b)
|}.
Definition watched_source {X} (es : EntropySource X) : EntropySource (X * list (list byte)) := {|
  source := (source es, []);
  fill_entropy := fun x dest => let '(x', out) := fill_entropy es (fst x) dest in
                                ((x', snd x ++ [out]), out)
|}.

(** One command given to the server. *)
Inductive call :=
| Separate (request resp : list byte)
| InPlace (buffer : list byte) (request_size : nat).
Definition serve {D X} (dr : Drbg D) (es : EntropySource X) (c : context D X) (k : call)
    : context D X * list byte * outcome unit nat :=
  match k with
  | Separate request resp => execute_command_separate dr es c request resp
  | InPlace buffer request_size => execute_command_in_place dr es c buffer request_size
  end.
(** The request in a call, and the buffer its response goes to. *)
Definition request_of (k : call) : list byte :=
  match k with Separate request _ => request | InPlace buffer n => firstn n buffer end.
Definition buffer_of (k : call) : list byte :=
  match k with Separate _ resp => resp | InPlace buffer _ => buffer end.
(** A history: the responses (buffer and size), until a panic. *)
Fixpoint serve_all {D X} (dr : Drbg D) (es : EntropySource X) (c : context D X) (ks : list call)
    : context D X * list (list byte) * bool :=
  match ks with
  | [] => (c, [], true)
  | k :: ks' =>
      match serve dr es c k with
      | (c', resp, Ok n) => let '(c'', rs, ok) := serve_all dr es c' ks' in (c'', firstn n resp :: rs, ok)
      | (c', _, _) => (c', [], false)
      end
  end.

(** What one response tells about the calls made for it: a success response
    (code 0) carries the output of one [fill_bytes], made after asking whether
    to reseed and reseeding from fresh entropy if so; nothing is called for any
    other response. *)
Definition is_success (resp : list byte) : bool :=
  (10 <=? length resp)%nat && (be_val (firstn 4 (skipn 6 resp)) =? 0).
Inductive explains : list byte -> list drbg_event -> list (list byte) -> Prop :=
| Explains_error resp : is_success resp = false -> explains resp [] []
| Explains_random resp : is_success resp = true ->
    explains resp [EvAskReseed false; EvFill [] (skipn 10 resp)] []
| Explains_reseeded resp seed : is_success resp = true ->
    explains resp [EvAskReseed true; EvReseed seed []; EvFill [] (skipn 10 resp)] [seed].
Inductive explains_all : list (list byte) -> list drbg_event -> list (list byte) -> Prop :=
| Explains_nil : explains_all [] [] []
| Explains_cons r rs ev evs se ses :
    explains r ev se -> explains_all rs evs ses -> explains_all (r :: rs) (ev ++ evs) (se ++ ses).
