(** What marshalling does when the destination is too short, byte for byte
    (C05, C06). *)
(* Restates the theorems of PiecesFacts.v; proofs are there. *)
From Coq Require Import String ZArith NArith List Lia Bool.
From Coq Require Import Init.Byte.
From Verif Require Import Prelude Types Marshal WireSpec MarshalProofs WriteSpec MarshalWrite
  Layout Catalogue Samples MarshalFacts.
From Verif Require Import PiecesFacts.
Import ListNotations.
Open Scope Z_scope.

(** ** C05 *)
(** Exactly what happens, for every type and value: if the first byte without
    room belongs to the contents of a sized buffer the call panics, otherwise
    it returns the error. *)
Theorem C05_panics_exactly t v buf before p after :
  wf t v = true -> pieces t v = before ++ p :: after ->
  (length (flat_map piece_bytes before) <= length buf
   < length (flat_map piece_bytes before) + length (piece_bytes p))%nat ->
  snd (marshal t v buf) = match p with Contents _ => Panic | Field _ => Err UnexpectedEndOfBuffer end.
Proof. exact (c05_panics_exactly t v buf before p after). Qed.
Print Assumptions C05_panics_exactly.

(** The pieces make up the encoding, so one of them is the first without room. *)
Theorem C05_pieces t v :
  wf t v = true -> flat_map piece_bytes (pieces t v) = enc t v
  /\ forall n, (n < length (enc t v))%nat ->
     exists before p after, pieces t v = before ++ p :: after
       /\ (length (flat_map piece_bytes before) <= n
           < length (flat_map piece_bytes before) + length (piece_bytes p))%nat.
Proof. exact (c05_pieces t v). Qed.
Print Assumptions C05_pieces.

(** So a value with an empty sized buffer, or cut in front of the contents,
    still gives the error. *)
Example C05_pieces_example :
  let v := VStruct [v2b 128 [x01; x02]; v2b 128 [x03]] in
  pieces TpmsEccPoint v = [Field [x00; x02]; Contents [x01; x02]; Field [x00; x01]; Contents [x03]]
  /\ map (fun n => snd (marshal TpmsEccPoint v (repeat x00 n))) [0; 1; 2; 3; 4; 5; 6; 7]%nat
     = [Err UnexpectedEndOfBuffer; Err UnexpectedEndOfBuffer; Panic; Panic;
        Err UnexpectedEndOfBuffer; Err UnexpectedEndOfBuffer; Panic; Ok 7%nat].
Proof. exact c05_pieces_example. Qed.


(** ** C06 *)
(** Exactly what is in the buffer afterwards: the pieces in front of the first
    one without room, then the old contents. *)
Theorem C06_written_exactly t v buf before p after :
  wf t v = true -> pieces t v = before ++ p :: after ->
  (length (flat_map piece_bytes before) <= length buf
   < length (flat_map piece_bytes before) + length (piece_bytes p))%nat ->
  fst (marshal t v buf) = flat_map piece_bytes before ++ skipn (length (flat_map piece_bytes before)) buf.
Proof. exact (c06_written_exactly t v buf before p after). Qed.
Print Assumptions C06_written_exactly.

Example C06_pieces_example :
  let v := VStruct [v2b 128 [x01; x02]; v2b 128 [x03]] in
  map (fun n => fst (marshal TpmsEccPoint v (repeat xee n))) [1; 3; 5; 7]%nat
  = [[xee]; [x00; x02; xee]; [x00; x02; x01; x02; xee]; [x00; x02; x01; x02; x00; x01; x03]].
Proof. exact c06_pieces_example. Qed.
