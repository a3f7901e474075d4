(** Texts of errors (C80).  [is_digit] and [decimal] are those of C59
    (TcpSpec.v). *)
(* Restates the theorems of DisplayFacts.v; proofs are there. *)
From Coq Require Import String ZArith List Lia Bool.
From Coq Require Import Init.Byte.
From Verif Require Import Prelude Marshal Errors Tcp TcpSpec Display.
From Verif Require Import DisplayFacts.
Import ListNotations.
Local Open Scope string_scope.
Local Open Scope list_scope.
Open Scope Z_scope.

(** ** C80 *)
(** The text of a [TssError] is its code in decimal, without leading zeros. *)
Theorem C80_decimal code :
  0 < code < 2 ^ 32 ->
  Forall is_digit (show_tss code) /\ decimal (show_tss code) = code
  /\ exists d rest, show_tss code = d :: rest /\ d <> x30.
Proof. exact (c80_decimal code). Qed.
Print Assumptions C80_decimal.

(** So different errors have different texts, also as [std::io::Error]s. *)
Theorem C80_distinct a b :
  0 < a < 2 ^ 32 -> 0 < b < 2 ^ 32 -> show_io (io_of_tss a) = show_io (io_of_tss b) -> a = b.
Proof. exact (c80_distinct a b). Qed.
Print Assumptions C80_distinct.

(** The texts of the marshalling errors tell them apart, and none is the text
    of a [TssError] or of a [ServerError]. *)
Theorem C80_marshalling e e' code :
  0 < code < 2 ^ 32 ->
  (show_merr e = show_merr e' -> e = e') /\ show_merr e <> show_tss code
  /\ show_merr e <> show_server_error /\ show_server_error <> show_tss code.
Proof. exact (c80_marshalling e e' code). Qed.
Print Assumptions C80_marshalling.

Theorem C80_names e e' : mentions (subject e) (show_merr e') <-> e = e'.
Proof. exact (c80_names e e'). Qed.
Print Assumptions C80_names.

Example C80_example :
  string_of_list_byte (show_tss (tss_of_merr UnexpectedEndOfBuffer)) = "2308"
  /\ show_tss 4294967295 = text "4294967295" /\ show_tss 7 = text "7".
Proof. exact c80_example. Qed.
