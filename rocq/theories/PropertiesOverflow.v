(** What a call does whose command does not fit into the command buffer,
    exactly (C37). *)
(* Restates the theorems of OverflowFacts.v; proofs are there. *)
From Coq Require Import String ZArith NArith List Lia Bool.
From Coq Require Import Init.Byte.
From Verif Require Import Prelude Types Marshal WireSpec MarshalProofs WriteSpec MarshalWrite
  Layout Catalogue Samples MarshalFacts Errors Tpm2b Client ClientSpec ClientProofs ClientFacts PiecesFacts.
From Verif Require Import OverflowFacts.
Import ListNotations.
Open Scope Z_scope.

(** ** C37 *)
(** Exactly what happens: the connection is not used, and the call panics if
    the first byte without room belongs to the contents of a sized buffer or
    to the size of the authorization area; otherwise it returns
    TPM_RC_MEMORY. *)
Theorem C37_exactly S E (from_tss : Z -> E) (tpm : connection S E) s c cmd handles a before p after :
  valid_call c cmd handles a ->
  command_pieces c cmd handles a = before ++ p :: after ->
  Z.of_nat (length (flat_map piece_bytes before)) <= 4096
    < Z.of_nat (length (flat_map piece_bytes before) + length (piece_bytes p)) ->
  run_command_with_handles from_tss tpm s c cmd handles a
  = (s, match p with Contents _ => Panic | Field _ => Err (from_tss 0x904) end).
Proof. exact (c37_exactly S E from_tss tpm s c cmd handles a before p after). Qed.
Print Assumptions C37_exactly.

(** The pieces make up the command, so one of them is the first without room. *)
Theorem C37_pieces c cmd handles a :
  valid_call c cmd handles a ->
  flat_map piece_bytes (command_pieces c cmd handles a) = command_frame c cmd handles a
  /\ (~ fits (command_frame c cmd handles a) ->
      exists before p after, command_pieces c cmd handles a = before ++ p :: after
        /\ Z.of_nat (length (flat_map piece_bytes before)) <= 4096
           < Z.of_nat (length (flat_map piece_bytes before) + length (piece_bytes p))).
Proof. exact (c37_pieces c cmd handles a). Qed.
Print Assumptions C37_pieces.

Example C37_exactly_example :
  let a := area1 (password_session (v2b 64 [])) in
  build_command HandleCommand (VInt 1) (VBytes (repeat x01 4083)) a = Panic
  /\ build_command HandleCommand5 (VInt 1) (VBytes (repeat x01 4085)) area0 = Err 0x904
  /\ valid_call HandleCommand (VInt 1) (VBytes (repeat x01 4083)) a
  /\ (exists before p after, command_pieces HandleCommand (VInt 1) (VBytes (repeat x01 4083)) a
        = before ++ Contents p :: after /\ length (flat_map piece_bytes before) = Z.to_nat 4093 /\ length p = 4%nat).
Proof. exact c37_exactly_example. Qed.
