(** A command that was cut off and is sent again (C113). *)
From Coq Require Import String ZArith NArith List Lia Bool.
From Coq Require Import Init.Byte.
From Verif Require Import Prelude Types Marshal WireSpec Catalogue Errors Tpm2b Client ClientSpec ClientProofs ClientFacts
  Tcp TcpSpec TcpProofs Remote RemoteFacts Controls ControlsFacts Crowd CrowdProofs CrowdFacts Cut Trickle TrickleFacts.
From Verif Require CutFacts.
Import ListNotations.
Open Scope Z_scope.

Lemma command_header loc command : spelled (AskCommand loc command) = firstn 9 (spelled (AskCommand loc command)) ++ command
  /\ length (firstn 9 (spelled (AskCommand loc command))) = 9%nat.
Proof.
  cbn [spelled]. unfold be_bytes. cbn. split; reflexivity.
Qed.
Lemma command_cut loc command k : (k <= length command)%nat ->
  firstn (9 + k) (in_bytes [AskCommand loc command])
  = map (pair true) (firstn 9 (spelled (AskCommand loc command)) ++ firstn k command).
Proof.
  intros L. destruct (command_header loc command) as [E H]. unfold in_bytes. cbn [flat_map on_port]. rewrite app_nil_r, firstn_map.
  rewrite E at 1. replace (9 + k)%nat with (length (firstn 9 (spelled (AskCommand loc command))) + k)%nat by (rewrite H; reflexivity).
  now rewrite firstn_app_2.
Qed.
Lemma same_header loc a b : length a = length b -> firstn 9 (spelled (AskCommand loc a)) = firstn 9 (spelled (AskCommand loc b)).
Proof. intros E. cbn [spelled]. rewrite E. unfold be_bytes. reflexivity. Qed.

(** ** C113 *)

(** A command of which the network does not take the last bytes, and then
    whatever is sent on the TPM's port, be it the same command again: the
    simulator executes the beginning of the first command, completed by the first
    bytes of what comes, header and all, and goes on reading in its middle.  As
    long as too little comes it executes nothing. *)
Theorem c113_resent loc command k more :
  0 <= loc < 256 -> (k < length command)%nat -> Z.of_nat (length command) < 2 ^ 32 ->
  let missing := (length command - k)%nat in
  standing ([], []) (firstn (9 + k) (in_bytes [AskCommand loc command]) ++ map (pair true) more)
  = if (missing <=? length more)%nat
    then AskCommand loc (firstn k command ++ firstn missing more) :: standing ([], []) (map (pair true) (skipn missing more))
    else [].
Proof.
  intros Hl L Hc missing. rewrite command_cut by lia. rewrite <- map_app.
  destruct (Nat.leb_spec missing (length more)) as [M|M].
  - set (mixed := firstn k command ++ firstn missing more).
    assert (Lm : length mixed = length command) by (unfold mixed; rewrite app_length, !firstn_length; unfold missing in *; lia).
    transitivity (standing ([], []) (in_bytes [AskCommand loc mixed] ++ map (pair true) (skipn missing more))).
    + f_equal. unfold in_bytes. cbn [flat_map on_port]. rewrite app_nil_r, <- map_app. f_equal.
      rewrite (same_header loc command mixed) by auto. destruct (command_header loc mixed) as [E _].
      rewrite E at 2. rewrite <- !app_assoc. f_equal. unfold mixed. now rewrite <- app_assoc, firstn_skipn.
    + rewrite c113_whole; [reflexivity|]. constructor; [|constructor]. cbn [speakable on_port]. rewrite Lm. auto.
  - (* the bytes begin a command completed in any way *)
    set (padded := firstn k command ++ more ++ repeat x00 (missing - length more)).
    assert (Lp : length padded = length command) by (unfold padded; rewrite !app_length, firstn_length, repeat_length; unfold missing in *; lia).
    rewrite (same_header loc command padded) by auto. destruct (command_header loc padded) as [E H].
    set (n := (9 + (k + length more))%nat).
    assert (P : (firstn 9 (spelled (AskCommand loc padded)) ++ firstn k command) ++ more = firstn n (spelled (AskCommand loc padded))).
    { rewrite E at 2. unfold n. rewrite <- H at 2. rewrite firstn_app_2, <- app_assoc. f_equal. unfold padded.
      rewrite app_assoc. rewrite firstn_app, app_length, firstn_length, Nat.min_l by lia. rewrite Nat.sub_diag. cbn [firstn]. rewrite app_nil_r.
      symmetry. apply firstn_all2. rewrite app_length, firstn_length. lia. }
    rewrite P. destruct (standing_run true (firstn n (spelled (AskCommand loc padded))) ([], []) [] (firstn n (spelled (AskCommand loc padded))) nothing_kept) as [-> _]; auto.
    apply CutFacts.front_begun.
    + rewrite E, app_length, H, Lp. unfold n, missing in *. lia.
    + cbn [speakable]. rewrite Lp. auto.
Qed.

(** Over a network that takes 13 bytes of a command and then everything: the call
    fails because not all was written, the same call again succeeds, and the
    simulator has executed one command, which nobody asked for. *)
Example c113_resent_example :
  let x := Call (Transact [x80; x01; x00; x00; x00; x0c; x00; x00; x01; x44; x00; x00] (repeat x00 16)) in
  proper_call x
  /\ let '(w, rs) := calls_over (trickling so_much obliging) (port_ends 0)
       {| humour := ([13]%nat, (0, 0)%nat); passed := []; beyond := quiet [] |} [x; x] in
     nth 0 rs (Called Panic) = Called (Err WriteZero)
     /\ succeeded (nth 1 rs (Called Panic))
     /\ unit_ (beyond w) = [AskCommand 0 [x80; x01; x00; x00; x00; x00; x00; x08; x00; x00; x00; x00]].
Proof. cbv zeta. split; [reflexivity|vm_compute; auto]. Qed.
