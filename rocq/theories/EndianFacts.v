(** The byte order of the machine (C104). *)
From Coq Require Import String ZArith NArith List Lia Bool.
From Coq Require Import Init.Byte.
From Verif Require Import Prelude Client Tcp TcpSpec TcpProofs TcpFacts Endian.
From Verif Require PortableNetFacts.
Import ListNotations.
Open Scope Z_scope.

Lemma le_four b : length b = 4%nat -> le_bytes 4 (le_val b) = b.
Proof. intros <-. apply le_bytes_val. Qed.
Lemma be_rev l : be_val (rev l) = le_val l.
Proof.
  unfold be_val. rewrite <- fold_left_rev_right, rev_involutive. induction l as [|b l IH]; [reflexivity|].
  cbn [fold_right le_val]. rewrite IH. lia.
Qed.
Lemma swapped_be z : 0 <= z < 2 ^ 32 -> swapped (be_val (le_bytes 4 z)) = z.
Proof.
  intros Hz. unfold swapped.
  assert (E : be_val (le_bytes 4 z) = le_val (rev (le_bytes 4 z))) by (rewrite <- be_rev, rev_involutive; reflexivity).
  rewrite E, le_four by (rewrite rev_length; apply le_bytes_length). rewrite be_rev, le_val_bytes.
  apply Z.mod_small. change (pow256 4) with (2 ^ 32). exact Hz.
Qed.

Lemma be_le z : be_bytes 4 z = rev (le_bytes 4 z).
Proof. cbn [be_bytes le_bytes rev app]. rewrite !Z.div_div by lia. reflexivity. Qed.

(** ** C104 *)
(** On a little-endian machine it is the call that the other claims are about. *)
Theorem c104_little W H C (sys : world W H C) (c : tcp H) w :
  get_sizes_on Little sys c w = get_command_response_sizes sys c w.
Proof. reflexivity. Qed.
(** On a big-endian machine it makes the same system calls in the same world, with
    the same outcome, but for the order of the bytes of the two sizes. *)
Theorem c104_big W H C (sys : world W H C) (c : tcp H) w :
  get_sizes_on Big sys c w
  = (let '(w', r) := get_sizes_on Little sys c w in
     (w', omap (fun '(x1, x2, x3, x4) => (swapped x1, x2, swapped x3, x4)) r)).
Proof.
  unfold get_sizes_on, io_bind.
  destruct (write_all sys (plat_tcp c) (u32_bytes GetCommandResponseSizes) w) as [w1 [u|e|]]; try reflexivity.
  destruct (read_u32 sys (plat_tcp c) w1) as [w2 [n|e|]]; try reflexivity.
  destruct (negb (n =? 16)); [reflexivity|].
  assert (L : forall w3 b, read_bytes sys (plat_tcp c) 16 w2 = (w3, Ok b) -> length b = 16%nat).
  { intros w3 b E. unfold read_bytes, read_exact in E. destruct (read_loop sys 16 (plat_tcp c) 16 w2) as [[w' bs] r] eqn:R.
    destruct r as [[]|e|]; cbn [omap] in E; try discriminate. injection E as <- <-.
    exact (PortableNetFacts.read_loop_length sys _ _ _ _ _ _ R). }
  destruct (read_bytes sys (plat_tcp c) 16 w2) as [w3 [b|e|]]; try reflexivity. specialize (L _ _ eq_refl).
  destruct (check_response_end sys (plat_tcp c) w3) as [w4 [u'|e|]]; try reflexivity.
  cbn [io_ret omap]. unfold io_ret, largest_command_size, largest_response_size, from_memory, swapped.
  cbn [omap]. rewrite !le_four by (rewrite firstn_length, ?skipn_length; lia). reflexivity.
Qed.
(** A client gets what a simulator on a machine of the same byte order has, and
    if the orders differ, the sizes - not the codes - with their bytes in the
    other order. *)
Theorem c104_reported pieces client simulator l x1 x2 x3 x4 w :
  u32_ok x1 -> u32_ok x2 -> u32_ok x3 -> u32_ok x4 ->
  get_sizes_on client (pipe pieces) (ends l) (fst w, sent_sizes simulator x1 x2 x3 x4 ++ snd w)
  = (w, Ok (match client, simulator with
            | Little, Little | Big, Big => (x1, x2, x3, x4)
            | _, _ => (swapped x1, x2, swapped x3, x4) end)).
Proof.
  intros H1 H2 H3 H4.
  assert (Little_ : forall y1 y3, u32_ok y1 -> u32_ok y3 ->
    get_sizes_on Little (pipe pieces) (ends l) (fst w, sent_sizes Little y1 x2 y3 x4 ++ snd w) = (w, Ok (y1, x2, y3, x4))).
  { intros y1 y3 U1 U3. rewrite c104_little.
    pose proof (c41_answered pieces l ResponseSizes (Sizes y1 x2 y3 x4) w) as A. cbn [answers writable] in A.
    specialize (A (conj U1 (conj H2 (conj U3 H4))) I). cbn [perform locality_after] in A.
    replace (in_store (@conversation bool unit (ends l) ResponseSizes (Sizes y1 x2 y3 x4)) w)
      with (fst w, sent_sizes Little y1 x2 y3 x4 ++ snd w) in A.
    2:{ unfold in_store. f_equal. }
    destruct (get_command_response_sizes (pipe pieces) (ends l) (fst w, sent_sizes Little y1 x2 y3 x4 ++ snd w)) as [w' [[[[a b] d] e]|e|]];
      cbn in A; congruence. }
  assert (Sw : forall x, u32_ok x -> u32_ok (swapped x) /\ in_memory Big x = in_memory Little (swapped x)).
  { intros x U. unfold swapped. split.
    - unfold u32_ok. pose proof (be_val_range (le_bytes 4 x)) as R. rewrite le_bytes_length in R. exact R.
    - cbn [in_memory].
      assert (E : be_val (le_bytes 4 x) = le_val (rev (le_bytes 4 x))) by (rewrite <- be_rev, rev_involutive; reflexivity).
      rewrite E, le_four by (rewrite rev_length; apply le_bytes_length). apply be_le. }
  destruct (Sw x1 H1) as [V1 E1], (Sw x3 H3) as [V3 E3].
  assert (B : sent_sizes Big x1 x2 x3 x4 = sent_sizes Little (swapped x1) x2 (swapped x3) x4)
    by (unfold sent_sizes; rewrite E1, E3; reflexivity).
  destruct client, simulator; rewrite ?c104_big, ?B, ?Little_ by assumption; cbn [omap]; try reflexivity.
  pose proof (swapped_be x1 H1) as S1. pose proof (swapped_be x3 H3) as S3. fold (swapped x1) in S1. fold (swapped x3) in S3.
  now rewrite S1, S3.
Qed.
(** Orders that differ do matter: 4096 is reported as 1048576. *)
Example c104_example :
  u32_ok 4096 /\ u32_ok 0x17b /\ u32_ok 12
  /\ get_sizes_on Little (pipe byte_by_byte) (ends 0) ([], sent_sizes Little 4096 0x17b 12 0x17b) = (([], []), Ok (4096, 0x17b, 12, 0x17b))
  /\ get_sizes_on Big (pipe byte_by_byte) (ends 0) ([], sent_sizes Big 4096 0x17b 12 0x17b) = (([], []), Ok (4096, 0x17b, 12, 0x17b))
  /\ get_sizes_on Big (pipe byte_by_byte) (ends 0) ([], sent_sizes Little 4096 0x17b 12 0x17b) = (([], []), Ok (1048576, 0x17b, 201326592, 0x17b)).
Proof. unfold u32_ok. split; [lia|]. split; [lia|]. split; [lia|]. repeat split; vm_compute; reflexivity. Qed.
