(** The simulator connection and the lists on targets whose [usize] does not
    have 64 bits (C90). *)
From Coq Require Import ZArith NArith List Lia Bool.
From Coq Require Import Init.Byte.
From Verif Require Import Prelude Types Marshal WireSpec MarshalProofs Errors Client Tcp TcpSpec ListSpec Tpml Portable PortableNet.
Import ListNotations.
Open Scope Z_scope.

Lemma usize_at_small w z : 32 <= w -> 0 <= z < 2 ^ 32 -> usize_at w z = Z.to_N z.
Proof.
  intros Hw Hz. unfold usize_at. rewrite Z.mod_small; [reflexivity|]. split; [lia|].
  apply Z.lt_le_trans with (2 ^ 32); [lia|]. apply Z.pow_le_mono_r; lia.
Qed.
Lemma read_loop_length {W H C} (sys : world W H C) fuel : forall h n s s' bs,
  read_loop sys fuel h n s = (s', bs, Ok tt) -> length bs = n.
Proof.
  induction fuel as [|fuel IH]; intros h n s s' bs; destruct n as [|n]; cbn [read_loop].
  1, 3: intros [= <- <-]; reflexivity.
  1: discriminate.
  destruct (read sys s h (S n)) as [w1 [[|b l]|e|]]; try discriminate.
  destruct (S n <? length (b :: l))%nat eqn:E; [discriminate|]. apply Nat.ltb_ge in E.
  destruct (read_loop sys fuel h (S n - length (b :: l)) w1) as [[w2 rest] r] eqn:R.
  intros [= <- <- ->]. apply IH in R. cbn [length] in *. rewrite app_length, R. lia.
Qed.
Lemma read_u32_range {W H C} (sys : world W H C) h s s' z :
  read_u32 sys h s = (s', Ok z) -> 0 <= z < 2 ^ 32.
Proof.
  unfold read_u32, read_bytes, read_exact, io_bind, io_ret.
  destruct (read_loop sys 4 h 4 s) as [[w1 bs] r] eqn:R. destruct r as [[]|e|]; cbn [omap]; try discriminate.
  intros [= <- <-]. apply read_loop_length in R. pose proof (be_val_range bs) as B. rewrite R in B. exact B.
Qed.

(** ** C90 *)
(** Nor does it make a difference to any operation of the simulator connection,
    whatever the simulator answers. *)
Theorem c90_simulator w {W H C} (sys : world W H C) c o s :
  32 <= w -> perform_at sys w c o s = perform sys c o s.
Proof.
  intros Hw. destruct o; try reflexivity; cbn [perform_at perform].
  - unfold tcp_transact_at, tcp_transact. destruct (2 ^ 32 <=? Z.of_nat (length command)); [reflexivity|].
    match goal with |- context [(?a ;; ?b) s] => destruct ((a ;; b) s) as [s1 [len|e|]] eqn:E end; try reflexivity.
    assert (R : 0 <= len < 2 ^ 32).
    { unfold io_bind in E. destruct (write_whole _ _ _ s) as [s2 [u|e|]]; try discriminate.
      apply read_u32_range in E. exact E. }
    rewrite usize_at_small by assumption.
    replace (N.of_nat (length response) <? Z.to_N len)%N with (Z.of_nat (length response) <? len)
      by (destruct (Z.ltb_spec (Z.of_nat (length response)) len), (N.ltb_spec (N.of_nat (length response)) (Z.to_N len)); lia).
    destruct (_ <? len); [reflexivity|]. rewrite Z_N_nat. reflexivity.
  - unfold get_command_response_sizes_at, get_command_response_sizes, io_bind.
    destruct (write_all _ _ _ s) as [s1 [u|e|]]; try reflexivity.
    destruct (read_u32 sys (plat_tcp c) s1) as [s2 [len|e|]] eqn:E; try reflexivity.
    apply read_u32_range in E. rewrite usize_at_small by assumption.
    replace (Z.to_N len =? 16)%N with (len =? 16)
      by (destruct (Z.eqb_spec len 16), (N.eqb_spec (Z.to_N len) 16); lia).
    destruct (negb (len =? 16)); [reflexivity|].
    destruct (read_bytes _ _ _ s2) as [s3 [bs|e|]]; try reflexivity.
    destruct (check_response_end _ _ s3) as [s4 [u'|e|]]; reflexivity.
Qed.

(** Nor to any call on a list, whatever 32-bit count the list says it has. *)
Theorem c90_lists w cap dflt x op :
  32 <= w -> 0 <= count_ x < 2 ^ 32 -> tpml_step_at w cap dflt x op = tpml_step cap dflt x op.
Proof.
  intros Hw Hx. assert (E : tpml_count_at w x = tpml_count x).
  { unfold tpml_count_at, tpml_count. f_equal. rewrite usize_at_small by assumption. unfold usize.
    f_equal. symmetry. apply Z.mod_small. lia. }
  destruct op; cbn [tpml_step_at tpml_step]; unfold tpml_add_at, tpml_add, tpml_elements_at, tpml_elements;
    rewrite ?E; reflexivity.
Qed.

(** With 16 bits a response said to have 65536 bytes would be an empty one. *)
Definition huge_answer : world (list byte) unit unit := {|
  tcp_connect := fun s _ _ => (s, Ok tt); write := fun s _ bs => (s, Ok (length bs));
  read := fun s _ n => (skipn n s, Ok (firstn n s)); shutdown := fun s _ => (s, Ok tt); sleep_one_second := fun s => s;
  spawn := fun s _ _ _ => (s, Ok tt); read_to_string := fun s _ => (s, Ok []);
  kill := fun s _ => (s, Ok tt) |}.
Example c90_simulator_example :
  let c := {| tpm_tcp := tt; plat_tcp := tt; locality := 0 |} in
  let o := Transact [x01] [x00; x00] in let s := be_bytes 4 65536 ++ be_bytes 4 0 in
  snd (perform_at huge_answer 32 c o s) = Err InvalidInput
  /\ snd (perform_at huge_answer 16 c o s) = Ok (Payload []).
Proof. vm_compute. split; reflexivity. Qed.
