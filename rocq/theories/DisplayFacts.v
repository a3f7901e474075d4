(** Texts of errors (C80).  [is_digit] and [decimal] are those of C59
    (TcpSpec.v). *)
From Coq Require Import String ZArith List Lia Bool.
From Coq Require Import Init.Byte.
From Verif Require Import Prelude Marshal Errors Tcp TcpSpec Display.
Import ListNotations.
Local Open Scope string_scope.
Local Open Scope list_scope.
Open Scope Z_scope.

(** ** Auxiliary facts *)

Lemma digit_byte d : 0 <= d < 10 -> bz (zb (48 + d)) = 48 + d.
Proof. intros H. rewrite bz_zb. apply Z.mod_small. lia. Qed.

Lemma decimal_snoc l b : decimal (l ++ [b]) = decimal l * 10 + (bz b - 48).
Proof.
  induction l as [|a l IH]; cbn [app decimal]; [cbn [length decimal]; change (10 ^ Z.of_nat 0) with 1; lia|].
  rewrite IH, app_length. cbn [length]. replace (Z.of_nat (length l + 1)) with (Z.of_nat (length l) + 1) by lia.
  rewrite Z.pow_add_r by lia. lia.
Qed.

Lemma show_digits_spec n : forall z, 0 <= z < 10 ^ Z.of_nat n -> (0 < n)%nat ->
  Forall is_digit (show_digits n z) /\ decimal (show_digits n z) = z
  /\ exists d l, show_digits n z = d :: l /\ (0 < z -> d <> x30).
Proof.
  induction n as [|n IH]; intros z Hz Hn; [lia|]. cbn [show_digits].
  pose proof (Z.mod_pos_bound z 10 ltac:(lia)) as Hm. pose proof (Z.div_mod z 10 ltac:(lia)) as Hd.
  assert (Hdig : is_digit (zb (48 + z mod 10))) by (unfold is_digit; rewrite digit_byte by lia; lia).
  rewrite Forall_app, decimal_snoc, digit_byte by lia. destruct (Z.ltb_spec z 10) as [H|H].
  - rewrite Z.mod_small in * by lia. split; [split; constructor; auto|]. split; [cbn [decimal]; lia|].
    exists (zb (48 + z)), []. split; [reflexivity|]. intros Hp E. apply (f_equal bz) in E.
    rewrite digit_byte in E by lia. change (bz x30) with 48 in E. lia.
  - replace (Z.of_nat (S n)) with (Z.of_nat n + 1) in Hz by lia. rewrite Z.pow_add_r in Hz by lia.
    assert (Hn' : (0 < n)%nat) by (destruct n; [cbn in Hz; lia|lia]).
    assert (Hq : 0 <= z / 10 < 10 ^ Z.of_nat n) by lia.
    destruct (IH (z / 10) Hq Hn') as (F & D & d & l & E & Hne).
    split; [split; [exact F|constructor; auto]|]. split; [lia|].
    exists d, (l ++ [zb (48 + z mod 10)]). rewrite E. split; [reflexivity|]. intros _. apply Hne. lia.
Qed.

(** ** C80 *)
(** The text of a [TssError] is its code in decimal, without leading zeros. *)
Theorem c80_decimal code :
  0 < code < 2 ^ 32 ->
  Forall is_digit (show_tss code) /\ decimal (show_tss code) = code
  /\ exists d rest, show_tss code = d :: rest /\ d <> x30.
Proof.
  intros H. destruct (show_digits_spec 10 code ltac:(change (10 ^ Z.of_nat 10) with 10000000000; lia) ltac:(lia))
    as (F & D & d & l & E & Hd). split; [exact F|]. split; [exact D|]. exists d, l. split; [exact E|]. apply Hd. lia.
Qed.

(** So different errors have different texts, also as [std::io::Error]s. *)
Theorem c80_distinct a b :
  0 < a < 2 ^ 32 -> 0 < b < 2 ^ 32 -> show_io (io_of_tss a) = show_io (io_of_tss b) -> a = b.
Proof.
  intros Ha Hb E. unfold show_io, io_of_tss in E.
  assert (E' : show_tss a = show_tss b) by congruence.
  destruct (c80_decimal a Ha) as (_ & Da & _). destruct (c80_decimal b Hb) as (_ & Db & _). congruence.
Qed.

(** The texts of the marshalling errors tell them apart, and none is the text
    of a [TssError] or of a [ServerError]. *)
Theorem c80_marshalling e e' code :
  0 < code < 2 ^ 32 ->
  (show_merr e = show_merr e' -> e = e') /\ show_merr e <> show_tss code
  /\ show_merr e <> show_server_error /\ show_server_error <> show_tss code.
Proof.
  intros H. destruct (c80_decimal code H) as (F & _). split; [|split; [|split]].
  - destruct e, e'; intros E; try reflexivity; vm_compute in E; discriminate.
  - intros E. rewrite <- E in F. destruct e; vm_compute in F; apply Forall_inv in F; unfold is_digit in F;
      destruct F as [F F']; vm_compute in F, F'; congruence.
  - destruct e; vm_compute; discriminate.
  - intros E. rewrite <- E in F. apply Forall_inv in F; unfold is_digit in F;
      destruct F as [F F']; vm_compute in F, F'; congruence.
Qed.

(** Each text names what was wrong, and nothing of the others. *)
Definition mentions (word t : list byte) : Prop := exists before behind, t = before ++ word ++ behind.
Definition mentioned (word t : list byte) : bool :=
  existsb (fun n => if list_eq_dec Byte.byte_eq_dec (firstn (length word) (skipn n t)) word then true else false) (seq 0 (S (length t))).
Lemma mentioned_iff word t : mentioned word t = true <-> mentions word t.
Proof.
  unfold mentioned, mentions. rewrite existsb_exists. split.
  - intros (n & _ & E). destruct (list_eq_dec _ _ _) as [E'|]; [|discriminate].
    exists (firstn n t), (skipn (length word) (skipn n t)). rewrite <- E' at 1. now rewrite firstn_skipn, firstn_skipn.
  - intros (a & b & ->). exists (length a). split.
    + apply in_seq. rewrite app_length. lia.
    + rewrite skipn_app_exact', firstn_app_exact' by reflexivity. destruct (list_eq_dec _ _ _); [reflexivity|contradiction].
Qed.
Definition subject (e : merr) : list byte :=
  text match e with ArrayLengthExceeded => "array" | UnexpectedEndOfBuffer => "buffer" | UnknownSelector => "selector" end.
Theorem c80_names e e' : mentions (subject e) (show_merr e') <-> e = e'.
Proof.
  rewrite <- mentioned_iff. destruct e, e'; vm_compute; split; congruence.
Qed.

Example c80_example :
  string_of_list_byte (show_tss (tss_of_merr UnexpectedEndOfBuffer)) = "2308"
  /\ show_tss 4294967295 = text "4294967295" /\ show_tss 7 = text "7".
Proof. vm_compute. auto. Qed.
