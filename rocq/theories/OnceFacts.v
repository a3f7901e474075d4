(** Every command is executed once, in order (C85). *)
From Coq Require Import String ZArith NArith List Lia Bool.
From Coq Require Import Init.Byte.
From Verif Require Import Prelude Types Marshal WireSpec Catalogue Errors Tpm2b Client ClientSpec ClientProofs ClientFacts
  Server ServerSpec ServerProofs ServerFacts Tcp TcpSpec TcpProofs Remote RemoteFacts.
Import ListNotations.
Open Scope Z_scope.

(** A TPM, and the list of what it executed at which locality. *)
Definition remembers {S} (f : tpm_device S) : tpm_device (S * list (Z * list byte)) := fun s l cmd =>
  ((fst (f (fst s) l cmd), snd s ++ [(l, cmd)]), snd (f (fst s) l cmd)).
(** What a session should have it execute: the commands that fit the client's
    buffer, each at the locality set before it. *)
Fixpoint in_order (l : Z) (steps : list step) : list (Z * list byte) :=
  match steps with
  | [] => []
  | SetLocality l' :: steps' => in_order l' steps'
  | Run c cmd handles a :: steps' =>
      (if Z.of_nat (length (command_frame c cmd handles a)) <=? 4096 then [(l, command_frame c cmd handles a)] else [])
      ++ in_order l steps'
  end.

Lemma remembers_run {S} (f : tpm_device S) l s log c cmd handles a : valid_call c cmd handles a ->
  run_command_with_handles FromTss (local (remembers f) l) (s, log) c cmd handles a
  = ((fst (run_command_with_handles FromTss (local f l) s c cmd handles a),
      log ++ in_order l [Run c cmd handles a]),
     snd (run_command_with_handles FromTss (local f l) s c cmd handles a)).
Proof.
  intros V. cbn [in_order]. unfold run_command_with_handles.
  destruct (Z.leb_spec (Z.of_nat (length (command_frame c cmd handles a))) 4096) as [L|L].
  - rewrite (build_frame c cmd handles a V L). cbn [transact local].
    unfold remembers at 1. cbn [fst snd app]. destruct (f s l (command_frame c cmd handles a)) as [s' [r|]]; [|reflexivity].
    cbn [fst snd]. destruct (length (repeat x00 RESP_BUFFER_SIZE) <? length r)%nat; reflexivity.
  - cbn [app]. rewrite app_nil_r. destruct (build_too_long c cmd handles a V) as [E|E];
      [unfold fits; lia| |]; rewrite E; reflexivity.
Qed.
Lemma remembers_session {S} (f : tpm_device S) steps : Forall step_ok steps -> forall l s log,
  local_session (remembers f) l (s, log) steps
  = ((fst (local_session f l s steps), log ++ in_order l steps), snd (local_session f l s steps)).
Proof.
  induction 1 as [|[l'|c cmd handles a] steps Hs _ IH]; intros l s log; cbn [local_session].
  - cbn [in_order]. rewrite app_nil_r. reflexivity.
  - apply IH.
  - rewrite remembers_run by exact Hs. cbn [in_order]. rewrite app_nil_r.
    destruct (run_command_with_handles FromTss (local f l) s c cmd handles a) as [s' r]. cbn [fst snd].
    rewrite IH. rewrite app_assoc. destruct (local_session f l s' steps). reflexivity.
Qed.

(** ** C85 *)
(** Whatever the TPM answers - also errors, nonsense or nothing - and however
    it is delivered, over TCP the TPM executes exactly the commands of the
    session, each once, in the order and at the localities given; only those
    too long for the client's buffer are left out.  The results are those of
    the TPM at hand. *)
Theorem c85_once S pieces (f : tpm_device S) l s steps :
  0 <= l < 256 -> Forall step_ok steps ->
  (forall s l cmd s' r, f s l cmd = (s', Some r) -> Z.of_nat (length r) <= 4096) ->
  remote_session pieces (remembers f) (port_ends l) (idle (s, [])) steps
  = (idle (fst (local_session f l s steps), in_order l steps), snd (local_session f l s steps)).
Proof.
  intros Hl Ho Hf. rewrite c70_session; [|assumption|assumption|].
  2:{ intros s0 l0 cmd s' r E. unfold remembers in E. injection E as _ E.
      apply (Hf (fst s0) l0 cmd (fst (f (fst s0) l0 cmd))). rewrite <- E. apply surjective_pairing. }
  rewrite remembers_session by exact Ho. reflexivity.
Qed.

(** In particular an error does not mean that nothing was done: a call that
    fails because of the TPM's answer has had its command executed, and trying
    again has it executed again. *)
Theorem c85_again S pieces (f : tpm_device S) l s n c cmd handles a :
  0 <= l < 256 -> valid_call c cmd handles a -> fits (command_frame c cmd handles a) ->
  (forall s l cmd s' r, f s l cmd = (s', Some r) -> Z.of_nat (length r) <= 4096) ->
  snd (device (fst (remote_session pieces (remembers f) (port_ends l) (idle (s, []))
                      (repeat (Run c cmd handles a) n))))
  = repeat (l, command_frame c cmd handles a) n.
Proof.
  intros Hl V L Hf. rewrite c85_once; [|assumption| |assumption].
  2:{ apply Forall_forall. intros x Hx. apply repeat_spec in Hx. subst x. exact V. }
  cbn [fst device idle snd]. induction n as [|n IH]; [reflexivity|]. cbn [repeat in_order].
  unfold fits in L. apply Z.leb_le in L. rewrite L. cbn [app]. now rewrite IH.
Qed.

(** *** The hypotheses can be met *)
(** A TPM that answers nonsense, then nothing. *)
Example c85_example :
  let f : tpm_device nat := fun n _ _ => (Datatypes.S n, match n with O => Some (repeat xff 10) | _ => None end) in
  let steps := [Run Startup (VStruct [VStruct [VInt 0]]) VUnit area0; SetLocality 3;
                Run GetRandom (VStruct [VInt 2]) VUnit area0] in
  Forall step_ok steps
  /\ (forall s l cmd s' r, f s l cmd = (s', Some r) -> Z.of_nat (length r) <= 4096)
  /\ remote_session (fun _ _ => 1%nat) (remembers f) (port_ends 0) (idle (0%nat, [])) steps
     = (idle (2%nat, [(0, [x80; x01; x00; x00; x00; x0c; x00; x00; x01; x44; x00; x00]);
                      (3, [x80; x01; x00; x00; x00; x0c; x00; x00; x01; x7b; x00; x02])]),
        [Err (FromTss 0xffffffff); Err UnexpectedEof]).
Proof.
  cbn zeta. split; [repeat constructor; cbn; lia|]. split.
  - intros s l cmd s' r E. destruct s; injection E as _ E; [subst r; cbn; lia|discriminate].
  - vm_compute. reflexivity.
Qed.
