(** Concrete values used to show that theorem hypotheses are met. *)
From Coq Require Import String ZArith NArith List Bool.
From Coq Require Import Init.Byte.
From Verif Require Import Prelude Types Marshal WireSpec Layout Catalogue.
Import ListNotations.
Open Scope Z_scope.

Definition vi (z : Z) : val := VStruct [VInt z].            (* a newtype around an integer *)
Definition v2b (max : N) (l : list byte) : val :=           (* from_bytes *)
  VTpm2b (Z.of_nat (length l)) (overwrite l (repeat x00 (N.to_nat max))).

(** TPMS_PCR_SELECTION: SHA256, three selection bytes. *)
Definition sample_pcr : val :=
  VStruct [vi 0xB; VInt 3; VArr [VInt 0xFF; VInt 1; VInt 0x80; VInt 0]].
Definition sample_pcrs : val :=
  VStruct [VInt 1; VArr (sample_pcr :: repeat (zero_of TpmsPcrSelection) 15)].
(** TPMS_ATTEST with a quote. *)
Definition sample_attest : val :=
  VStruct [VStruct [vi 0xFF544347];
           VStruct [v2b 66 [x00; x0b; x01]; v2b 64 [x55]; VStruct [VInt 77; VInt 1; VInt 2; vi 1]; VInt 9];
           VEnum 0x8018 [VStruct [sample_pcrs; v2b 64 (repeat xaa 32)]]].
(** TPMT_PUBLIC with an ECC key. *)
Definition sample_public : val :=
  VStruct [VStruct [];
           VStruct [vi 0xB; vi 0x60472; v2b 64 []];
           VEnum 0x23 [VStruct [VEnum 0x10 [VStruct []; VStruct []];
                                VEnum 0x18 [VStruct [vi 0xB]];
                                VStruct [vi 3];
                                VEnum 0x10 [VStruct []]];
                       VStruct [v2b 128 (repeat x11 32); v2b 128 (repeat x22 32)]]].
(** TPMS_SENSITIVE_CREATE. *)
Definition sample_sensitive : val := VStruct [v2b 64 [x01; x02]; v2b 256 [x03; x04; x05]].

Example sample_attest_ok :
  wf TpmsAttest sample_attest = true /\ canonical TpmsAttest sample_attest.
Proof. vm_compute. auto. Qed.
Example sample_public_ok :
  wf TpmtPublic sample_public = true /\ canonical TpmtPublic sample_public.
Proof. vm_compute. auto. Qed.
Example sample_sensitive_ok :
  wf TpmsSensitiveCreate sample_sensitive = true /\ canonical TpmsSensitiveCreate sample_sensitive.
Proof. vm_compute. auto. Qed.
