(** What [#[derive(Tpm2bStruct)]] takes and generates (C72). *)
(* Restates the theorems of DeriveStructFacts.v; proofs are there. *)
From Coq Require Import String ZArith NArith List Lia Bool.
From Coq Require Import Init.Byte.
From Verif Require Import Prelude Types Marshal WireSpec MarshalProofs WriteSpec MarshalWrite Layout Catalogue
  Samples Errors Tpm2b MarshalFacts Tpm2bFacts Derive DeriveRun DeriveSpec DeriveProofs Declarations DeriveStruct.
From Verif Require Import DeriveStructFacts.
Import ListNotations.
Local Open Scope string_scope.
Local Open Scope list_scope.
Open Scope Z_scope.

(** ** C72 *)
(** Every declaration of the documented form is taken, and the implementation
    is for the type named in it. *)
Theorem C72_documented d name p t :
  documented d name p t -> derive_wrapper d = Ok (Wrapper name p t).
Proof. exact (c72_documented d name p t). Qed.
Print Assumptions C72_documented.

(** Exactly what is taken: the macro never panics, and everything but these is
    an error. *)
Theorem C72_taken d w :
  derive_wrapper d = Ok w <-> exists name p t, taken d name p t /\ w = Wrapper name p t.
Proof. exact (c72_taken d w). Qed.
Print Assumptions C72_taken.

Theorem C72_total d : is_panic (derive_wrapper d) = false.
Proof. exact (c72_total d). Qed.
Print Assumptions C72_total.

(** The form is not required: a function [size_of] of the user's with any
    value, and a second argument, are taken as well; and the same expression
    with the full path of the function is refused. *)
Theorem C72_form_refuted :
  (exists d name p t, derive_wrapper d = Ok (Wrapper name p t) /\ ~ documented d name p t)
  /\ exists fs name p t, sized_buffer fs name (size_of t)
     /\ derive_wrapper (SDecl (Struct fs)
          (ExCall (FnPath [Segment "core" SaNone; Segment "mem" SaNone; Segment "size_of" (SaAngle [GaPath p t])])))
        = Err SSizeOf.
Proof. exact c72_form_refuted. Qed.
Print Assumptions C72_form_refuted.

(** The generated functions, whatever the length of the array: if the encoding
    fits it and 16 bits, wrapping gives a well-formed sized buffer that holds
    the encoding, and unwrapping gives the value back ([canon]: bytes beyond the
    size of a sized buffer in it come back as zeros). *)
Theorem C72_generated w max v :
  wf_ty (w_type w) = true -> wf (w_type w) v = true ->
  (N.of_nat (length (enc (w_type w) v)) <= max)%N -> Z.of_nat (length (enc (w_type w) v)) < 65536 ->
  exists b, run_from_struct w max v = Ok b
    /\ wf (TTpm2b max) b = true /\ canonical (TTpm2b max) b
    /\ as_ref b = Ok (enc (w_type w) v)
    /\ run_to_struct w b = Ok (canon (w_type w) v)
    /\ (canonical (w_type w) v -> run_to_struct w b = Ok v).
Proof. exact (c72_generated w max v). Qed.
Print Assumptions C72_generated.

(** So with the documented form nothing can go wrong: every value of the named
    type fits, and the functions are those of C13 and C14. *)
Theorem C72_runs d name p t v :
  documented d name p t -> wf_ty t = true -> (size_of t < 65536)%N -> wf t v = true ->
  exists w b, derive_wrapper d = Ok w
    /\ run_from_struct w (size_of t) v = Ok b /\ from_struct t v = Ok b
    /\ as_ref b = Ok (enc t v)
    /\ run_to_struct w b = Ok (canon t v) /\ (canonical t v -> run_to_struct w b = Ok v).
Proof. exact (c72_runs d name p t v). Qed.
Print Assumptions C72_runs.

(** Each is declared as documented, with the declaration of C67, for the type
    named in it; and every value of that type goes in and out. *)
Theorem C72_library n field e t : In (n, field, e, t) wrappers ->
  exists d tb p, In (n, d, tb) declarations
    /\ documented (SDecl (d_data d) e) field p t /\ In (t, tb) wrapped
    /\ forall v, wf t v = true ->
         exists w b, derive_wrapper (SDecl (d_data d) e) = Ok w
           /\ run_from_struct w (size_of t) v = Ok b /\ wf tb b = true
           /\ as_ref b = Ok (enc t v)
           /\ run_to_struct w b = Ok (canon t v) /\ (canonical t v -> run_to_struct w b = Ok v).
Proof. exact (c72_library n field e t). Qed.
Print Assumptions C72_library.

Example C72_example :
  exists d name p b,
    documented d name p TpmsSensitiveCreate
    /\ wf TpmsSensitiveCreate sample_sensitive = true /\ canonical TpmsSensitiveCreate sample_sensitive
    /\ run_from_struct (Wrapper name p TpmsSensitiveCreate) (size_of TpmsSensitiveCreate) sample_sensitive = Ok b
    /\ get_size b = Z.of_nat (length (enc TpmsSensitiveCreate sample_sensitive))
    /\ run_to_struct (Wrapper name p TpmsSensitiveCreate) b = Ok sample_sensitive.
Proof. exact c72_example. Qed.

(** Wrong forms are refused. *)
Example C72_refused :
  derive_wrapper (SDecl Union ExOther) = Err SNotAStruct
  /\ derive_wrapper (SDecl (Struct Unit) (size_of_call ["T"] u8)) = Err (STpm2b [Tpm2bGeneral])
  /\ derive_wrapper (SDecl (Struct (Named [Field "size" [] (TyPath ["u16"] u16);
       Field "x" [] (TyArray 3 (TyPath ["u8"] u8) (VInt 0))])) ExOther) = Err SSizeOf.
Proof. exact c72_refused. Qed.
