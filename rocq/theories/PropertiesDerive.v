(** Properties of [#[derive(Marshalable)]] (C66-C68).  [accepted], [describes],
    [marked] and [shaped] are in DeriveSpec.v; [derive] is the macro (Derive.v),
    [run_marshal] and [run_unmarshal] run the code it generates (DeriveRun.v),
    [declarations] are the declarations of the library (Declarations.v). *)
(* Restates the theorems of DeriveFacts.v; proofs are there. *)
From Coq Require Import String ZArith NArith List Lia Bool.
From Coq Require Import Init.Byte.
From Verif Require Import Prelude Types Marshal WireSpec MarshalProofs MarshalFacts Layout Catalogue
  Samples Derive DeriveRun DeriveSpec DeriveProofs Declarations.
From Verif Require Import DeriveFacts.
Import ListNotations.
Local Open Scope string_scope.
Local Open Scope list_scope.
Open Scope Z_scope.

(** ** C66 *)
(** The macro accepts exactly the declarations its documentation describes. *)
Theorem C66_accepts d : (exists g, derive d = Ok g) <-> accepted d.
Proof. exact (c66_accepts d). Qed.
Print Assumptions C66_accepts.

(** It answers (code or error messages) for every declaration whose [length]
    attributes name their field by one identifier ... *)
Theorem C66_total_partial d :
  match d_data d with
  | Struct fs => simple_lengths fs
  | Enum _ vs => forall v, In v vs -> simple_lengths (v_fields v)
  | Union => True
  end ->
  derive d <> Panic.
Proof. exact (c66_total_partial d). Qed.
Print Assumptions C66_total_partial.

Theorem C66_total_refuted : exists d, derive d = Panic.
Proof. exact c66_total_refuted. Qed.
Print Assumptions C66_total_refuted.

Example C66_example :
  accepted (decl_counted ["count"]) /\ ~ accepted (decl_counted ["entries"])
  /\ derive (decl_counted ["size"]) = Err [LengthNotBefore].
Proof. exact c66_example. Qed.

Example C66_total_example : simple_lengths (Named [
    Field "count" [] (name "u8" u8);
    Field "entries" [FNameValue ["length"] (EPath ["size"] false false)] (arr 4 "u16" u16)]).
Proof. exact c66_total_example. Qed.


(** ** C67 *)
(** The code generated for a declaration reads and writes exactly as the
    marshalling of the type it describes does, on every buffer: same result, same
    bytes, same position. *)
Theorem C67_unmarshal d g t buf :
  derive d = Ok g -> describes d t -> rust_ok d ->
  run_unmarshal d g buf = unmarshal t buf.
Proof. exact (c67_unmarshal d g t buf). Qed.
Print Assumptions C67_unmarshal.

Theorem C67_marshal d g t v buf :
  derive d = Ok g -> describes d t -> rust_ok d -> shaped d v ->
  run_marshal d g v buf = marshal t v buf.
Proof. exact (c67_marshal d g t v buf). Qed.
Print Assumptions C67_marshal.

(** So the generated code keeps the round trip of C01. *)
Theorem C67_round_trip d g t v buf buf' n rest :
  derive d = Ok g -> describes d t -> rust_ok d -> shaped d v ->
  wf_ty t = true -> wf t v = true -> canonical t v ->
  run_marshal d g v buf = (buf', Ok n) ->
  run_unmarshal d g (firstn n buf' ++ rest) = (Ok v, rest).
Proof. exact (c67_round_trip d g t v buf buf' n rest). Qed.
Print Assumptions C67_round_trip.

(** Every declaration of the library is accepted and describes the type of the
    catalogue that C01-C53 are about. *)
Theorem C67_library n d t :
  In (n, d, t) declarations -> (exists g, derive d = Ok g) /\ describes d t /\ rust_ok d.
Proof. exact (c67_library n d t). Qed.
Print Assumptions C67_library.

Theorem C67_names n d t m u : In (n, d, t) declarations -> In (m, u) (mentions d) -> stands_for m u.
Proof. exact (c67_names n d t m u). Qed.
Print Assumptions C67_names.

(** No name is given twice. *)
Theorem C67_names_once : NoDup (["u8"; "u16"; "u32"; "u64"] ++ map (fun x => fst (fst x)) declarations ++ map fst aliases).
Proof. exact c67_names_once. Qed.
Print Assumptions C67_names_once.

Example C67_example :
  (exists d, In ("TpmsClockInfo", d, TpmsClockInfo) declarations)
  /\ shaped (decl_counted ["count"]) (VStruct [VInt 2; VArr [VInt 258; VInt 772; VInt 0; VInt 0]])
  /\ exists g, derive (decl_counted ["count"]) = Ok g
     /\ run_marshal (decl_counted ["count"]) g (VStruct [VInt 2; VArr [VInt 258; VInt 772; VInt 0; VInt 0]])
          (repeat xff 6) = ([x02; x01; x02; x03; x04; xff], Ok 5%nat)
     /\ run_unmarshal (decl_counted ["count"]) g [x02; x01; x02; x03; x04; xff]
        = (Ok (VStruct [VInt 2; VArr [VInt 258; VInt 772; VInt 0; VInt 0]]), [xff])
     /\ run_unmarshal (decl_counted ["count"]) g [x05; x01; x02] = (Err ArrayLengthExceeded, [x01; x02]).
Proof. exact c67_example. Qed.


(** ** C68 *)
(** A struct gets the code of a sized buffer exactly if [tpm2b_simple] stands
    alone or last in a [#[marshalable(..)]] on it; then it must consist of [size:
    u16] and an array of bytes. *)
Theorem C68_sized_partial d buffer max :
  derive d = Ok (GTpm2b buffer max)
  <-> marked d "tpm2b_simple"
      /\ exists fs, d_data d = Struct fs /\ sized_buffer fs buffer max /\ fields_ok fs.
Proof. exact (c68_sized_partial d buffer max). Qed.
Print Assumptions C68_sized_partial.

Theorem C68_listed_refuted :
  exists toks g g', In (TkPath ["tpm2b_simple"]) toks
  /\ derive (decl_name toks) = Ok g /\ derive (decl_name [TkPath ["tpm2b_simple"]]) = Ok g'
  /\ run_unmarshal (decl_name [TkPath ["tpm2b_simple"]]) g' [x00; x01; xaa]
     = (Ok (VTpm2b 1 [xaa; x00; x00]), [])
  /\ run_unmarshal (decl_name toks) g [x00; x01; xaa] = (Err UnexpectedEndOfBuffer, [])
  /\ run_marshal (decl_name toks) g (VStruct [VInt 1; VArr [VInt 170; VInt 0; VInt 0]]) (repeat xff 6)
     = ([x00; x01; xaa; x00; x00; xff], Ok 5%nat).
Proof. exact c68_listed_refuted. Qed.
Print Assumptions C68_listed_refuted.

Theorem C68_tuple_attributes_ignored d : derive (undecorated d) = derive d.
Proof. exact (c68_tuple_attributes_ignored d). Qed.
Print Assumptions C68_tuple_attributes_ignored.

(** [tpm2b_struct] without [tpm2b_simple] suppresses the implementation. *)
Theorem C68_struct_no_impl d g :
  derive d = Ok g -> marked d "tpm2b_struct" -> ~ marked d "tpm2b_simple" -> g = GNoImpl.
Proof. exact (c68_struct_no_impl d g). Qed.
Print Assumptions C68_struct_no_impl.

Example C68_example :
  marked (decl_name [TkPath ["tpm2b_simple"]]) "tpm2b_simple"
  /\ marked (decl_name [TkPath ["other"]; TkComma; TkPath ["tpm2b_simple"]]) "tpm2b_simple"
  /\ ~ marked (decl_name [TkPath ["tpm2b_simple"]; TkComma]) "tpm2b_simple"
  /\ derive (decl_name [TkPath ["tpm2b_simple"]]) = Ok (GTpm2b "name" 3)
  /\ derive (decl_name [TkPath ["tpm2b_struct"]]) = Ok GNoImpl.
Proof. exact c68_example. Qed.
