(** C41: the text [create_tree] returns is the outline of the program. *)
From Coq Require Import List Arith NArith ZArith Bool String Lia.
From Verif Require Import Py.Str Py.Val Lark.Tree Lark.Shape Lark.Terminals Pycep.Utils Pycep.Main Pycep.Bicep
  Spec.Lexemes Spec.Schema Spec.Program Spec.Reports Spec.Declarations Spec.Outcomes Spec.Calls Spec.Text Spec.Trees Spec.Types Spec.Spelling Spec.Syntax Spec.Outline Spec.Numbering
  Proofs.Base Proofs.EndToEnd Proofs.Documents Proofs.DerivePrograms Proofs.Outline Proofs.Write Proofs.SpellCheck
  Props.Calls Props.Documents Props.Numbering Props.Syntax Props.Meaning.
Import ListNotations.
Local Open Scope string_scope.

(** ** C41 *)
Theorem C41_outline : forall E fs p text fp t, program_wf false p = true -> source fs text fp t -> writes E p t -> balanced t ->
  bicep_create_tree E fs text fp = Ok (outline_text (program_outline p)).
Proof.
  intros E fs p text fp t W S Wr (n & B & B'). destruct (written E p t W Wr) as (x & P & T & _).
  rewrite (tree_source E fs _ _ _ S), (is_valid_occurs _ _ B). apply Nat.even_spec in B'. rewrite B', P. cbn [bind]. f_equal.
  rewrite <- pretty_program. apply same_pretty. exact T.
Qed.

(** The outline of the program in Props/Meaning.v. *)
Definition outlined (rows : list string) : str := flat_map (fun r => (u r ++ [10%N])%list) rows.
Definition tab : string := String (Ascii.ascii_of_nat 9) EmptyString.
Example C41_ex : bicep_create_tree env0 ex_fs (Some big_text) None = Ok (outline_text (program_outline big_program)).
Proof.
  apply (C41_outline env0 ex_fs big_program (Some big_text) None big_text).
  - reflexivity.
  - apply ex_source. do 2 eexists. reflexivity.
  - apply spell_check_sound. vm_compute. reflexivity.
  - apply balanced_valid. reflexivity.
Qed.
(** A small one in full. *)
Example C41_small : bicep_create_tree env0 ex_fs (Some (u ("@secure()" ++ nl ++ "param p string[]" ++ nl ++ "output o bool = !f(p.a, true)"))) None = Ok (outlined
  ["start"; "  param"; "    decorators"; "      decorator" ++ tab ++ "secure"; "    p"; "    data_type"; "      base_type" ++ tab ++ "string"; "      array_suffix"; "    None";
   "  output"; "    None"; "    o"; "    data_type"; "      base_type" ++ tab ++ "bool"; "    operator"; "      not_op"; "        function"; "          f(";
   "          operator"; "            property_accessor"; "              string" ++ tab ++ "p"; "              string" ++ tab ++ "a"; "          true"]).
Proof. vm_compute. reflexivity. Qed.

Definition outline_theorems := (@C41_outline).
Print Assumptions outline_theorems.
