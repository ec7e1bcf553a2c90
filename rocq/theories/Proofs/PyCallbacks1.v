(** pycep/transformer.py: running its text is calling the model's callbacks.
    Part 1: operators, literals, names. *)
From Coq Require Import List NArith ZArith Bool String Lia.
From Verif Require Import Py.Str Py.Val Python.Syntax Python.Eval Python.Program Proofs.Base Proofs.PyHeap Proofs.PyRun Proofs.PyLoops Proofs.PyMethods.
From Verif Require Import Pycep.Utils Lark.Tree.
From Verif Require Pycep.Transformer.
Import ListNotations.
Local Open Scope string_scope.
Section C.
  Variable E : pyenv.
  Variable rt : Pycep.Main.path -> result str.
  Lemma text_greater_than_or_equals : cb_like E rt "greater_than_or_equals" (Transformer.cb_binary "greater_than_or_equals").
  Proof. cb 3. Qed.
  Lemma text_greater_than : cb_like E rt "greater_than" (Transformer.cb_binary "greater_than").
  Proof. cb 3. Qed.
  Lemma text_less_than_or_equals : cb_like E rt "less_than_or_equals" (Transformer.cb_binary "less_than_or_equals").
  Proof. cb 3. Qed.
  Lemma text_less_than : cb_like E rt "less_than" (Transformer.cb_binary "less_than").
  Proof. cb 3. Qed.
  Lemma text_equals : cb_like E rt "equals" (Transformer.cb_binary "equals").
  Proof. cb 3. Qed.
  Lemma text_not_equals : cb_like E rt "not_equals" (Transformer.cb_binary "not_equals").
  Proof. cb 3. Qed.
  Lemma text_equals_case_insens : cb_like E rt "equals_case_insens" (Transformer.cb_binary "equals_case_insensitive").
  Proof. cb 3. Qed.
  Lemma text_not_equals_case_insens : cb_like E rt "not_equals_case_insens" (Transformer.cb_binary "not_equals_case_insensitive").
  Proof. cb 3. Qed.
  Lemma text_add : cb_like E rt "add" (Transformer.cb_binary "add").
  Proof. cb 3. Qed.
  Lemma text_divide : cb_like E rt "divide" (Transformer.cb_binary "divide").
  Proof. cb 3. Qed.
  Lemma text_modulo : cb_like E rt "modulo" (Transformer.cb_binary "modulo").
  Proof. cb 3. Qed.
  Lemma text_multiply : cb_like E rt "multiply" (Transformer.cb_binary "multiply").
  Proof. cb 3. Qed.
  Lemma text_substract : cb_like E rt "substract" (Transformer.cb_binary "substract").
  Proof. cb 3. Qed.
  Lemma text_index_accessor : cb_like E rt "index_accessor" (Transformer.cb_binary "index_accessor").
  Proof. cb 3. Qed.
  Lemma text_nested_resource_accessor : cb_like E rt "nested_resource_accessor" (Transformer.cb_binary "nested_resource_accessor").
  Proof. cb 3. Qed.
  Lemma text_property_accessor : cb_like E rt "property_accessor" (Transformer.cb_binary "property_accessor").
  Proof. cb 3. Qed.
  Lemma text_operator : cb_like E rt "operator" Transformer.cb_operator.
  Proof. cb 1. Qed.
  Lemma text_conditional : cb_like E rt "conditional" Transformer.cb_conditional.
  Proof. cb 4. Qed.
  Lemma text_key : cb_like E rt "key" (Transformer.cb_key E).
  Proof. cb 1. Qed.
  Lemma text_loop_array_index : cb_like E rt "loop_array_index" (Transformer.cb_loop_array_index E).
  Proof. cb 4. Qed.
  Lemma text_loop_array : cb_like E rt "loop_array" (Transformer.cb_loop_array E).
  Proof. cb 3. Qed.
  Lemma text_loop_object : cb_like E rt "loop_object" (Transformer.cb_loop_object E).
  Proof. cb 3. Qed.
  Lemma text_import_alias : cb_like E rt "import_alias" (Transformer.cb_import_alias E).
  Proof. cb 3. Qed.
  Lemma text_deploy_condition : cb_like E rt "deploy_condition" Transformer.cb_deploy_condition.
  Proof. cb 3. Qed.
  Lemma text_not_op : cb_like E rt "not_op" Transformer.cb_not_op.
  Proof. cb 1. Qed.
  Lemma text_minus : cb_like E rt "minus" Transformer.cb_minus.
  Proof. cb 1. Qed.
  Lemma text_decorators : cb_like E rt "decorators" (fun args => Ok (PList args)).
  Proof. cb 0. Qed.
  Lemma text_null : cb_like E rt "null" (fun _ => Ok PNone).
  Proof. cb 0. Qed.
  Lemma text_true : cb_like E rt "true" (fun _ => Ok (PBool true)).
  Proof. cb 0. Qed.
  Lemma text_false : cb_like E rt "false" (fun _ => Ok (PBool false)).
  Proof. cb 0. Qed.
  Lemma text_array_suffix : cb_like E rt "array_suffix" (fun _ => Ok PNone).
  Proof. cb 0. Qed.
  Lemma text_union_type : cb_like E rt "union_type" Transformer.cb_union_type.
  Proof. cb 0. Qed.
  Lemma text_base_type : cb_like E rt "base_type" Transformer.cb_base_type.
  Proof. cb 1. Qed.
  Lemma text_pair : cb_like E rt "pair" Transformer.cb_pair.
  Proof. cb 3. Qed.
  Lemma text_int_type : cb_like E rt "int_type" (Transformer.cb_int_type E).
  Proof. cb 1. Qed.
  Lemma text_string : cb_like E rt "string" Transformer.cb_string.
  Proof. cb 1. Qed.
  Lemma text_multi_line_string : cb_like E rt "multi_line_string" (Transformer.cb_multi_line_string E).
  Proof. cb 1. Qed.
  Lemma text_type_api_pair : cb_like E rt "type_api_pair" (Transformer.cb_type_api_pair E).
  Proof.
    cb0; args 1; [finish|]. run. destruct (split_char 64 (slice_1_m1 (py_str E p))) as [|a [|b [|c r]]]; finish.
  Qed.
  Lemma text_and_op : cb_like E rt "and_op" (Transformer.cb_nary "and").
  Proof. num_cb 2 "operand_" (fun z => (z + 3)%Z) 3%N 0%Z. Qed.
  Lemma text_or_op : cb_like E rt "or_op" (Transformer.cb_nary "or").
  Proof. num_cb 2 "operand_" (fun z => (z + 3)%Z) 3%N 0%Z. Qed.
  Lemma text_coalesce : cb_like E rt "coalesce" (Transformer.cb_nary "coalesce").
  Proof. num_cb 2 "operand_" (fun z => (z + 3)%Z) 3%N 0%Z. Qed.
End C.
