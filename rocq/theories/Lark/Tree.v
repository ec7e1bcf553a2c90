(** Lark syntax trees as handed to the transformer (lark.Tree, lark.Token). *)
From Coq Require Import List NArith String.
From Verif Require Import Py.Str Py.Val.
Import ListNotations.

(** Labels (Tree.data) bicep.lark can produce: a rule's alias, else the rule
    name.  Rules starting with [_] are inlined; [?rule]s without alias always
    have exactly one child and leave no node ([L_nocallback] stands for such a
    node and is proved never to be produced). *)
Inductive label :=
| L_start
(* bicep.lark:3-13 *)
| L_scope | L_custom_import | L_extension | L_metadata | L_param | L_var
| L_output | L_resource | L_module | L_custom_type | L_custom_func
(* bicep.lark:15-26 *)
| L_null | L_true | L_false | L_int_type | L_string | L_multi_line_string
(* bicep.lark:48-63 *)
| L_child_resource | L_type_value | L_data_type | L_base_type | L_union_type
| L_array_suffix | L_type_api_pair | L_module_path | L_import_alias
(* bicep.lark:67-91 *)
| L_loop | L_loop_array | L_loop_array_index | L_loop_object | L_deploy_condition
| L_array | L_object | L_pair | L_key | L_lambda_expression
(* bicep.lark:95-105 *)
| L_decorator | L_decorators | L_function | L_operator
(* bicep.lark:112-126 *)
| L_greater_than_or_equals | L_greater_than | L_less_than_or_equals | L_less_than
| L_equals | L_not_equals | L_equals_case_insens | L_not_equals_case_insens
(* bicep.lark:132-140 *)
| L_and_op | L_or_op | L_not_op | L_coalesce | L_conditional
(* bicep.lark:146-156 *)
| L_add | L_divide | L_minus | L_modulo | L_multiply | L_substract
(* bicep.lark:162-169 *)
| L_index_accessor | L_function_accessor | L_nested_resource_accessor | L_property_accessor
| L_nocallback.

Definition label_name (l : label) : str :=
  match l with
  | L_start => u "start"
  | L_scope => u "scope" | L_custom_import => u "custom_import"
  | L_extension => u "extension" | L_metadata => u "metadata"
  | L_param => u "param" | L_var => u "var" | L_output => u "output"
  | L_resource => u "resource" | L_module => u "module"
  | L_custom_type => u "custom_type" | L_custom_func => u "custom_func"
  | L_null => u "null" | L_true => u "true" | L_false => u "false"
  | L_int_type => u "int_type" | L_string => u "string"
  | L_multi_line_string => u "multi_line_string"
  | L_child_resource => u "child_resource" | L_type_value => u "type_value"
  | L_data_type => u "data_type" | L_base_type => u "base_type"
  | L_union_type => u "union_type" | L_array_suffix => u "array_suffix"
  | L_type_api_pair => u "type_api_pair" | L_module_path => u "module_path"
  | L_import_alias => u "import_alias"
  | L_loop => u "loop" | L_loop_array => u "loop_array"
  | L_loop_array_index => u "loop_array_index" | L_loop_object => u "loop_object"
  | L_deploy_condition => u "deploy_condition"
  | L_array => u "array" | L_object => u "object" | L_pair => u "pair"
  | L_key => u "key" | L_lambda_expression => u "lambda_expression"
  | L_decorator => u "decorator" | L_decorators => u "decorators"
  | L_function => u "function" | L_operator => u "operator"
  | L_greater_than_or_equals => u "greater_than_or_equals"
  | L_greater_than => u "greater_than"
  | L_less_than_or_equals => u "less_than_or_equals" | L_less_than => u "less_than"
  | L_equals => u "equals" | L_not_equals => u "not_equals"
  | L_equals_case_insens => u "equals_case_insens"
  | L_not_equals_case_insens => u "not_equals_case_insens"
  | L_and_op => u "and_op" | L_or_op => u "or_op" | L_not_op => u "not_op"
  | L_coalesce => u "coalesce" | L_conditional => u "conditional"
  | L_add => u "add" | L_divide => u "divide" | L_minus => u "minus"
  | L_modulo => u "modulo" | L_multiply => u "multiply" | L_substract => u "substract"
  | L_index_accessor => u "index_accessor" | L_function_accessor => u "function_accessor"
  | L_nested_resource_accessor => u "nested_resource_accessor"
  | L_property_accessor => u "property_accessor"
  | L_nocallback => u "?"
  end.

(** lark.tree.Meta: [None] when the Meta object is empty (no attribute set),
    else first and last line. *)
Definition meta := option (N * N).

(** lark.Tree children: subtrees, tokens, and the [None] placeholders of
    optional brackets (maybe_placeholders=True). *)
Inductive ptree :=
| TNode (l : label) (m : meta) (cs : list ptree)
| TTok (t : token)
| TNone.

(** lark.tree.Tree.pretty (called in main.py:33), indent_str = "  ". *)
Definition indent (n : nat) : str := List.concat (repeat (u "  ") n).
Definition leaf_text (c : ptree) : str :=
  match c with TTok t => tval t | _ => u "None" end.
Fixpoint pretty_at (level : nat) (t : ptree) : str :=
  match t with
  | TNode l _ cs =>
      let head := indent level ++ label_name l in
      match cs with
      | [TNode _ _ _] | [] | _ :: _ :: _ =>
          head ++ [10%N] ++ List.concat (map (pretty_at (S level)) cs)
      | [leaf] => head ++ [9%N] ++ leaf_text leaf ++ [10%N]
      end
  | TTok tok => indent level ++ tval tok ++ [10%N]
  | TNone => indent level ++ u "None" ++ [10%N]
  end.
Definition pretty (t : ptree) : str := pretty_at 0 t.
