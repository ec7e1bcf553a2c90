(** pycep/bicep.lark:1-169, rule by rule.  The comment before each rule cites
    the line(s) it transcribes; [rule mods prio name alternatives].  Lark resolves
    the anonymous string "existing" to EXISTING (bicep.lark:173); the other
    anonymous strings are terminals named by their own text here. *)
From Coq Require Import List NArith String.
From Verif Require Import Lark.Ebnf.
Import ListNotations.
Local Open Scope string_scope.

Definition rule (name : string) (expand1 keep_all : bool) (prio : N)
  (alts : list (ebnf * option string)) : ruledef :=
  {| r_name := name; r_expand1 := expand1; r_keep_all := keep_all;
     r_prio := prio; r_alts := alts |}.

(** bicep.lark:1 *)
Definition g_start : ruledef := rule "start" false false 0
  [ (EStar (EAlt [ESeq [ENT "element"; EOpt (ETerm "_CPP_COMMENT_NL")]; ETerm "_CPP_COMMENT_NL"]), None) ].

(** bicep.lark:3-13 *)
Definition g_element : ruledef := rule "element" false false 0
  [ (ESeq [EStr "targetScope"; EStr "="; ETerm "QUOTED_INTERPOLATION"], Some "scope");
    (ESeq [EStr "import"; ENT "_import_statement"], Some "custom_import");
    (ESeq [EStr "extension"; ETerm "STRING"; EMaybe (ESeq [EStr "with"; ENT "object"]); EMaybe (ESeq [EStr "as"; ETerm "STRING"])], Some "extension");
    (ESeq [EStr "metadata"; ETerm "STRING"; EStr "="; ENT "metadata_value"], Some "metadata");
    (ESeq [EMaybe (ENT "decorators"); EStr "param"; ETerm "STRING"; ENT "data_type"; EOpt (EStr "?"); EMaybe (ESeq [EStr "="; ENT "value_brackets"])], Some "param");
    (ESeq [EMaybe (ENT "decorators"); EStr "var"; ETerm "STRING"; EMaybe (ESeq [ENT "data_type"; EOpt (EStr "?")]); EStr "="; ENT "var_value"], Some "var");
    (ESeq [EMaybe (ENT "decorators"); EStr "output"; ETerm "STRING"; ENT "data_type"; EOpt (EStr "?"); EStr "="; ENT "output_value"], Some "output");
    (ESeq [EMaybe (ENT "decorators"); EStr "resource"; ETerm "STRING"; ENT "type_api_pair"; EMaybe (ETerm "EXISTING"); EStr "="; ENT "resource_value"], Some "resource");
    (ESeq [EMaybe (ENT "decorators"); EStr "module"; ETerm "STRING"; ENT "module_path"; EStr "="; ENT "module_value"], Some "module");
    (ESeq [EMaybe (ENT "decorators"); EStr "type"; ETerm "STRING"; EStr "="; ENT "type_value"], Some "custom_type");
    (ESeq [EMaybe (ENT "decorators"); EStr "func"; ENT "_func_statement"], Some "custom_func") ].

(** bicep.lark:15-26 *)
Definition g_value : ruledef := rule "value" true false 0
  [ (ESeq [EOpt (ETerm "_NEWLINE"); EStr "null"], Some "null");
    (ESeq [EOpt (ETerm "_NEWLINE"); EStr "true"], Some "true");
    (ESeq [EOpt (ETerm "_NEWLINE"); EStr "false"], Some "false");
    (ESeq [EOpt (ETerm "_NEWLINE"); ETerm "INT"], Some "int_type");
    (ESeq [EOpt (ETerm "_NEWLINE"); ETerm "STRING"], Some "string");
    (ESeq [EOpt (ETerm "_NEWLINE"); ETerm "QUOTED_INTERPOLATION"], Some "string");
    (ETerm "MULTI_LINE_STRING", Some "multi_line_string");
    (ENT "array", None);
    (ENT "object", None);
    (ESeq [EOpt (ETerm "_NEWLINE"); ENT "function"], None);
    (ENT "operator", None);
    (ENT "lambda_expression", None) ].

(** bicep.lark:28 *)
Definition g_value_brackets : ruledef := rule "value_brackets" true false 0
  [ (ESeq [EAlt [ENT "value"; ESeq [EStr "("; ENT "value"; EStr ")"]]; EOpt (EStr "!")], None) ].

(** bicep.lark:32 *)
Definition g__import_statement : ruledef := rule "_import_statement" false false 0
  [ (EAlt [ESeq [EAlt [ESeq [EStr "{"; ENT "import_alias"; EStar (ESeq [EStr ","; ENT "import_alias"]); EStr "}"]; ENT "import_alias"]; EStr "from"; ETerm "QUOTED_INTERPOLATION"]; ETerm "QUOTED_INTERPOLATION"], None) ].

(** bicep.lark:34 *)
Definition g__func_statement : ruledef := rule "_func_statement" false false 0
  [ (ESeq [ETerm "STRING"; EStr "("; EOpt (ESeq [ETerm "STRING"; ENT "data_type"; EStar (ESeq [EStr ","; ETerm "STRING"; ENT "data_type"])]); EStr ")"; ENT "data_type"; EStr "=>"; ENT "value_brackets"], None) ].

(** bicep.lark:38 *)
Definition g_var_value : ruledef := rule "var_value" true false 0
  [ (ENT "value_brackets", None);
    (ENT "loop", None) ].

(** bicep.lark:40 *)
Definition g_metadata_value : ruledef := rule "metadata_value" true false 0
  [ (ETerm "QUOTED_INTERPOLATION", Some "string") ].

(** bicep.lark:42 *)
Definition g_output_value : ruledef := rule "output_value" true false 0
  [ (ENT "value_brackets", None);
    (ENT "loop", None) ].

(** bicep.lark:44 *)
Definition g_resource_value : ruledef := rule "resource_value" true false 0
  [ (ENT "object", None);
    (ENT "loop", None);
    (ENT "deploy_condition", None) ].

(** bicep.lark:46 *)
Definition g_module_value : ruledef := rule "module_value" true false 0
  [ (ENT "object", None);
    (ENT "loop", None);
    (ENT "deploy_condition", None) ].

(** bicep.lark:48 *)
Definition g_child_resource : ruledef := rule "child_resource" false false 0
  [ (ESeq [EStr "resource"; ETerm "STRING"; ETerm "QUOTED_INTERPOLATION"; EMaybe (ETerm "EXISTING"); EStr "="; EAlt [ENT "object"; ENT "loop"; ENT "deploy_condition"]; EPlus (ETerm "_CPP_COMMENT_NL")], None) ].

(** bicep.lark:50 *)
Definition g_type_value : ruledef := rule "type_value" true false 0
  [ (ESeq [ENT "value_brackets"; EStar (ESeq [EStr "|"; ENT "value_brackets"])], None) ].

(** bicep.lark:54 *)
Definition g_data_type : ruledef := rule "data_type" false false 0
  [ (ESeq [ENT "base_type"; EStar (ENT "array_suffix")], None) ].

(** bicep.lark:55 *)
Definition g_base_type : ruledef := rule "base_type" false false 0
  [ (ETerm "STRING", None);
    (ENT "union_type", None) ].

(** bicep.lark:56 *)
Definition g_union_type : ruledef := rule "union_type" false false 0
  [ (ESeq [EStr "("; ENT "data_type"; EPlus (ESeq [EStr "|"; ENT "data_type"]); EStr ")"], None) ].

(** bicep.lark:57 *)
Definition g_array_suffix : ruledef := rule "array_suffix" false false 0
  [ (ESeq [EStr "["; EStr "]"], None) ].

(** bicep.lark:59 *)
Definition g_type_api_pair : ruledef := rule "type_api_pair" false false 0
  [ (ETerm "QUOTED_INTERPOLATION", None) ].

(** bicep.lark:61 *)
Definition g_module_path : ruledef := rule "module_path" false false 0
  [ (ETerm "QUOTED_INTERPOLATION", None) ].

(** bicep.lark:63 *)
Definition g_import_alias : ruledef := rule "import_alias" false false 0
  [ (ESeq [EAlt [ETerm "STRING"; ERe "STAR_RE"]; EMaybe (ESeq [EStr "as"; ETerm "STRING"])], None) ].

(** bicep.lark:67 *)
Definition g_loop : ruledef := rule "loop" false false 0
  [ (ESeq [EStr "["; EOpt (ETerm "_CPP_COMMENT_NL"); EStr "for"; EAlt [ENT "loop_array"; ENT "loop_array_index"; ENT "loop_object"]; EStr ":"; EMaybe (ENT "value_brackets"); ENT "value_brackets"; EOpt (ETerm "_CPP_COMMENT_NL"); EStr "]"], None) ].

(** bicep.lark:69 *)
Definition g_loop_array : ruledef := rule "loop_array" false false 0
  [ (ESeq [ETerm "STRING"; EStr "in"; ENT "value_brackets"], None) ].

(** bicep.lark:71 *)
Definition g_loop_array_index : ruledef := rule "loop_array_index" false false 0
  [ (ESeq [EStr "("; ETerm "STRING"; EStr ","; ETerm "STRING"; EStr ")"; EStr "in"; ENT "value_brackets"], None) ].

(** bicep.lark:73 *)
Definition g_loop_object : ruledef := rule "loop_object" false false 0
  [ (ESeq [ETerm "STRING"; EStr "in"; EStr "items"; EStr "("; ENT "value_brackets"; EStr ")"], None) ].

(** bicep.lark:77 *)
Definition g_deploy_condition : ruledef := rule "deploy_condition" false false 0
  [ (ESeq [EOpt (ETerm "_CPP_COMMENT_NL"); EStr "if"; EStr "("; ENT "value_brackets"; EStr ")"; ENT "value_brackets"], None) ].

(** bicep.lark:81 *)
Definition g_quoted_string : ruledef := rule "quoted_string" true false 0
  [ (ETerm "STRING", None);
    (ETerm "QUOTED_STRING", None);
    (ETerm "QUOTED_INTERPOLATION", None) ].

(** bicep.lark:83 *)
Definition g_array : ruledef := rule "array" false false 0
  [ (ESeq [EStr "["; EStar (ETerm "_CPP_COMMENT_NL"); EStar (ESeq [ENT "value_brackets"; EStar (ESeq [EStr ","; ENT "value_brackets"]); EStar (ETerm "_CPP_COMMENT_NL")]); EStr "]"], None) ].

(** bicep.lark:85 *)
Definition g_object : ruledef := rule "object" false false 0
  [ (ESeq [EStr "{"; EStar (ETerm "_CPP_COMMENT_NL"); EStar (ESeq [EAlt [ESeq [ENT "pair"; EStar (ESeq [EStr ","; ENT "pair"])]; ENT "child_resource"]; EStar (ETerm "_CPP_COMMENT_NL")]); EStr "}"], None) ].

(** bicep.lark:87 *)
Definition g_pair : ruledef := rule "pair" false false 0
  [ (ESeq [ENT "key"; EStr ":"; EAlt [ENT "value_brackets"; ENT "loop"]; EOpt (EStr "?")], None) ].

(** bicep.lark:89 *)
Definition g_key : ruledef := rule "key" false true 0
  [ (EStr "resource", None);
    (ENT "quoted_string", None) ].

(** bicep.lark:91 *)
Definition g_lambda_expression : ruledef := rule "lambda_expression" false false 0
  [ (ESeq [EAlt [ENT "value_brackets"; ESeq [EStr "("; ENT "value_brackets"; EStr ","; ENT "value_brackets"; EPlus (ESeq [EStr ","; ENT "value_brackets"]); EStr ")"]]; EStr "=>"; ENT "value_brackets"], None) ].

(** bicep.lark:95 *)
Definition g_decorator : ruledef := rule "decorator" false false 0
  [ (ESeq [EStr "@"; ERe "DECO_NAME"; EStr "("; EOpt (ETerm "_CPP_COMMENT_NL"); EOpt (ENT "value_brackets"); EOpt (ETerm "_CPP_COMMENT_NL"); EStr ")"; ERep (ETerm "_CPP_COMMENT_NL") 0 10], None) ].

(** bicep.lark:96 *)
Definition g_decorators : ruledef := rule "decorators" false false 0
  [ (EPlus (ENT "decorator"), None) ].

(** bicep.lark:101 *)
Definition g_function : ruledef := rule "function" false false 0
  [ (ESeq [ETerm "FUNCTION"; EOpt (ETerm "_CPP_COMMENT_NL"); EOpt (ENT "value_brackets"); EStar (ESeq [EStr ","; EOpt (ETerm "_CPP_COMMENT_NL"); ENT "value_brackets"]); EOpt (ETerm "_CPP_COMMENT_NL"); EStr ")"], None) ].

(** bicep.lark:105 *)
Definition g_operator : ruledef := rule "operator" false false 0
  [ (ENT "operator_comparison", None);
    (ENT "operator_logical", None);
    (ENT "operator_numeric", None);
    (ENT "operator_accessor", None) ].

(** bicep.lark:109-110 *)
Definition g_operator_comparison : ruledef := rule "operator_comparison" true false 0
  [ (ENT "greater_than_or_equals", None);
    (ENT "greater_than", None);
    (ENT "less_than_or_equals", None);
    (ENT "less_than", None);
    (ENT "equals", None);
    (ENT "not_equals", None);
    (ENT "equals_case_insens", None);
    (ENT "not_equals_case_insens", None) ].

(** bicep.lark:112 *)
Definition g_greater_than_or_equals : ruledef := rule "greater_than_or_equals" false false 0
  [ (ESeq [ENT "value_brackets"; EStr ">="; ENT "value_brackets"], None) ].

(** bicep.lark:114 *)
Definition g_greater_than : ruledef := rule "greater_than" false false 0
  [ (ESeq [ENT "value_brackets"; EStr ">"; ENT "value_brackets"], None) ].

(** bicep.lark:116 *)
Definition g_less_than_or_equals : ruledef := rule "less_than_or_equals" false false 0
  [ (ESeq [ENT "value_brackets"; EStr "<="; ENT "value_brackets"], None) ].

(** bicep.lark:118 *)
Definition g_less_than : ruledef := rule "less_than" false false 0
  [ (ESeq [ENT "value_brackets"; EStr "<"; ENT "value_brackets"], None) ].

(** bicep.lark:120 *)
Definition g_equals : ruledef := rule "equals" false false 0
  [ (ESeq [ENT "value_brackets"; EStr "=="; ENT "value_brackets"], None) ].

(** bicep.lark:122 *)
Definition g_not_equals : ruledef := rule "not_equals" false false 0
  [ (ESeq [ENT "value_brackets"; EStr "!="; ENT "value_brackets"], None) ].

(** bicep.lark:124 *)
Definition g_equals_case_insens : ruledef := rule "equals_case_insens" false false 0
  [ (ESeq [ENT "value_brackets"; EStr "=~"; ENT "value_brackets"], None) ].

(** bicep.lark:126 *)
Definition g_not_equals_case_insens : ruledef := rule "not_equals_case_insens" false false 0
  [ (ESeq [ENT "value_brackets"; EStr "!~"; ENT "value_brackets"], None) ].

(** bicep.lark:130 *)
Definition g_operator_logical : ruledef := rule "operator_logical" true false 0
  [ (ENT "and_op", None);
    (ENT "or_op", None);
    (ENT "not_op", None);
    (ENT "coalesce", None);
    (ENT "conditional", None) ].

(** bicep.lark:132 *)
Definition g_and_op : ruledef := rule "and_op" false false 0
  [ (ESeq [ENT "value_brackets"; EStr "&&"; ENT "value_brackets"], None) ].

(** bicep.lark:134 *)
Definition g_or_op : ruledef := rule "or_op" false false 0
  [ (ESeq [ENT "value_brackets"; EStr "||"; ENT "value_brackets"], None) ].

(** bicep.lark:136 *)
Definition g_not_op : ruledef := rule "not_op" false false 0
  [ (ESeq [EStr "!"; ENT "value_brackets"], None) ].

(** bicep.lark:138 *)
Definition g_coalesce : ruledef := rule "coalesce" false false 0
  [ (ESeq [ENT "value_brackets"; EStr "??"; ENT "value_brackets"], None) ].

(** bicep.lark:140 *)
Definition g_conditional : ruledef := rule "conditional" false false 0
  [ (ESeq [ENT "value_brackets"; EStr "?"; ENT "value_brackets"; EStr ":"; ENT "value_brackets"], None) ].

(** bicep.lark:144 *)
Definition g_operator_numeric : ruledef := rule "operator_numeric" true false 0
  [ (ENT "add", None);
    (ENT "divide", None);
    (ENT "minus", None);
    (ENT "modulo", None);
    (ENT "multiply", None);
    (ENT "substract", None) ].

(** bicep.lark:146 *)
Definition g_add : ruledef := rule "add" false false 0
  [ (ESeq [ENT "value_brackets"; EStr "+"; ENT "value_brackets"], None) ].

(** bicep.lark:148 *)
Definition g_divide : ruledef := rule "divide" false false 0
  [ (ESeq [ENT "value_brackets"; EStr "/"; ENT "value_brackets"], None) ].

(** bicep.lark:150 *)
Definition g_minus : ruledef := rule "minus" false false 0
  [ (ESeq [EStr "-"; ENT "value_brackets"], None) ].

(** bicep.lark:152 *)
Definition g_modulo : ruledef := rule "modulo" false false 0
  [ (ESeq [ENT "value_brackets"; EStr "%"; ENT "value_brackets"], None) ].

(** bicep.lark:154 *)
Definition g_multiply : ruledef := rule "multiply" false false 0
  [ (ESeq [ENT "value_brackets"; EStr "*"; ENT "value_brackets"], None) ].

(** bicep.lark:156 *)
Definition g_substract : ruledef := rule "substract" false false 1
  [ (ESeq [ENT "value_brackets"; EStr "-"; ENT "value_brackets"], None) ].

(** bicep.lark:160 *)
Definition g_operator_accessor : ruledef := rule "operator_accessor" true false 0
  [ (ENT "index_accessor", None);
    (ENT "function_accessor", None);
    (ENT "nested_resource_accessor", None);
    (ENT "property_accessor", None) ].

(** bicep.lark:162 *)
Definition g_index_accessor : ruledef := rule "index_accessor" false false 0
  [ (ESeq [ENT "value_brackets"; EStr "["; EOpt (EStr "?"); ENT "value_brackets"; EStr "]"], None) ].

(** bicep.lark:164 *)
Definition g_function_accessor : ruledef := rule "function_accessor" false false 0
  [ (ESeq [ENT "value_brackets"; EStr "."; ETerm "LIST_FUNC_NAME"; EStr "("; EOpt (ENT "value_brackets"); EPlus (EMaybe (ESeq [EStr ","; ENT "value_brackets"])); EStr ")"], None) ].

(** bicep.lark:166 *)
Definition g_nested_resource_accessor : ruledef := rule "nested_resource_accessor" false false 0
  [ (ESeq [ENT "value_brackets"; EStr "::"; ENT "value_brackets"], None) ].

(** bicep.lark:169 *)
Definition g_property_accessor : ruledef := rule "property_accessor" false false 0
  [ (ESeq [ENT "value_brackets"; EStr "."; EOpt (EStr "?"); ENT "value_brackets"], None) ].

Definition bicep_rules : list ruledef :=
  [ g_start; g_element;
    g_value; g_value_brackets; g__import_statement; g__func_statement; g_var_value; g_metadata_value; g_output_value; g_resource_value; g_module_value; g_child_resource; g_type_value; g_data_type; g_base_type; g_union_type; g_array_suffix; g_type_api_pair; g_module_path; g_import_alias;
    g_loop; g_loop_array; g_loop_array_index; g_loop_object; g_deploy_condition; g_quoted_string; g_array;
    g_object; g_pair; g_key; g_lambda_expression;
    g_decorator; g_decorators; g_function;
    g_operator; g_operator_comparison; g_greater_than_or_equals; g_greater_than; g_less_than_or_equals; g_less_than; g_equals; g_not_equals; g_equals_case_insens; g_not_equals_case_insens; g_operator_logical;
    g_and_op; g_or_op; g_not_op; g_coalesce; g_conditional; g_operator_numeric;
    g_add; g_divide; g_minus; g_modulo; g_multiply; g_substract; g_operator_accessor;
    g_index_accessor; g_function_accessor; g_nested_resource_accessor; g_property_accessor ].

Definition bicep_prods : list prod := Eval vm_compute in compile bicep_rules.
