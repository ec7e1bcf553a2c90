(** From reductions to lark.Tree: lark/parse_tree_builder.py (ChildFilter,
    ExpandSingleChild, PropagatePositions) with the options of main.py:25:
    propagate_positions=True, maybe_placeholders=True (default). *)
From Coq Require Import List NArith PArith Bool String.
From Verif Require Import Py.Str Py.Val Lark.Tree Lark.Ebnf Lark.Lalr Lark.BicepGrammar
     Lark.BicepTables Lark.Driver.
Import ListNotations.
Local Open Scope string_scope.

(** Tree.data of a node; rules that never leave a node get [L_nocallback]. *)
Definition all_labels : list label :=
  [ L_start; L_scope; L_custom_import; L_extension; L_metadata; L_param; L_var; L_output;
    L_resource; L_module; L_custom_type; L_custom_func; L_null; L_true; L_false; L_int_type;
    L_string; L_multi_line_string; L_child_resource; L_type_value; L_data_type; L_base_type;
    L_union_type; L_array_suffix; L_type_api_pair; L_module_path; L_import_alias; L_loop;
    L_loop_array; L_loop_array_index; L_loop_object; L_deploy_condition; L_array; L_object;
    L_pair; L_key; L_lambda_expression; L_decorator; L_decorators; L_function; L_operator;
    L_greater_than_or_equals; L_greater_than; L_less_than_or_equals; L_less_than; L_equals;
    L_not_equals; L_equals_case_insens; L_not_equals_case_insens; L_and_op; L_or_op; L_not_op;
    L_coalesce; L_conditional; L_add; L_divide; L_minus; L_modulo; L_multiply; L_substract;
    L_index_accessor; L_function_accessor; L_nested_resource_accessor; L_property_accessor ].
Definition label_of (n : string) : label :=
  match List.find (fun l => str_eqb (label_name l) (u n)) all_labels with
  | Some l => l
  | None => L_nocallback
  end.

Definition prod_by_id : PM.t prod := Eval vm_compute in pm_of (number 1 bicep_prods).
Definition no_prod : prod :=
  {| p_lhs := ""; p_raw := []; p_alias := None; p_expand1 := false; p_prio := 0 |}.
Definition the_prod (p : positive) : prod :=
  match PM.find p prod_by_id with Some x => x | None => no_prod end.
Definition prod_label (p : prod) : label :=
  label_of (match p_alias p with Some a => a | None => p_lhs p end).

(** A value on Lark's value stack: the tree and, for nodes, meta.container_line /
    container_end_line. *)
Record sval := { sv_tree : ptree; sv_cont : meta }.

(** PropagatePositions._pp_get_meta, first component: start line. *)
Definition start_of (v : sval) : option N :=
  match sv_tree v with
  | TNode _ (Some (a, _)) _ => Some (match sv_cont v with Some (c, _) => c | None => a end)
  | TNode _ None _ => None
  | TTok t => Some (tline t)
  | TNone => None
  end.
Definition end_of (v : sval) : option N :=
  match sv_tree v with
  | TNode _ (Some (_, b)) _ => Some (match sv_cont v with Some (_, c) => c | None => b end)
  | TNode _ None _ => None
  | TTok t => Some (tend t)
  | TNone => None
  end.
Fixpoint first_some {A B} (f : A -> option B) (l : list A) : option B :=
  match l with
  | [] => None
  | x :: l' => match f x with Some b => Some b | None => first_some f l' end
  end.
(** PropagatePositions.__call__ *)
Definition span (raw : list sval) : meta :=
  match first_some start_of raw, first_some end_of (rev raw) with
  | Some a, Some b => Some (a, b)
  | _, _ => None
  end.
Definition propagate (raw : list sval) (res : ptree) : sval :=
  match res with
  | TNode l m cs =>
      {| sv_tree := TNode l (match m with Some _ => m | None => span raw end) cs;
         sv_cont := span raw |}
  | _ => {| sv_tree := res; sv_cont := None |}
  end.

(** ChildFilter: placeholders, dropped tokens, inlined rules. *)
Definition spliced (v : sval) : list ptree :=
  match sv_tree v with TNode _ _ cs => cs | _ => [] end.
Fixpoint select (raw : list rawsym) (vs : list sval) : list ptree :=
  match raw with
  | [] => []
  | Hole :: raw' => TNone :: select raw' vs
  | Sym _ sl :: raw' =>
      match vs with
      | [] => []
      | v :: vs' =>
          match sl with
          | Keep => sv_tree v :: select raw' vs'
          | Drop => select raw' vs'
          | Splice => spliced v ++ select raw' vs'
          end
      end
  end.
(** ExpandSingleChild: [?rule] alternatives without alias. *)
Definition build_node (p : prod) (children : list ptree) : ptree :=
  match p_expand1 p, p_alias p, children with
  | true, None, [c] => c
  | _, _, _ => TNode (prod_label p) None children
  end.

Fixpoint shape (c : cst) : sval :=
  match c with
  | Leaf _ t => {| sv_tree := TTok t; sv_cont := None |}
  | Br p cs =>
      let raw := map shape cs in
      propagate raw (build_node (the_prod p) (select (p_raw (the_prod p)) raw))
  end.

(** [Lark.parse]. *)
Definition lark_parse (E : pyenv) (text : str) : result ptree :=
  let* c := parse_cst E text in Ok (sv_tree (shape c)).
