(** Specification: the outline [create_tree] prints for a program (C41).  It is a
    function of the program alone; nothing here refers to Lark, and layout, marks,
    parentheses, separators and keywords do not occur in it. *)
From Coq Require Import List Arith NArith Bool String.
From Verif Require Import Py.Str Spec.Types Spec.Spelling Spec.Syntax.
Import ListNotations.
Local Open Scope string_scope.

(** ** Outlines and their text *)
Inductive outline := Heading (name : str) (parts : list outline) | Entry (s : str).
Definition heading (n : string) (parts : list outline) : outline := Heading (u n) parts.
(** Rows: how far a row is indented, and what it says.  Every heading and every
    entry has a row of its own; the parts of a heading follow it, one step further
    to the right; but an entry that is the only part of a heading is put behind
    the heading, separated by a tab. *)
Fixpoint rows (depth : nat) (o : outline) : list (nat * str) :=
  match o with
  | Entry s => [(depth, s)]
  | Heading n [Entry s] => [(depth, n ++ [9%N] ++ s)]
  | Heading n parts => (depth, n) :: flat_map (rows (Datatypes.S depth)) parts
  end%list.
Definition row_text (r : nat * str) : str := (repeat 32%N (2 * fst r) ++ snd r ++ [10%N])%list.
Definition outline_text (o : outline) : str := flat_map row_text (rows 0 o).

(** ** The outline of a program *)
(** Something left out. *)
Definition nothing : outline := Entry (u "None").
Definition shown (t : tokn) : outline := Entry (text t).
Definition maybe_shown {A} (f : A -> outline) (o : option A) : outline := match o with Some a => f a | None => nothing end.
Definition op_name (o : binop) : string :=
  match o with
  | Ge => "greater_than_or_equals" | Gt => "greater_than" | Le => "less_than_or_equals" | Lt => "less_than"
  | Eq => "equals" | Ne => "not_equals" | EqI => "equals_case_insens" | NeI => "not_equals_case_insens"
  | And => "and_op" | Or => "or_op" | Coalesce => "coalesce" | Add => "add" | Div => "divide" | Mod => "modulo"
  | Mul => "multiply" | Sub => "substract"
  end.
Definition operation (n : string) (parts : list outline) : outline := heading "operator" [heading n parts].
Definition range_outline (r : ranges) (over : outline) : outline :=
  match r with
  | OverItems x => heading "loop_array" [Entry x; over]
  | OverIndexed x i => heading "loop_array_index" [Entry x; Entry i; over]
  | OverEntries x => heading "loop_object" [Entry x; over]
  end.
Definition key_outline (k : key) : outline := heading "key" [shown (key_token k)].
Definition existing_outline (b : bool) : outline := if b then Entry (u "existing") else nothing.
Fixpoint expr_outline (e : expr) : outline :=
  match e with
  | ENull => heading "null" []
  | EBool b => heading (if b then "true" else "false") []
  | EInt v => heading "int_type" [Entry v]
  | ERef v => heading "string" [Entry v]
  | EStr c => heading "string" [shown (Quoted c)]
  | EMulti c => heading "multi_line_string" [shown (Multi c)]
  | ENext _ a => expr_outline a
  | EArray _ rows => heading "array" (flat_map (fun r => let '(x, xs, _) := r in expr_outline x :: map expr_outline xs) rows)
  | EObject _ rows => heading "object" (flat_map (fun r => item_outlines (fst r)) rows)
  | ECall f _ first more _ =>
      heading "function" ([shown (Fun f)] ++ match first with Some x => [expr_outline x] | None => [] end ++ map (fun a => expr_outline (snd a)) more)
  | EBin o a b => operation (op_name o) [expr_outline a; expr_outline b]
  | ENot a => operation "not_op" [expr_outline a]
  | EMinus a => operation "minus" [expr_outline a]
  | ECond c a b => operation "conditional" [expr_outline c; expr_outline a; expr_outline b]
  | EDot _ a b => operation "property_accessor" [expr_outline a; expr_outline b]
  | EIndex _ a i => operation "index_accessor" [expr_outline a; expr_outline i]
  | ENested a b => operation "nested_resource_accessor" [expr_outline a; expr_outline b]
  | EMethod a f first more =>
      operation "function_accessor" ([expr_outline a; Entry f] ++ match first with Some x => [expr_outline x] | None => [] end ++
        match more with [] => [nothing] | _ => map expr_outline more end)
  | ELambda x b => heading "lambda_expression" [expr_outline x; expr_outline b]
  | ELambdas x y more b => heading "lambda_expression" ([expr_outline x; expr_outline y] ++ map expr_outline more ++ [expr_outline b])
  | EParen a | EBang a => expr_outline a
  | ELoop _ r over cond body _ =>
      heading "loop" [range_outline r (expr_outline over); match cond with Some c => expr_outline c | None => nothing end; expr_outline body]
  | EIf _ c body => heading "deploy_condition" [expr_outline c; expr_outline body]
  end%list
with item_outlines (i : item) : list outline :=
  match i with
  | Pairs k v _ more =>
      heading "pair" [key_outline k; expr_outline v] :: map (fun p => let '(k, v, _) := p in heading "pair" [key_outline k; expr_outline v]) more
  | Child n ty existing body =>
      [heading "child_resource" [Entry n; shown (Quoted ty); existing_outline existing; expr_outline body]]
  end.

(** A type: what it is an array of, then one row per pair of brackets. *)
Fixpoint array_depth (t : ty) : nat := match t with ArrayOf t => Datatypes.S (array_depth t) | _ => O end.
Fixpoint base_outline (t : ty) : outline :=
  match t with
  | Named n => Entry n
  | ArrayOf t => base_outline t
  | Union ts => heading "union_type" (map (fun t => heading "data_type" (heading "base_type" [base_outline t] :: repeat (heading "array_suffix" []) (array_depth t))) ts)
  end.
Definition type_outline (t : ty) : outline := heading "data_type" (heading "base_type" [base_outline t] :: repeat (heading "array_suffix" []) (array_depth t)).
Definition deco_outline (d : deco) : outline := heading "decorator" (Entry (d_name d) :: opt (fun e => [expr_outline e]) (d_arg d)).
Definition decos_outline (ds : list deco) : outline := match ds with [] => nothing | _ => heading "decorators" (map deco_outline ds) end.
Definition symbol_outline (s : symbol) : outline :=
  match s with SName v a => heading "import_alias" [Entry v; maybe_shown Entry a] | SAll a => heading "import_alias" [Entry (u "*"); maybe_shown Entry a] end.
Definition decl_outline (d : decl) : outline :=
  match d with
  | DScope c => heading "scope" [shown (Quoted c)]
  | DNamespace c => heading "custom_import" [shown (Quoted c)]
  | DImport s c => heading "custom_import" [symbol_outline s; shown (Quoted c)]
  | DImports s more c => heading "custom_import" ([symbol_outline s] ++ map symbol_outline more ++ [shown (Quoted c)])
  | DExtension n config alias => heading "extension" [Entry n; maybe_shown expr_outline config; maybe_shown Entry alias]
  | DMetadata n c => heading "metadata" [Entry n; heading "string" [shown (Quoted c)]]
  | DParam ds n t _ e => heading "param" [decos_outline ds; Entry n; type_outline t; maybe_shown expr_outline e]
  | DVar ds n t e => heading "var" [decos_outline ds; Entry n; maybe_shown (fun a => type_outline (fst a)) t; expr_outline e]
  | DOutput ds n t _ e => heading "output" [decos_outline ds; Entry n; type_outline t; expr_outline e]
  | DResource ds n c ex e =>
      heading "resource" [decos_outline ds; Entry n; heading "type_api_pair" [shown (Quoted c)]; existing_outline ex; expr_outline e]
  | DModule ds n c e => heading "module" [decos_outline ds; Entry n; heading "module_path" [shown (Quoted c)]; expr_outline e]
  | DType ds n e more =>
      heading "custom_type" [decos_outline ds; Entry n;
        match more with [] => expr_outline e | _ => heading "type_value" (expr_outline e :: map expr_outline more) end]
  | DFunc ds n params t e =>
      heading "custom_func" ([decos_outline ds; Entry n] ++ flat_map (fun p => [Entry (fst p); type_outline (snd p)]) params ++ [type_outline t; expr_outline e])
  end%list.
Definition line_outlines (l : line) : list outline := match l with Declared d _ => [decl_outline d] | Blank _ => [] end.
Definition program_outline (p : list line) : outline := heading "start" (flat_map line_outlines p).
