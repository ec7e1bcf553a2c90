(** Specification: what a program is reported as, by recursion over its abstract
    syntax (C26, C37, C39).  Line numbers are left out. *)
From Coq Require Import List Arith NArith ZArith Bool String.
From Verif Require Import Py.Str Py.Val Lark.Tree Spec.Schema Spec.Lexemes Spec.Values Spec.Functions Spec.Program Spec.Types Spec.Spelling Spec.Syntax.
Import ListNotations.
Local Open Scope string_scope.

(** ** Sequences of parts: the reports in order, or the first exception *)
Section Collect.
  Context {A B : Type}.
  Variable f : A -> result (list B).
  Fixpoint collect (l : list A) : result (list B) :=
    match l with
    | [] => Ok []
    | a :: l' => let* x := f a in let* y := collect l' in Ok (x ++ y)%list
    end.
End Collect.
Definition single {A} (r : result A) : result (list A) := let* v := r in Ok [v].
(** An exception while the construct [rule] is reported. *)
Definition within_rule {A} (rule : string) (r : result A) : result A :=
  match r with Ok a => Ok a | Err e => Err (EVisitError (u rule) e) end.

(** ** Pieces *)
(** The number that is written with the decimal digits [v]. *)
Definition number (v : str) : N := fold_left (fun n c => 10 * n + (c - 48))%N v 0%N.
(** One line feed at the beginning of a multi-line string is dropped. *)
Definition trim (c : str) : str := match c with (10%N) :: c' => c' | _ => c end.
Definition op_name (o : binop) : string :=
  match o with
  | Ge => "greater_than_or_equals" | Gt => "greater_than" | Le => "less_than_or_equals" | Lt => "less_than"
  | Eq => "equals" | Ne => "not_equals" | EqI => "equals_case_insensitive" | NeI => "not_equals_case_insensitive"
  | And => "and" | Or => "or" | Coalesce => "coalesce"
  | Add => "add" | Div => "divide" | Mod => "modulo" | Mul => "multiply" | Sub => "substract"
  end.
Definition binary (name : string) (a b : pyval) : pyval := operation (op_report name [(u "operand_1", a); (u "operand_2", b)]).
Definition key_text (k : key) : str := match k with KName v => v | KQuoted c => quote c | KResource => u "resource" end.

Section Meaning.
  Variable E : pyenv.

  Definition lambda_report (vars : list pyval) (b : pyval) : pyval :=
    PDict [(u "type", PStr (u "lambda_expression"));
           (u "detail", PDict (listed "var_" 1 (map (fun v => PStr (py_str E v)) vars) ++ [(u "expression", b)]))]%list.
  Definition range_report (r : ranges) (over : pyval) : pyval :=
    match r with
    | OverItems x => source_report "array" [(u "item_name", PStr x); (u "array_name", over)]
    | OverIndexed x i => source_report "array_index" [(u "item_name", PStr x); (u "index_name", PStr i); (u "array_name", over)]
    | OverEntries x => source_report "object" [(u "item_name", PStr x); (u "object_name", PStr (py_str E over))]
    end.
  (** The filter of a loop: [if(c)] is read as a call and stands for [c].  What
      counts is the report, so an object written like one is unpacked too. *)
  Definition condition (c : pyval) : result pyval :=
    match c with
    | PDict d =>
        match aget (u "function") d with
        | None => Ok c
        | Some (PDict f) =>
            match aget (u "type") f with
            | Some t => if eq_lit t (u "if") then let* ps := py_getitem (PDict f) (u "parameters") in py_getitem ps (u "arg_1") else Ok c
            | None => Ok c
            end
        | Some _ => Err EAttributeError
        end
    | _ => Ok c
    end.

  (** ** Expressions *)
  Fixpoint report (e : expr) : result pyval :=
    match e with
    | ENull => Ok PNone
    | EBool b => Ok (PBool b)
    | EInt v => if Nat.leb (List.length v) digit_limit then Ok (PInt (Z.of_N (number v))) else Err (EVisitError (u "int_type") (EValueError []))
    | ERef v => Ok (PElem v)
    | EStr c => Ok (PStr c)
    | EMulti c => Ok (PStr (trim c))
    | ENext _ a | EParen a | EBang a => report a
    | EArray _ rows =>
        let* vs := collect (fun r => let '(x, xs, _) := r in
          let* v := report x in let* vs := collect (fun y => single (report y)) xs in Ok (v :: vs)) rows in
        Ok (PList vs)
    | EObject _ rows => let* ps := collect (fun r => item_report (fst r)) rows in Ok (PDict (dict_of ps))
    | ECall f _ first more _ =>
        let* v := match first with Some x => single (report x) | None => Ok [] end in
        let* vs := collect (fun a => single (report (snd a))) more in call_report f (v ++ vs)
    | EBin o a b => let* va := report a in let* vb := report b in Ok (binary (op_name o) va vb)
    | ENot a => let* va := report a in Ok (operation (op_report "not" [(u "bool_value", va)]))
    | EMinus a => let* va := report a in Ok (operation (op_report "minus" [(u "integer_value", va)]))
    | ECond c a b =>
        let* vc := report c in let* va := report a in let* vb := report b in
        Ok (operation (op_report "conditional" [(u "condition", vc); (u "true_value", va); (u "false_value", vb)]))
    | EDot _ a b => let* va := report a in let* vb := report b in Ok (binary "property_accessor" va vb)
    | EIndex _ a i => let* va := report a in let* vi := report i in Ok (binary "index_accessor" va vi)
    | ENested a b => let* va := report a in let* vb := report b in Ok (binary "nested_resource_accessor" va vb)
    | EMethod a f first more =>
        let* va := report a in
        let* v := match first with Some x => single (report x) | None => Ok [] end in
        let* vs := collect (fun y => single (report y)) more in
        Ok (operation (op_report "function_accessor" ((u "operand_1", va) :: (u "func_name", PStr f) :: kept 2 (v ++ vs))))
    | ELambda x b => let* vx := report x in let* vb := report b in Ok (lambda_report [vx] vb)
    | ELambdas x y more b =>
        let* vx := report x in let* vy := report y in let* vs := collect (fun z => single (report z)) more in let* vb := report b in
        Ok (lambda_report (vx :: vy :: vs) vb)
    | ELoop _ r over cond body _ =>
        let* vo := report over in
        let* vc := match cond with Some c => report c | None => Ok PNone end in
        let* vb := report body in
        let* c := within_rule "loop" (condition vc) in
        Ok (loop_report (range_report r vo) c vb)
    | EIf _ c body => let* vc := report c in let* vb := report body in Ok (PDict [(u "condition", vc); (u "config", vb)])
    end
  (** The pairs an item adds to its object.  A child resource is kept under a
      reserved key; the resource around it, if any, takes it out (below). *)
  with item_report (i : item) : result (list (str * pyval)) :=
    match i with
    | Pairs k v _ more =>
        let* x := report v in
        let* ps := collect (fun p => let '(k', v', _) := p in let* x' := report v' in Ok [(key_text k', x')]) more in
        Ok ((key_text k, x) :: ps)
    | Child n ty ex body =>
        let* v := report body in
        Ok [(Schema.reserved_key, PDict [(u "__name__", PStr n); (u "__attrs__", PDict
          [(u "decorators", PList []); (u "type", PStr ty); (u "api_version", PStr []); (u "existing", PBool ex); (u "config", v)])])]
    end.

  (** ** Decorators *)
  Definition lower_bound (a : pyval) : result pyval :=
    match a with
    | PDict d =>
        match aget (u "operator") d with
        | None => Ok a
        | Some (PDict o) =>
            match aget (u "type") o with
            | Some t => if eq_lit t (u "minus")
                        then let* x := py_getitem (PDict o) (u "operands") in let* y := py_getitem x (u "integer_value") in py_times_minus_one y
                        else Ok a
            | None => Ok a
            end
        | Some _ => Err EAttributeError
        end
    | _ => Ok a
    end.
  Definition known_deco (n : str) : option (string * takes) :=
    match find (fun d => str_eqb n (u (fst d)) || str_eqb n (u "sys." ++ u (fst d))%list) decorators_known with
    | Some (_, x) => Some x
    | None => None
    end.
  Definition deco_value (n : str) (arg : option pyval) : result pyval :=
    match known_deco n with
    | None => Ok (match arg with None => flag n | Some a => marked n a end)
    | Some (ty, NoArgument) => Ok (flag (u ty))
    | Some (ty, k) =>
        match arg with
        | None => Err EIndexError
        | Some a =>
            let* v := match k with LowerBound => lower_bound a | UpperBound => let* z := py_int E a in Ok (PInt z) | _ => Ok a end in
            Ok (marked (u ty) v)
        end
    end.
  Definition deco_report (d : deco) : result pyval :=
    let* a := match d_arg d with Some e => let* v := report e in Ok (Some v) | None => Ok None end in
    within_rule "decorator" (deco_value (d_name d) a).
  Definition decos_report (ds : list deco) : result pyval :=
    let* vs := collect (fun d => single (deco_report d)) ds in Ok (PList vs).

  (** ** References *)
  (** The runs of an instance of the template, each as long as possible. *)
  Fixpoint longest (c : N -> bool) (s : str) : str * str :=
    match s with
    | x :: s' => if c x then let '(a, b) := longest c s' in (x :: a, b) else ([], s)
    | [] => ([], [])
    end.
  Fixpoint strip (p s : str) : option str :=
    match p, s with
    | [], _ => Some s
    | x :: p', y :: s' => if (x =? y)%N then strip p' s' else None
    | _, [] => None
    end.
  Fixpoint runs (tpl : list segment) (s : str) : option (list str) :=
    match tpl with
    | [] => Some []
    | Fixed l :: tpl' => match strip (u l) s with Some s' => runs tpl' s' | None => None end
    | Run c :: tpl' =>
        match longest c s with
        | ([], _) => None
        | (g, s') => match runs tpl' s' with Some gs => Some (g :: gs) | None => None end
        end
    end.
  Definition starts (p : string) (s : str) : bool := match strip (u p) s with Some _ => true | None => false end.
  Definition reference (s : str) : result pyval :=
    if starts "br:" s then
      match runs (public_ref E) s, runs (private_ref E) s with
      | Some [path; tag], _ =>
          Ok (refers "bicep_registry" [full_of s; (u "registry_name", PStr (u "mcr.microsoft.com"));
            (u "path", PStr path); (u "tag", PStr tag); (u "public", PBool true)])
      | _, Some [registry; path; tag] =>
          Ok (refers "bicep_registry" [full_of s; (u "registry_name", PStr registry);
            (u "path", PStr path); (u "tag", PStr tag); (u "public", PBool false)])
      | _, _ => Err (EValueError (u "Bicep registry path is invalid: " ++ s)%list)
      end
    else if starts "br/" s then
      match runs (alias_ref E) s with
      | Some [alias; path; tag] =>
          Ok (refers "bicep_registry_alias" [full_of s; (u "alias", PStr alias);
            (u "path", PStr path); (u "tag", PStr tag); (u "public", PBool (str_eqb alias (u "public")))])
      | _ => Err (EValueError (u "Bicep registry alias is invalid: " ++ s)%list)
      end
    else if starts "ts:" s then
      match runs (spec_ref E) s with
      | Some [sub; rg; name; version] =>
          Ok (refers "template_spec" [full_of s; (u "subscription_id", PStr sub);
            (u "resource_group_id", PStr rg); (u "name", PStr name); (u "version", PStr version)])
      | _ => Err (EValueError (u "Template spec path is invalid: " ++ s)%list)
      end
    else if starts "ts/" s then
      match runs (spec_alias_ref E) s with
      | Some [alias; path; tag] =>
          Ok (refers "template_spec_alias" [full_of s; (u "alias", PStr alias); (u "path", PStr path); (u "tag", PStr tag)])
      | _ => Err (EValueError (u "Template spec alias is invalid: " ++ s)%list)
      end
    else Ok (refers "local" [(u "full", PStr s); (u "path", PStr s)]).

  (** ** Child resources *)
  Definition add_depends (n : str) (cfg : list (str * pyval)) : result (list (str * pyval)) :=
    match aget (u "depends_on") cfg with
    | None => Ok (cfg ++ [(u "depends_on", PList [PElem n])])%list
    | Some (PList l) => Ok (aset (u "depends_on") (PList (l ++ [PElem n])) cfg)
    | Some _ => Err EAttributeError
    end.
  Definition ordinary_pairs (i : item) : result (list (str * pyval)) := match i with Child _ _ _ _ => Ok [] | _ => item_report i end.
  Definition entry_of (kind : string) (name : str) (attrs : list (str * pyval)) : entry :=
    {| e_kind := u kind; e_name := name; e_attrs := PDict attrs |}.
  (** The configuration reported for a resource, and the entries of the children
      in its body: of several children of one body only the last is reported. *)
  Fixpoint lift (n ty api : str) (body : expr) : result (list (str * pyval) * list entry) :=
    match body with
    | EObject _ rows =>
        let* ps := collect (fun r => ordinary_pairs (fst r)) rows in
        let* ch := fold_left (fun acc r =>
          match fst r with
          | Child c cty ex b =>
              let name := (n ++ u "__" ++ c)%list in
              let type := (ty ++ u "/" ++ cty)%list in
              let* (cfg, more) := lift name type api b in
              let* cfg := add_depends n cfg in
              Ok (entry_of "resources" name
                    [(u "decorators", PList []); (u "type", PStr type); (u "api_version", PStr api); (u "existing", PBool ex);
                     (u "config", PDict cfg)] :: more)
          | _ => acc
          end) rows (Ok []) in
        Ok (dict_of ps, ch)
    | _ => let* v := report body in match v with PDict d => Ok (d, []) | _ => Err EAttributeError end
    end.

  (** ** Declarations *)
  (** The entry of the declaration, of the symbols it imports, of the children in it. *)
  Definition entries := (list entry * list entry * list entry)%type.
  Definition own (kind : string) (name : str) (attrs : list (str * pyval)) : entries := ([entry_of kind name attrs], [], []).
  Definition alias_attr (a : option str) : list (str * pyval) := opt (fun n => [(u "alias", PStr n)]) a.
  Definition import_report (path : str) (s : symbol) : entry :=
    match s with
    | SName v a => entry_of "imports" v ((u "file_path", PStr path) :: alias_attr a)
    | SAll a => entry_of "imports" (u "*") ((u "file_path", PStr path) :: alias_attr a)
    end.
  Definition or_null (o : option expr) : result pyval := match o with Some e => report e | None => Ok PNone end.
  Definition decl_report (d : decl) : result entries :=
    match d with
    | DScope c =>
        if existsb (str_eqb c) (map u ["resourceGroup"; "subscription"; "managementGroup"; "tenant"])
        then Ok (own "globals" (u "scope") [(u "value", PStr c)])
        else Err (EVisitError (u "scope") (EValueError (u "target scope is invalid: " ++ c)%list))
    | DNamespace c => Ok ([], [entry_of "imports" c []], [])
    | DImport s c => Ok ([], [import_report c s], [])
    | DImports s more c => Ok ([], map (import_report c) (s :: more), [])
    | DExtension n config alias =>
        let* v := or_null config in
        Ok (own "extensions" n ((if truthy v then [(u "config", v)] else []) ++ alias_attr alias))%list
    | DMetadata n c => Ok (own "metadata" n [(u "value", PStr c)])
    | DParam ds n t _ e =>
        let* vd := decos_report ds in let* v := or_null e in
        Ok (own "parameters" n [(u "decorators", vd); (u "type", ty_report t); (u "default", v)])
    | DVar ds n t e =>
        let* vd := decos_report ds in let* v := report e in
        Ok (own "variables" n ([(u "decorators", vd); (u "value", v)] ++ opt (fun a => [(u "type", ty_report (fst a))]) t))%list
    | DOutput ds n t _ e =>
        let* vd := decos_report ds in let* v := report e in
        Ok (own "outputs" n [(u "decorators", vd); (u "type", ty_report t); (u "value", v)])
    | DResource ds n c ex e =>
        let* vd := decos_report ds in
        match split_char 64 c with
        | [ty; api] =>
            let* _ := report e in
            let* (cfg, children) := within_rule "resource" (lift n ty api e) in
            Ok ([entry_of "resources" n [(u "decorators", vd); (u "type", PStr ty); (u "api_version", PStr api);
                   (u "existing", PBool ex); (u "config", PDict cfg)]], [], children)
        | _ => Err (EVisitError (u "type_api_pair") (EValueError []))
        end
    | DModule ds n c e =>
        let* vd := decos_report ds in
        let* p := within_rule "module_path" (reference c) in
        let* v := report e in
        match p with
        | PDict [(_, kind); (_, detail)] =>
            Ok (own "modules" n [(u "decorators", vd); (u "type", kind); (u "detail", detail); (u "config", v)])
        | _ => Err EKeyError
        end
    | DType ds n e more =>
        let* vd := decos_report ds in
        let* v := report e in
        let* vs := collect (fun x => single (report x)) more in
        Ok (own "types" n [(u "decorators", vd);
              (u "value", match vs with [] => v | _ => PStr (join (u " | ") (map (py_str E) (v :: vs))) end)])
    | DFunc ds n params t e =>
        let* vd := decos_report ds in let* v := report e in
        Ok (own "functions" n [(u "decorators", vd); (u "args", PDict (dict_of (map (fun p => (fst p, ty_report (snd p))) params)));
              (u "type", ty_report t); (u "expression", v)])
    end.

  (** ** Programs *)
  Fixpoint decls_report (ds : list decl) : result entries :=
    match ds with
    | [] => Ok ([], [], [])
    | d :: ds' =>
        let* (a, b, c) := decl_report d in let* (a', b', c') := decls_report ds' in
        Ok (a ++ a', b ++ b', c ++ c')%list
    end.
  Definition declarations (p : list line) : list decl := flat_map (fun l => match l with Declared d _ => [d] | Blank _ => [] end) p.
  (** First the declarations in order, then all imports, then all children. *)
  Definition meaning (p : list line) : result pyval :=
    let* (a, b, c) := decls_report (declarations p) in
    Ok (document (default_scope false :: a ++ b ++ c)).
End Meaning.
