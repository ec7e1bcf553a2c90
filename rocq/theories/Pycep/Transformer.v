(** pycep/transformer.py: the BicepToJson transformer, method by method, and
    the part of lark.visitors.Transformer that drives it. *)
From Coq Require Import List NArith ZArith Bool String.
From Verif Require Import Py.Str Py.Val Pycep.Utils Pycep.Decorators Pycep.Functions Lark.Tree.
Import ListNotations.
Local Open Scope string_scope.

Section Transformer.
  Variable E : pyenv.
  Variable ln : bool.                       (* self.add_line_numbers *)

  (** self.imports and self.child_resources (transformer.py:36-37). *)
  Record tstate := { imports : list pyval; child_resources : list pyval }.
  Definition tstate0 : tstate := {| imports := []; child_resources := [] |}.

  Definition S (s : string) : pyval := PStr (u s).
  Definition py_str' (v : pyval) : pyval := PStr (py_str E v).
  (** [decorators or []] (transformer.py:194 etc.) *)
  Definition or_empty (v : pyval) : pyval := if truthy v then v else PList [].

  (** The repeated block
      [if self.add_line_numbers: attrs["__start_line__"] = meta.line; ...]
      (transformer.py:92-94,130-132,159-161,178-180,201-203,228-230,251-253,
      283-285,331-333,353-355,387-389); an empty Meta has no such attribute. *)
  Definition with_lines (m : meta) (attrs : list (str * pyval)) : result (list (str * pyval)) :=
    if ln then
      match m with
      | Some (a, b) =>
          Ok (aset (u "__end_line__") (PInt (Z.of_N b))
                (aset (u "__start_line__") (PInt (Z.of_N a)) attrs))
      | None => Err EAttributeError
      end
    else Ok attrs.

  (** {kind: {"__name__": name, "__attrs__": attrs}} *)
  Definition response (kind : string) (name : pyval) (attrs : list (str * pyval)) : pyval :=
    PDict [(u kind, PDict [(u "__name__", name); (u "__attrs__", PDict attrs)])].

  (** transformer.py:61-66: the loop of [start]; [value["__name__"]] is always a
      str in pycep (a non-str key is given TypeError here). *)
  Definition add_entry (res : list (str * pyval)) (key : str) (value : pyval)
    : result (list (str * pyval)) :=
    let* attrs := py_getitem value (u "__attrs__") in
    let* name := py_getitem value (u "__name__") in
    match str_text name with
    | None => Err te
    | Some n =>
        match aget key res with
        | None => Ok (aset key (PDict [(n, attrs)]) res)
        | Some (PDict d) => Ok (aset key (PDict (aset n attrs d)) res)
        | Some _ => Err te
        end
    end.
  Fixpoint add_entries (res : list (str * pyval)) (items : list (str * pyval))
    : result (list (str * pyval)) :=
    match items with
    | [] => Ok res
    | (k, v) :: rest => let* res' := add_entry res k v in add_entries res' rest
    end.
  Fixpoint add_all (res : list (str * pyval)) (args : list pyval) : result (list (str * pyval)) :=
    match args with
    | [] => Ok res
    | a :: rest =>
        if truthy a then
          match a with
          | PDict items => let* res' := add_entries res items in add_all res' rest
          | _ => Err EAttributeError
          end
        else add_all res rest
    end.

  (** transformer.py:47-59 the initial result. *)
  Definition start_init : list (str * pyval) :=
    [(u "globals", PDict [(u "scope", PDict (
        if ln then [(u "value", S "resourceGroup"); (u "__start_line__", PInt 0); (u "__end_line__", PInt 0)]
        else [(u "value", S "resourceGroup")]))])].

  (** transformer.py:47-68 [start] *)
  Definition cb_start (st : tstate) (args : list pyval) : result pyval :=
    let* r := add_all start_init (args ++ imports st ++ child_resources st)%list in
    Ok (PDict r).

  (** transformer.py:29 [VALID_TARGET_SCOPES] *)
  Definition VALID_TARGET_SCOPES : list str :=
    [u "resourceGroup"; u "subscription"; u "managementGroup"; u "tenant"].

  (** transformer.py:76-96 [scope] *)
  Definition cb_scope (m : meta) (args : list pyval) : result pyval :=
    let* a := arg_at 0 args in
    let value := slice_1_m1 (py_str E a) in
    if existsb (str_eqb value) VALID_TARGET_SCOPES then
      let* attrs := with_lines m [(u "value", PStr value)] in
      Ok (response "globals" (S "scope") attrs)
    else Err (EValueError (u "target scope is invalid: " ++ value)%list).

  (** transformer.py:98-138 [custom_import]; the result is the list of entries
      appended to self.imports (the method itself returns None). *)
  Definition import_entry (m : meta) (file_path : pyval) (na : pyval) : result pyval :=
    let* name := py_getitem na (u "name") in
    let* fp := transform_string_token file_path in
    let* alias := py_get na (u "alias") PNone in
    let attrs := if truthy alias
                 then [(u "file_path", fp); (u "alias", py_str' alias)]
                 else [(u "file_path", fp)] in
    let* attrs := with_lines m attrs in
    Ok (response "imports" (py_str' name) attrs).
  Fixpoint import_entries (m : meta) (file_path : pyval) (nas : list pyval) : result (list pyval) :=
    match nas with
    | [] => Ok []
    | na :: rest =>
        let* e := import_entry m file_path na in
        let* es := import_entries m file_path rest in
        Ok (e :: es)
    end.
  Definition cb_custom_import (m : meta) (args : list pyval) : result (list pyval) :=
    match args with
    | [] => Err ve
    | [a] =>
        let* name := transform_string_token a in
        Ok [response "imports" name []]
    | _ => import_entries m (last args PNone) (removelast args)
    end.

  (** transformer.py:140-163 [extension] *)
  Definition cb_extension (m : meta) (args : list pyval) : result pyval :=
    match args with
    | [name; config; alias] =>
        let attrs := if truthy config then [(u "config", config)] else [] in
        let attrs := if truthy alias then (attrs ++ [(u "alias", py_str' alias)])%list else attrs in
        let* attrs := with_lines m attrs in
        Ok (response "extensions" (py_str' name) attrs)
    | _ => Err ve
    end.

  (** transformer.py:165-182 [metadata] *)
  Definition cb_metadata (m : meta) (args : list pyval) : result pyval :=
    match args with
    | [name; value] =>
        let* attrs := with_lines m [(u "value", value)] in
        Ok (response "metadata" (py_str' name) attrs)
    | _ => Err ve
    end.

  (** transformer.py:184-205 [param] *)
  Definition cb_param (m : meta) (args : list pyval) : result pyval :=
    match args with
    | [decorators; name; data_type; default] =>
        let* attrs := with_lines m
          [(u "decorators", or_empty decorators); (u "type", data_type); (u "default", default)] in
        Ok (response "parameters" (py_str' name) attrs)
    | _ => Err ve
    end.

  (** transformer.py:207-232 [var] *)
  Definition cb_var (m : meta) (args : list pyval) : result pyval :=
    match args with
    | [decorators; name; data_type; value] =>
        let attrs := [(u "decorators", or_empty decorators); (u "value", value)] in
        let attrs := if truthy data_type then (attrs ++ [(u "type", data_type)])%list else attrs in
        let* attrs := with_lines m attrs in
        Ok (response "variables" (py_str' name) attrs)
    | _ => Err ve
    end.

  (** transformer.py:234-255 [output] *)
  Definition cb_output (m : meta) (args : list pyval) : result pyval :=
    match args with
    | [decorators; name; data_type; value] =>
        let* attrs := with_lines m
          [(u "decorators", or_empty decorators); (u "type", data_type); (u "value", value)] in
        Ok (response "outputs" (py_str' name) attrs)
    | _ => Err ve
    end.

  (** transformer.py:943-978 [process_child_resource].  Returns the updated
      [config] and the responses appended to self.child_resources, in order.
      Python mutates the child dict after appending it, so the appended entry is
      the child with its own children already extracted.  [fuel] bounds the
      recursion; it is instantiated with the nesting depth of [config]. *)
  Definition has_key (k : str) (config : pyval) : result bool :=
    match config with
    | PDict d => Ok (match aget k d with Some _ => true | None => false end)
    | _ => Err te     (* never reached: resource bodies are dicts, bicep.lark:44,48 *)
    end.
  (** [config.setdefault("depends_on", []).append(x)] (transformer.py:964-966) *)
  Definition append_depends_on (config : pyval) (x : pyval) : result pyval :=
    match config with
    | PDict d =>
        match aget (u "depends_on") d with
        | None => Ok (PDict (aset (u "depends_on") (PList [x]) d))
        | Some (PList l) => Ok (PDict (aset (u "depends_on") (PList (l ++ [x])) d))
        | Some _ => Err EAttributeError
        end
    | _ => Err EAttributeError
    end.
  Fixpoint process_child_resource (fuel : nat) (parent_name parent_type parent_api : str)
    (config : pyval) : result (pyval * list pyval) :=
    let* present := has_key (u "__child_resource__") config in
    if negb present then Ok (config, [])
    else
      match fuel, config with
      | O, _ => Err EFuel
      | Datatypes.S fuel', PDict d =>
          let child := match aget (u "__child_resource__") d with Some c => c | None => PNone end in
          let config' := PDict (adel (u "__child_resource__") d) in
          let* cname := py_getitem child (u "__name__") in
          let name := (parent_name ++ u "__" ++ py_str E cname)%list in
          let* child := py_setitem child (u "__name__") (PStr name) in
          let* attrs := py_getitem child (u "__attrs__") in
          let* ctype := py_getitem attrs (u "type") in
          let type := (parent_type ++ u "/" ++ py_str E ctype)%list in
          let* attrs := py_setitem attrs (u "type") (PStr type) in
          let* attrs := py_setitem attrs (u "api_version") (PStr parent_api) in
          let* cconfig := py_getitem attrs (u "config") in
          let* cconfig := append_depends_on cconfig (PElem parent_name) in
          let* (cconfig, more) := process_child_resource fuel' name type parent_api cconfig in
          let* attrs := py_setitem attrs (u "config") cconfig in
          let* child := py_setitem child (u "__attrs__") attrs in
          Ok (config', PDict [(u "resources", child)] :: more)
      | _, _ => Err te
      end.

  (** Nesting depth of a value, the recursion budget used above. *)
  Fixpoint pv_depth (v : pyval) : nat :=
    match v with
    | PList l | PTup l => Datatypes.S (fold_right (fun x n => Nat.max (pv_depth x) n) O l)
    | PDict d => Datatypes.S (fold_right (fun kv n => Nat.max (pv_depth (snd kv)) n) O d)
    | _ => O
    end.

  (** transformer.py:257-287 [resource]; also returns the child resources. *)
  Definition cb_resource (m : meta) (args : list pyval) : result (pyval * list pyval) :=
    match args with
    | [decorators; name; type_api_pair; existing; config] =>
        let name_str := py_str E name in
        let* ty := py_getitem type_api_pair (u "type") in
        let* api := py_getitem type_api_pair (u "api_version") in
        let* (config, children) :=
          process_child_resource (pv_depth config) name_str (py_str E ty) (py_str E api) config in
        let* attrs := with_lines m
          [(u "decorators", or_empty decorators); (u "type", ty); (u "api_version", api);
           (u "existing", PBool (truthy existing)); (u "config", config)] in
        Ok (response "resources" (PStr name_str) attrs, children)
    | _ => Err ve
    end.

  (** transformer.py:289-311 [child_resource]: end_line is reduced by one. *)
  Definition with_lines_child (m : meta) (attrs : list (str * pyval)) : result (list (str * pyval)) :=
    if ln then
      match m with
      | Some (a, b) =>
          Ok (aset (u "__end_line__") (PInt (Z.of_N b - 1))
                (aset (u "__start_line__") (PInt (Z.of_N a)) attrs))
      | None => Err EAttributeError
      end
    else Ok attrs.
  Definition cb_child_resource (m : meta) (args : list pyval) : result pyval :=
    match args with
    | [name; type_name; existing; config] =>
        let* attrs := with_lines_child m
          [(u "decorators", PList []); (u "type", PStr (slice_1_m1 (py_str E type_name)));
           (u "api_version", S ""); (u "existing", PBool (truthy existing)); (u "config", config)] in
        Ok (PTup [S "__child_resource__";
                  PDict [(u "__name__", py_str' name); (u "__attrs__", PDict attrs)]])
    | _ => Err ve
    end.

  (** transformer.py:313-335 [module] *)
  Definition cb_module (m : meta) (args : list pyval) : result pyval :=
    match args with
    | [decorators; name; path; config] =>
        let* ty := py_getitem path (u "type") in
        let* detail := py_getitem path (u "detail") in
        let* attrs := with_lines m
          [(u "decorators", or_empty decorators); (u "type", ty); (u "detail", detail); (u "config", config)] in
        Ok (response "modules" (py_str' name) attrs)
    | _ => Err ve
    end.

  (** transformer.py:337-357 [custom_type] *)
  Definition cb_custom_type (m : meta) (args : list pyval) : result pyval :=
    match args with
    | [decorators; name; value] =>
        let* attrs := with_lines m [(u "decorators", or_empty decorators); (u "value", value)] in
        Ok (response "types" (py_str' name) attrs)
    | _ => Err ve
    end.

  (** transformer.py:359-391 [custom_func]; [zip( *[iter(l)] * 2, strict=True)]
      groups in pairs and raises ValueError on an odd number. *)
  Fixpoint zip_pairs (l : list pyval) : result (list (str * pyval)) :=
    match l with
    | [] => Ok []
    | [_] => Err ve
    | a :: b :: rest => let* ps := zip_pairs rest in Ok ((py_str E a, b) :: ps)
    end.
  Definition cb_custom_func (m : meta) (args : list pyval) : result pyval :=
    match args with
    | decorators :: name :: rest =>
        match rev rest with
        | expression :: return_type :: rpairs =>
            let* ps := zip_pairs (rev rpairs) in
            let* attrs := with_lines m
              [(u "decorators", or_empty decorators); (u "args", PDict (dict_of ps));
               (u "type", return_type); (u "expression", expression)] in
            Ok (response "functions" (py_str' name) attrs)
        | _ => Err ve
        end
    | _ => Err ve
    end.

  (** transformer.py:402-404 [base_type] *)
  Definition cb_base_type (args : list pyval) : result pyval :=
    let* r := arg_at 0 args in
    Ok (match r with PTok t => PStr (tval t) | _ => r end).

  (** transformer.py:406-407 [union_type] *)
  Definition cb_union_type (args : list pyval) : result pyval :=
    Ok (PDict [(u "type", S "union"); (u "members", PList args)]).

  (** transformer.py:409-414 [data_type] *)
  Definition array_of (t : pyval) : pyval := PDict [(u "type", S "array"); (u "item_type", t)].
  Definition cb_data_type (args : list pyval) : result pyval :=
    match args with
    | base :: suffixes => Ok (fold_left (fun r _ => array_of r) suffixes base)
    | [] => Err ve
    end.

  (** transformer.py:416-421 [type_api_pair] *)
  Definition cb_type_api_pair (args : list pyval) : result pyval :=
    let* a := arg_at 0 args in
    match split_char 64 (slice_1_m1 (py_str E a)) with
    | [t; v] => Ok (PDict [(u "type", PStr t); (u "api_version", PStr v)])
    | _ => Err ve
    end.

  (** Regular expressions of transformer.py:19-27: sequences of literals and
      greedy one-or-more character classes, each class occurrence captured;
      [re.match] anchors at the start only.  A class piece tries the longest
      run first and gives characters back one at a time. *)
  Inductive piece := Lit (s : str) | Plus (cls : N -> bool).
  Fixpoint span (cls : N -> bool) (s : str) : str :=
    match s with
    | c :: s' => if cls c then c :: span cls s' else []
    | [] => []
    end.
  Fixpoint re_match (ps : list piece) (s : str) : option (list str) :=
    match ps with
    | [] => Some []
    | Lit l :: ps' => if starts_with l s then re_match ps' (skipn (List.length l) s) else None
    | Plus cls :: ps' =>
        (fix try (n : nat) : option (list str) :=
           match n with
           | O => None
           | Datatypes.S n' =>
               match re_match ps' (skipn n s) with
               | Some gs => Some (firstn n s :: gs)
               | None => try n'
               end
           end) (List.length (span cls s))
    end.
  Definition re_word (c : N) : bool := if (c <? 128)%N then is_word_ascii c else uword_re E c.
  Definition re_digit (c : N) : bool := if (c <? 128)%N then is_digit c else udigit_re E c.
  Definition cls_with (extra : string) (c : N) : bool :=
    re_word c || contains_char c (u extra).
  (** transformer.py:19 *)
  Definition BICEP_REGISTRY_ALIAS_PATTERN : list piece :=
    [Lit (u "br/"); Plus re_word; Lit (u ":"); Plus (cls_with "/-."); Lit (u ":"); Plus (cls_with ".-")].
  (** transformer.py:20 *)
  Definition PUBLIC_BICEP_REGISTRY_PATTERN : list piece :=
    [Lit (u "br:mcr.microsoft.com/"); Plus (cls_with "/-"); Lit (u ":"); Plus (cls_with ".-")].
  (** transformer.py:21-23 *)
  Definition PRIVATE_BICEP_REGISTRY_PATTERN : list piece :=
    [Lit (u "br:"); Plus re_word; Lit (u ".azurecr.io/"); Plus (cls_with "/-."); Lit (u ":"); Plus (cls_with ".-")].
  (** transformer.py:24 *)
  Definition TEMPLATE_SPEC_ALIAS_PATTERN : list piece :=
    [Lit (u "ts/"); Plus re_word; Lit (u ":"); Plus (cls_with "/-"); Lit (u ":"); Plus (cls_with ".-")].
  (** transformer.py:25-27 *)
  Definition TEMPLATE_SPEC_PATTERN : list piece :=
    [Lit (u "ts:"); Plus (fun c => re_digit c || (c =? 45)%N); Lit (u "/"); Plus (cls_with "._-()");
     Lit (u "/"); Plus (cls_with ".-"); Lit (u ":"); Plus (cls_with ".-")].

  Definition path_result (ty : string) (detail : list (str * pyval)) : result pyval :=
    Ok (PDict [(u "type", S ty); (u "detail", PDict detail)]).

  (** transformer.py:423-514 [module_path] *)
  Definition cb_module_path (args : list pyval) : result pyval :=
    let* a := arg_at 0 args in
    let fp := slice_1_m1 (py_str E a) in
    let full := PStr (skipn 3 fp) in
    if starts_with (u "br:") fp then
      match re_match PUBLIC_BICEP_REGISTRY_PATTERN fp with
      | Some [path; tag] =>
          path_result "bicep_registry"
            [(u "full", full); (u "registry_name", S "mcr.microsoft.com");
             (u "path", PStr path); (u "tag", PStr tag); (u "public", PBool true)]
      | _ =>
          match re_match PRIVATE_BICEP_REGISTRY_PATTERN fp with
          | Some [registry_name; path; tag] =>
              path_result "bicep_registry"
                [(u "full", full); (u "registry_name", PStr registry_name);
                 (u "path", PStr path); (u "tag", PStr tag); (u "public", PBool false)]
          | _ => Err (EValueError (u "Bicep registry path is invalid: " ++ fp)%list)
          end
      end
    else if starts_with (u "br/") fp then
      match re_match BICEP_REGISTRY_ALIAS_PATTERN fp with
      | Some [alias; path; tag] =>
          path_result "bicep_registry_alias"
            [(u "full", full); (u "alias", PStr alias);
             (u "path", PStr path); (u "tag", PStr tag);
             (u "public", PBool (str_eqb alias (u "public")))]
      | _ => Err (EValueError (u "Bicep registry alias is invalid: " ++ fp)%list)
      end
    else if starts_with (u "ts:") fp then
      match re_match TEMPLATE_SPEC_PATTERN fp with
      | Some [sub_id; rg_id; name; version] =>
          path_result "template_spec"
            [(u "full", full); (u "subscription_id", PStr sub_id);
             (u "resource_group_id", PStr rg_id); (u "name", PStr name); (u "version", PStr version)]
      | _ => Err (EValueError (u "Template spec path is invalid: " ++ fp)%list)
      end
    else if starts_with (u "ts/") fp then
      match re_match TEMPLATE_SPEC_ALIAS_PATTERN fp with
      | Some [alias; path; tag] =>
          path_result "template_spec_alias"
            [(u "full", full); (u "alias", PStr alias); (u "path", PStr path); (u "tag", PStr tag)]
      | _ => Err (EValueError (u "Template spec alias is invalid: " ++ fp)%list)
      end
    else path_result "local" [(u "full", PStr fp); (u "path", PStr fp)].

  (** transformer.py:516-524 [import_alias] *)
  Definition cb_import_alias (args : list pyval) : result pyval :=
    match args with
    | [name; alias] =>
        Ok (PDict (if truthy alias then [(u "name", py_str' name); (u "alias", py_str' alias)]
                   else [(u "name", py_str' name)]))
    | _ => Err ve
    end.

  (** transformer.py:526-528 [type_value] *)
  Definition cb_type_value (args : list pyval) : result pyval :=
    Ok (PStr (join (u " | ") (map (py_str E) args))).

  (** transformer.py:536-546 [loop] *)
  Definition cb_loop (args : list pyval) : result pyval :=
    match args with
    | [loop_type; condition; config] =>
        let* condition' :=
          match condition with
          | PDict _ =>
              let* func := py_get condition (u "function") (PDict []) in
              let* ty := py_get func (u "type") PNone in
              if eq_lit ty (u "if") then
                let* params := py_getitem func (u "parameters") in
                py_getitem params (u "arg_1")
              else Ok condition
          | _ => Ok condition
          end in
        Ok (PDict [(u "loop_type", loop_type); (u "condition", condition'); (u "config", config)])
    | _ => Err ve
    end.

  (** transformer.py:548-556 [loop_array] *)
  Definition cb_loop_array (args : list pyval) : result pyval :=
    match args with
    | [item_name; array_name] =>
        Ok (PDict [(u "type", S "array");
                   (u "detail", PDict [(u "item_name", py_str' item_name); (u "array_name", array_name)])])
    | _ => Err ve
    end.

  (** transformer.py:558-567 [loop_array_index] *)
  Definition cb_loop_array_index (args : list pyval) : result pyval :=
    match args with
    | [item_name; idx_name; array_name] =>
        Ok (PDict [(u "type", S "array_index");
                   (u "detail", PDict [(u "item_name", py_str' item_name); (u "index_name", py_str' idx_name);
                                       (u "array_name", array_name)])])
    | _ => Err ve
    end.

  (** transformer.py:569-577 [loop_object] *)
  Definition cb_loop_object (args : list pyval) : result pyval :=
    match args with
    | [item_name; obj_name] =>
        Ok (PDict [(u "type", S "object");
                   (u "detail", PDict [(u "item_name", py_str' item_name); (u "object_name", py_str' obj_name)])])
    | _ => Err ve
    end.

  (** transformer.py:585-590 [deploy_condition] *)
  Definition cb_deploy_condition (args : list pyval) : result pyval :=
    match args with
    | [condition; config] => Ok (PDict [(u "condition", condition); (u "config", config)])
    | _ => Err ve
    end.

  (** transformer.py:598-603 [decorator] *)
  Definition cb_decorator (args : list pyval) : result pyval :=
    match args with
    | name :: params =>
        let n := py_str E name in
        match aget n (DECORATORS E) with
        | Some f => f n params
        | None => unknown_deco n params
        end
    | [] => Err ve
    end.

  (** transformer.py:614-621 [function] *)
  Definition cb_function (args : list pyval) : result pyval :=
    match args with
    | name :: params =>
        let n := remove_suffix (u "(") (py_str E name) in
        let* data := match aget n FUNCTIONS with
                     | Some f => f n params
                     | None => f_unknown_func n params
                     end in
        Ok (PDict [(u "function", data)])
    | [] => Err ve
    end.

  (** transformer.py:629-630 [operator] *)
  Definition cb_operator (args : list pyval) : result pyval :=
    let* a := arg_at 0 args in Ok (PDict [(u "operator", a)]).

  (** The operator dict {"type": ty, "operands": {...}}. *)
  Definition op_dict (ty : string) (operands : list (str * pyval)) : pyval :=
    PDict [(u "type", S ty); (u "operands", PDict (dict_of operands))].

  (** Two-operand methods: transformer.py:632-718 (comparison), 790-810,
      820-851 (numeric), 859-863, 876-886 (accessors). *)
  Definition cb_binary (ty : string) (args : list pyval) : result pyval :=
    match args with
    | [a; b] => Ok (op_dict ty [(u "operand_1", a); (u "operand_2", b)])
    | _ => Err ve
    end.

  (** transformer.py:726-748 [and_op], [or_op]; 758-768 [coalesce] *)
  Definition cb_nary (ty : string) (args : list pyval) : result pyval :=
    match args with
    | a :: b :: rest =>
        Ok (op_dict ty ((u "operand_1", a) :: (u "operand_2", b) :: numbered (u "operand_") 3 rest))
    | _ => Err ve
    end.

  (** transformer.py:750-756 [not_op] *)
  Definition cb_not_op (args : list pyval) : result pyval :=
    let* a := arg_at 0 args in Ok (op_dict "not" [(u "bool_value", a)]).

  (** transformer.py:770-782 [conditional] *)
  Definition cb_conditional (args : list pyval) : result pyval :=
    match args with
    | [c; a; b] => Ok (op_dict "conditional" [(u "condition", c); (u "true_value", a); (u "false_value", b)])
    | _ => Err ve
    end.

  (** transformer.py:812-818 [minus] *)
  Definition cb_minus (args : list pyval) : result pyval :=
    let* a := arg_at 0 args in Ok (op_dict "minus" [(u "integer_value", a)]).

  (** transformer.py:865-874 [function_accessor]: falsy arguments are skipped,
      but still counted by enumerate. *)
  Definition cb_function_accessor (args : list pyval) : result pyval :=
    match args with
    | a :: func_name :: rest =>
        Ok (op_dict "function_accessor"
              ((u "operand_1", a) :: (u "func_name", py_str' func_name)
               :: filter (fun kv => truthy (snd kv)) (numbered (u "operand_") 2 rest)))
    | _ => Err ve
    end.

  (** transformer.py:894-895 [array] *)
  Definition untoken (v : pyval) : pyval := match v with PTok t => PStr (tval t) | _ => v end.
  Definition cb_array (args : list pyval) : result pyval := Ok (PList (map untoken args)).

  (** transformer.py:897-898 [object]: [dict(args)] over (key, value) tuples;
      any other element gets TypeError here (never built by the grammar). *)
  Fixpoint tuple_pairs (args : list pyval) : result (list (str * pyval)) :=
    match args with
    | [] => Ok []
    | PTup [k; v] :: rest =>
        match str_text k with
        | Some k' => let* ps := tuple_pairs rest in Ok ((k', v) :: ps)
        | None => Err te
        end
    | _ :: _ => Err te
    end.
  Definition cb_object (args : list pyval) : result pyval :=
    let* ps := tuple_pairs args in Ok (PDict (dict_of ps)).

  (** transformer.py:900-902 [pair] *)
  Definition cb_pair (args : list pyval) : result pyval :=
    match args with
    | [k; v] => Ok (PTup [k; untoken v])
    | _ => Err ve
    end.

  (** transformer.py:904-905 [key] *)
  Definition cb_key (args : list pyval) : result pyval :=
    let* a := arg_at 0 args in Ok (py_str' a).

  (** transformer.py:907-908 [int_type] *)
  Definition cb_int_type (args : list pyval) : result pyval :=
    let* a := arg_at 0 args in let* z := py_int E a in Ok (PInt z).

  (** transformer.py:910-911 [string] *)
  Definition cb_string (args : list pyval) : result pyval :=
    let* a := arg_at 0 args in transform_string_token a.

  (** transformer.py:913-914 [multi_line_string] *)
  Definition cb_multi_line_string (args : list pyval) : result pyval :=
    let* a := arg_at 0 args in Ok (PStr (sanitize_multi_line_string_token (py_str E a))).

  (** transformer.py:925-935 [lambda_expression] *)
  Definition cb_lambda_expression (args : list pyval) : result pyval :=
    match args with
    | a :: _ :: _ =>
        Ok (PDict [(u "type", S "lambda_expression");
                   (u "detail", PDict (dict_of
                      ((u "var_1", py_str' a)
                       :: numbered (u "var_") 2 (map py_str' (removelast (tl args)))
                       ++ [(u "expression", last (tl args) PNone)])))])
    | _ => Err ve
    end.

  (** lark.visitors.Transformer._call_userfunc: dispatch on the label.  The
      callbacks of [custom_import] and [resource] update the state; [start]
      reads it. *)
  Definition pure (st : tstate) (r : result pyval) : result (pyval * tstate) :=
    let* v := r in Ok (v, st).
  Definition call (l : label) (m : meta) (args : list pyval) (st : tstate) : result (pyval * tstate) :=
    match l with
    | L_start => pure st (cb_start st args)
    | L_scope => pure st (cb_scope m args)
    | L_custom_import =>
        let* es := cb_custom_import m args in
        Ok (PNone, {| imports := (imports st ++ es)%list; child_resources := child_resources st |})
    | L_extension => pure st (cb_extension m args)
    | L_metadata => pure st (cb_metadata m args)
    | L_param => pure st (cb_param m args)
    | L_var => pure st (cb_var m args)
    | L_output => pure st (cb_output m args)
    | L_resource =>
        let* (v, cs) := cb_resource m args in
        Ok (v, {| imports := imports st; child_resources := (child_resources st ++ cs)%list |})
    | L_child_resource => pure st (cb_child_resource m args)
    | L_module => pure st (cb_module m args)
    | L_custom_type => pure st (cb_custom_type m args)
    | L_custom_func => pure st (cb_custom_func m args)
    | L_null => Ok (PNone, st)                          (* transformer.py:922-923 *)
    | L_true => Ok (PBool true, st)                     (* transformer.py:916-917 *)
    | L_false => Ok (PBool false, st)                   (* transformer.py:919-920 *)
    | L_int_type => pure st (cb_int_type args)
    | L_string => pure st (cb_string args)
    | L_multi_line_string => pure st (cb_multi_line_string args)
    | L_type_value => pure st (cb_type_value args)
    | L_data_type => pure st (cb_data_type args)
    | L_base_type => pure st (cb_base_type args)
    | L_union_type => pure st (cb_union_type args)
    | L_array_suffix => Ok (PNone, st)                  (* transformer.py:399-400 *)
    | L_type_api_pair => pure st (cb_type_api_pair args)
    | L_module_path => pure st (cb_module_path args)
    | L_import_alias => pure st (cb_import_alias args)
    | L_loop => pure st (cb_loop args)
    | L_loop_array => pure st (cb_loop_array args)
    | L_loop_array_index => pure st (cb_loop_array_index args)
    | L_loop_object => pure st (cb_loop_object args)
    | L_deploy_condition => pure st (cb_deploy_condition args)
    | L_array => pure st (cb_array args)
    | L_object => pure st (cb_object args)
    | L_pair => pure st (cb_pair args)
    | L_key => pure st (cb_key args)
    | L_lambda_expression => pure st (cb_lambda_expression args)
    | L_decorator => pure st (cb_decorator args)
    | L_decorators => Ok (PList args, st)               (* transformer.py:605-606 *)
    | L_function => pure st (cb_function args)
    | L_operator => pure st (cb_operator args)
    | L_greater_than_or_equals => pure st (cb_binary "greater_than_or_equals" args)   (* 632-641 *)
    | L_greater_than => pure st (cb_binary "greater_than" args)                       (* 643-652 *)
    | L_less_than_or_equals => pure st (cb_binary "less_than_or_equals" args)         (* 654-663 *)
    | L_less_than => pure st (cb_binary "less_than" args)                             (* 665-674 *)
    | L_equals => pure st (cb_binary "equals" args)                                   (* 676-685 *)
    | L_not_equals => pure st (cb_binary "not_equals" args)                           (* 687-696 *)
    | L_equals_case_insens => pure st (cb_binary "equals_case_insensitive" args)      (* 698-707 *)
    | L_not_equals_case_insens => pure st (cb_binary "not_equals_case_insensitive" args) (* 709-718 *)
    | L_and_op => pure st (cb_nary "and" args)                                        (* 726-736 *)
    | L_or_op => pure st (cb_nary "or" args)                                          (* 738-748 *)
    | L_not_op => pure st (cb_not_op args)
    | L_coalesce => pure st (cb_nary "coalesce" args)                                 (* 758-768 *)
    | L_conditional => pure st (cb_conditional args)
    | L_add => pure st (cb_binary "add" args)                                         (* 790-799 *)
    | L_divide => pure st (cb_binary "divide" args)                                   (* 801-810 *)
    | L_minus => pure st (cb_minus args)
    | L_modulo => pure st (cb_binary "modulo" args)                                   (* 820-829 *)
    | L_multiply => pure st (cb_binary "multiply" args)                               (* 831-840 *)
    | L_substract => pure st (cb_binary "substract" args)                             (* 842-851 *)
    | L_index_accessor => pure st (cb_binary "index_accessor" args)                   (* 859-863 *)
    | L_function_accessor => pure st (cb_function_accessor args)
    | L_nested_resource_accessor => pure st (cb_binary "nested_resource_accessor" args) (* 876-880 *)
    | L_property_accessor => pure st (cb_binary "property_accessor" args)             (* 882-886 *)
    | L_nocallback => Err EAttributeError (* no such node: see Lark/Tree.v *)
    end.

  (** An exception raised by a callback is wrapped in VisitError
      (lark/visitors.py, [_call_userfunc]). *)
  Definition wrap {A} (l : label) (r : result A) : result A :=
    match r with
    | Ok a => Ok a
    | Err e => Err (EVisitError (label_name l) e)
    end.

  (** lark.visitors.Transformer._transform_tree / _transform_children: children
      first, left to right; tokens and None are passed through (BicepToJson has
      no token callbacks). *)
  Fixpoint transform_tree (t : ptree) (st : tstate) : result (pyval * tstate) :=
    match t with
    | TTok tok => Ok (PTok tok, st)
    | TNone => Ok (PNone, st)
    | TNode l m cs =>
        let* (args, st') :=
          (fix go (cs : list ptree) (st : tstate) : result (list pyval * tstate) :=
             match cs with
             | [] => Ok ([], st)
             | c :: cs' =>
                 let* (v, st1) := transform_tree c st in
                 let* (vs, st2) := go cs' st1 in
                 Ok (v :: vs, st2)
             end) cs st in
        wrap l (call l m args st')
    end.

  (** [BicepToJson(add_line_numbers=...).transform(tree)] on a fresh transformer
      (main.py:29, transformer.py:33-39). *)
  Definition transform (t : ptree) : result pyval :=
    let* (v, _) := transform_tree t tstate0 in Ok v.
End Transformer.
