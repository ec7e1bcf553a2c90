(** pycep/rules/functions.py, function by function.  Every function takes the
    function name and the list of transformed arguments. *)
From Coq Require Import List NArith ZArith Bool String.
From Verif Require Import Py.Str Py.Val.
Import ListNotations.
Local Open Scope string_scope.

Definition fn := str -> list pyval -> result pyval.

(** The dict literal {"type": ty, "parameters": {...}} every function returns;
    duplicate parameter names would overwrite (dict display semantics). *)
Definition fdict (ty : string) (params : list (str * pyval)) : result pyval :=
  Ok (PDict [(u "type", PStr (u ty)); (u "parameters", PDict (dict_of params))]).

(** {"type": ty} (functions.py:262,266,722,844). *)
Definition ftype (ty : string) : result pyval := Ok (PDict [(u "type", PStr (u ty))]).

(** [rest[0] if rest else None] for a starred rest (functions.py:222 etc.). *)
Definition head_or_none (l : list pyval) : pyval :=
  match l with [] => PNone | v :: _ => v end.

(** The [args[0]] style (functions.py:20-26 etc.): IndexError when there is no
    argument, further arguments ignored. *)
Definition f_index0 (ty p : string) (args : list pyval) : result pyval :=
  let* a := arg_at 0 args in fdict ty [(u p, a)].

(** The [a, b = args] style: ValueError unless exactly two. *)
Definition f_two (ty p q : string) (args : list pyval) : result pyval :=
  match args with
  | [a; b] => fdict ty [(u p, a); (u q, b)]
  | _ => Err ve
  end.

(** functions.py:20-26 *)
Definition f_any_func : fn := fun _ args =>
  f_index0 "any" "value" args.

(** functions.py:36-42 *)
Definition f_array_func : fn := fun _ args =>
  f_index0 "array" "convert_to_array" args.

(** functions.py:45-54 *)
Definition f_concat : fn := fun _ args =>
  match args with
  | a :: rest => fdict "concat" ((u "arg_1", a) :: numbered (u "arg_") 2 rest)
  | [] => Err ve
  end.

(** functions.py:57-68 *)
Definition f_contains : fn := fun _ args =>
  f_two "contains" "container" "item_to_find" args.

(** functions.py:71-77 *)
Definition f_empty : fn := fun _ args =>
  f_index0 "empty" "item_to_test" args.

(** functions.py:80-86 *)
Definition f_first : fn := fun _ args =>
  f_index0 "first" "arg_1" args.

(** functions.py:89-95 *)
Definition f_flatten : fn := fun _ args =>
  f_index0 "flatten" "array_to_flattern" args.

(** functions.py:98-110 *)
Definition f_intersection : fn := fun _ args =>
  match args with
  | a :: b :: rest => fdict "intersection" ((u "arg_1", a) :: (u "arg_2", b) :: numbered (u "arg_") 3 rest)
  | _ => Err ve
  end.

(** functions.py:113-119 *)
Definition f_last : fn := fun _ args =>
  f_index0 "last" "arg_1" args.

(** functions.py:122-128 *)
Definition f_length : fn := fun _ args =>
  f_index0 "length" "arg_1" args.

(** functions.py:131-140 *)
Definition f_max_func : fn := fun _ args =>
  match args with
  | a :: rest => fdict "max" ((u "arg_1", a) :: numbered (u "arg_") 2 rest)
  | [] => Err ve
  end.

(** functions.py:143-152 *)
Definition f_min_func : fn := fun _ args =>
  match args with
  | a :: rest => fdict "min" ((u "arg_1", a) :: numbered (u "arg_") 2 rest)
  | [] => Err ve
  end.

(** functions.py:155-163 *)
Definition f_range_func : fn := fun _ args =>
  f_two "range" "start_index" "count" args.

(** functions.py:166-175 *)
Definition f_skip : fn := fun _ args =>
  f_two "skip" "original_value" "number_to_skip" args.

(** functions.py:178-187 *)
Definition f_take : fn := fun _ args =>
  f_two "take" "original_value" "number_to_take" args.

(** functions.py:190-202 *)
Definition f_union : fn := fun _ args =>
  match args with
  | a :: b :: rest => fdict "union" ((u "arg_1", a) :: (u "arg_2", b) :: numbered (u "arg_") 3 rest)
  | _ => Err ve
  end.

(** functions.py:212-224 *)
Definition f_date_time_add : fn := fun _ args =>
  match args with
  | a :: b :: rest => fdict "date_time_add" [(u "base", a); (u "duration", b); (u "format", head_or_none rest)]
  | _ => Err ve
  end.

(** functions.py:227-233 *)
Definition f_date_time_from_epoch : fn := fun _ args =>
  f_index0 "date_time_from_epoch" "epoch_time" args.

(** functions.py:236-242 *)
Definition f_date_time_to_epoch : fn := fun _ args =>
  f_index0 "date_time_to_epoch" "date_time" args.

(** functions.py:245-251 *)
Definition f_utc_now : fn := fun _ args =>
  fdict "utc_now" [(u "format", head_or_none args)].

(** functions.py:261-262 *)
Definition f_deployment : fn := fun _ _ => ftype "deployment".

(** functions.py:265-266 *)
Definition f_environment : fn := fun _ _ => ftype "environment".

(** functions.py:276-287 *)
Definition f_load_text_content : fn := fun _ args =>
  match args with
  | a :: rest => fdict "load_text_content" [(u "file_path", a); (u "encoding", head_or_none rest)]
  | [] => Err ve
  end.

(** functions.py:290-315 *)
Definition f_load_json_content : fn := fun _ args =>
  match args with
  | a :: rest =>
      let '(x, y) := match rest with
                     | [x; y] => (x, y)
                     | [x] => (x, PNone)
                     | _ => (PNone, PNone)
                     end in
      fdict "load_json_content" [(u "file_path", a); (u "json_path", x); (u "encoding", y)]
  | [] => Err ve
  end.

(** functions.py:318-343 *)
Definition f_load_yaml_content : fn := fun _ args =>
  match args with
  | a :: rest =>
      let '(x, y) := match rest with
                     | [x; y] => (x, y)
                     | [x] => (x, PNone)
                     | _ => (PNone, PNone)
                     end in
      fdict "load_yaml_content" [(u "file_path", a); (u "path_filter", x); (u "encoding", y)]
  | [] => Err ve
  end.

(** functions.py:346-352 *)
Definition f_load_file_as_base64 : fn := fun _ args =>
  f_index0 "load_file_as_base64" "file_path" args.

(** functions.py:362-373 *)
Definition f_filter_func : fn := fun _ args =>
  f_two "filter" "input_array" "expression" args.

(** functions.py:383-389 *)
Definition f_bool_func : fn := fun _ args =>
  f_index0 "bool" "arg_1" args.

(** functions.py:399-405 *)
Definition f_int_func : fn := fun _ args =>
  f_index0 "int" "value_to_convert" args.

(** functions.py:415-421 *)
Definition f_json_func : fn := fun _ args =>
  f_index0 "json" "arg_1" args.

(** functions.py:431-452 *)
Definition f_extension_resource_id : fn := fun _ args =>
  let* a := arg_at 0 args in
  let* b := arg_at 1 args in
  let* c := arg_at 2 args in
  let* e := if Nat.eqb (List.length args) 3 then Ok PNone else arg_at 3 args in
  fdict "extension_resource_id"
    [(u "resource_id", a); (u "resource_type", b); (u "resource_name_1", c); (u "resource_name_2", e)].

(** functions.py:455-475 *)
Definition f_list_func : fn := fun _ args =>
  match args with
  | [a; b] => fdict "list_func"
      [(u "func_name", PStr (u "listKeys")); (u "resource_identifier", a); (u "api_version", b)]
  | _ => Err ve
  end.

(** functions.py:478-496 *)
Definition f_management_group_resource_id : fn := fun _ args =>
  let* a := arg_at 0 args in
  let* b := arg_at 1 args in
  let* c := if Nat.eqb (List.length args) 2 then Ok PNone else arg_at 2 args in
  fdict "management_group_resource_id"
    [(u "resource_type", a); (u "resource_name_1", b); (u "resource_name_2", c)].

(** functions.py:499-522 *)
Definition f_pick_zones : fn := fun _ args =>
  let* a := arg_at 0 args in
  let* b := arg_at 1 args in
  let* c := arg_at 2 args in
  let* zones := if Nat.leb 4 (List.length args) then arg_at 3 args else Ok PNone in
  let* offset := if Nat.eqb (List.length args) 5 then arg_at 4 args else Ok PNone in
  fdict "pick_zones"
    [(u "provider_namespace", a); (u "resource_type", b); (u "location", c);
     (u "number_of_zones", zones); (u "offset", offset)].

(** functions.py:525-552 *)
Definition f_reference : fn := fun _ args =>
  match args with
  | a :: rest =>
      let '(x, y) := match rest with
                     | [x; y] => (x, y)
                     | [x] => (x, PNone)
                     | _ => (PNone, PNone)
                     end in
      fdict "reference" [(u "resource_identifier", a); (u "api_version", x); (u "full", y)]
  | [] => Err ve
  end.

(** functions.py:555-610 *)
Definition f_resource_id : fn := fun _ args =>
  match args with
  | [a; b] => fdict "resource_id"
      [(u "resource_type", a); (u "resource_name_1", b); (u "resource_name_2", PNone);
       (u "resource_group_name", PNone); (u "subscription_id", PNone)]
  | [a; b; c] => fdict "resource_id"
      [(u "resource_type", a); (u "resource_name_1", b); (u "resource_name_2", c);
       (u "resource_group_name", PNone); (u "subscription_id", PNone)]
  | [a; b; c; e] => fdict "resource_id"
      [(u "resource_type", b); (u "resource_name_1", c); (u "resource_name_2", e);
       (u "resource_group_name", a); (u "subscription_id", PNone)]
  | _ =>
      let* sub := arg_at 0 args in
      let* grp := arg_at 1 args in
      let* ty := arg_at 2 args in
      fdict "resource_id"
        ((u "resource_type", ty) :: numbered (u "resource_name_") 1 (skipn 3 args)
         ++ [(u "resource_group_name", grp); (u "subscription_id", sub)])
  end.

(** functions.py:613-644 *)
Definition f_subscription_resource_id : fn := fun _ args =>
  match args with
  | [a; b] => fdict "subscription_resource_id"
      [(u "resource_type", a); (u "resource_name_1", b); (u "resource_name_2", PNone);
       (u "subscription_id", PNone)]
  | [a; b; c] => fdict "subscription_resource_id"
      [(u "resource_type", a); (u "resource_name_1", b); (u "resource_name_2", c);
       (u "subscription_id", PNone)]
  | _ =>
      let* sub := arg_at 0 args in
      let* ty := arg_at 1 args in
      let* n1 := arg_at 2 args in
      let* n2 := arg_at 3 args in
      fdict "subscription_resource_id"
        [(u "resource_type", ty); (u "resource_name_1", n1); (u "resource_name_2", n2);
         (u "subscription_id", sub)]
  end.

(** functions.py:647-665 *)
Definition f_tenant_resource_id : fn := fun _ args =>
  let* a := arg_at 0 args in
  let* b := arg_at 1 args in
  let* c := if Nat.eqb (List.length args) 2 then Ok PNone else arg_at 2 args in
  fdict "tenant_resource_id"
    [(u "resource_type", a); (u "resource_name_1", b); (u "resource_name_2", c)].

(** functions.py:675-681 *)
Definition f_management_group : fn := fun _ args =>
  fdict "management_group" [(u "identifier", head_or_none args)].

(** functions.py:684-707 *)
Definition f_resource_group : fn := fun _ args =>
  let '(name, sub) := match args with
                     | [a; b] => (a, b)
                     | [a] => (a, PNone)
                     | _ => (PNone, PNone)
                     end in
  let '(name', sub') := if truthy name && truthy sub then (sub, name) else (name, sub) in
  fdict "resource_group" [(u "resource_group_name", name'); (u "subscription_id", sub')].

(** functions.py:710-718 *)
Definition f_subscription : fn := fun _ args =>
  fdict "subscription" [(u "subscription_id", head_or_none args)].

(** functions.py:721-722 *)
Definition f_tenant : fn := fun _ _ => ftype "tenant".

(** functions.py:732-738 *)
Definition f_base64_func : fn := fun _ args =>
  f_index0 "base64" "input_string" args.

(** functions.py:741-747 *)
Definition f_base64_to_json : fn := fun _ args =>
  f_index0 "base64_to_json" "base64_value" args.

(** functions.py:750-756 *)
Definition f_base64_to_string : fn := fun _ args =>
  f_index0 "base64_to_string" "base64_value" args.

(** functions.py:759-765 *)
Definition f_data_uri : fn := fun _ args =>
  f_index0 "data_uri" "string_to_convert" args.

(** functions.py:768-774 *)
Definition f_data_uri_to_string : fn := fun _ args =>
  f_index0 "data_uri_to_string" "data_uri_to_convert" args.

(** functions.py:777-788 *)
Definition f_ends_with : fn := fun _ args =>
  f_two "ends_with" "string_to_search" "string_to_find" args.

(** functions.py:791-800 *)
Definition f_format_func : fn := fun _ args =>
  match args with
  | a :: rest => fdict "format" ((u "format_string", a) :: numbered (u "arg_") 1 rest)
  | [] => Err ve
  end.

(** functions.py:803-812 *)
Definition f_guid : fn := fun _ args =>
  match args with
  | a :: rest => fdict "guid" ((u "base_string", a) :: numbered (u "extra_string_") 1 rest)
  | [] => Err ve
  end.

(** functions.py:815-826 *)
Definition f_index_of : fn := fun _ args =>
  f_two "index_of" "string_to_search" "string_to_find" args.

(** functions.py:829-840 *)
Definition f_last_index_of : fn := fun _ args =>
  f_two "last_index_of" "string_to_search" "string_to_find" args.

(** functions.py:843-844 *)
Definition f_new_guid : fn := fun _ _ => ftype "new_guid".

(** functions.py:847-859 *)
Definition f_pad_left : fn := fun _ args =>
  match args with
  | a :: b :: rest => fdict "pad_left" [(u "value_to_pad", a); (u "total_length", b); (u "padding_character", head_or_none rest)]
  | _ => Err ve
  end.

(** functions.py:862-874 *)
Definition f_replace : fn := fun _ args =>
  match args with
  | [a; b; c] => fdict "replace" [(u "original_string", a); (u "old_string", b); (u "new_string", c)]
  | _ => Err ve
  end.

(** functions.py:877-888 *)
Definition f_split : fn := fun _ args =>
  f_two "split" "input_string" "delimiter" args.

(** functions.py:891-896 *)
Definition f_join : fn := fun _ args =>
  f_two "join" "input_array" "delimiter" args.

(** functions.py:899-910 *)
Definition f_starts_with : fn := fun _ args =>
  f_two "starts_with" "string_to_search" "string_to_find" args.

(** functions.py:913-919 *)
Definition f_string_func : fn := fun _ args =>
  f_index0 "string" "value_to_convert" args.

(** functions.py:922-934 *)
Definition f_substring : fn := fun _ args =>
  match args with
  | a :: b :: rest => fdict "substring" [(u "string_to_parse", a); (u "start_index", b); (u "length", head_or_none rest)]
  | _ => Err ve
  end.

(** functions.py:937-943 *)
Definition f_to_lower : fn := fun _ args =>
  f_index0 "to_lower" "string_to_change" args.

(** functions.py:946-952 *)
Definition f_to_upper : fn := fun _ args =>
  f_index0 "to_upper" "string_to_change" args.

(** functions.py:955-961 *)
Definition f_trim : fn := fun _ args =>
  f_index0 "trim" "string_to_trim" args.

(** functions.py:964-973 *)
Definition f_unique_string : fn := fun _ args =>
  match args with
  | a :: rest => fdict "unique_string" ((u "base_string", a) :: numbered (u "extra_string_") 1 rest)
  | [] => Err ve
  end.

(** functions.py:976-985 *)
Definition f_uri : fn := fun _ args =>
  f_two "uri" "base_uri" "relative_uri" args.

(** functions.py:988-994 *)
Definition f_uri_component : fn := fun _ args =>
  f_index0 "uri_component" "string_to_encode" args.

(** functions.py:997-1005 *)
Definition f_uri_component_to_string : fn := fun _ args =>
  f_index0 "uri_component_to_string" "uri_encoded_string" args.

(** functions.py:1015-1019 *)
Definition f_unknown_func : fn := fun name args =>
  Ok (PDict [(u "type", PStr name); (u "parameters", PDict (dict_of (numbered (u "arg_") 1 args)))]).

(** functions.py:1028-1175 [FUNCTIONS]. *)
Definition FUNCTIONS : list (str * fn) :=
  [ (u "any", f_any_func);
    (u "sys.any", f_any_func);
    (u "array", f_array_func);
    (u "sys.array", f_array_func);
    (u "concat", f_concat);
    (u "sys.concat", f_concat);
    (u "contains", f_contains);
    (u "sys.contains", f_contains);
    (u "empty", f_empty);
    (u "sys.empty", f_empty);
    (u "first", f_first);
    (u "sys.first", f_first);
    (u "flatten", f_flatten);
    (u "sys.flatten", f_flatten);
    (u "intersection", f_intersection);
    (u "sys.intersection", f_intersection);
    (u "last", f_last);
    (u "sys.last", f_last);
    (u "length", f_length);
    (u "sys.length", f_length);
    (u "max", f_max_func);
    (u "sys.max", f_max_func);
    (u "min", f_min_func);
    (u "sys.min", f_min_func);
    (u "range", f_range_func);
    (u "sys.range", f_range_func);
    (u "skip", f_skip);
    (u "sys.skip", f_skip);
    (u "take", f_take);
    (u "sys.take", f_take);
    (u "union", f_union);
    (u "sys.union", f_union);
    (u "dateTimeAdd", f_date_time_add);
    (u "sys.dateTimeAdd", f_date_time_add);
    (u "dateTimeFromEpoch", f_date_time_from_epoch);
    (u "sys.dateTimeFromEpoch", f_date_time_from_epoch);
    (u "dateTimeToEpoch", f_date_time_to_epoch);
    (u "sys.dateTimeToEpoch", f_date_time_to_epoch);
    (u "utcNow", f_utc_now);
    (u "sys.utcNow", f_utc_now);
    (u "deployment", f_deployment);
    (u "az.deployment", f_deployment);
    (u "environment", f_environment);
    (u "az.environment", f_environment);
    (u "loadFileAsBase64", f_load_file_as_base64);
    (u "sys.loadFileAsBase64", f_load_file_as_base64);
    (u "loadJsonContent", f_load_json_content);
    (u "sys.loadJsonContent", f_load_json_content);
    (u "loadTextContent", f_load_text_content);
    (u "sys.loadTextContent", f_load_text_content);
    (u "loadYamlContent", f_load_yaml_content);
    (u "sys.loadYamlContent", f_load_yaml_content);
    (u "filter", f_filter_func);
    (u "sys.filter", f_filter_func);
    (u "bool", f_bool_func);
    (u "sys.bool", f_bool_func);
    (u "int", f_int_func);
    (u "sys.int", f_int_func);
    (u "json", f_json_func);
    (u "sys.json", f_json_func);
    (u "extensionResourceId", f_extension_resource_id);
    (u "az.extensionResourceId", f_extension_resource_id);
    (u "listKeys", f_list_func);
    (u "az.listKeys", f_list_func);
    (u "managementGroupResourceId", f_management_group_resource_id);
    (u "az.managementGroupResourceId", f_management_group_resource_id);
    (u "pickZones", f_pick_zones);
    (u "az.pickZones", f_pick_zones);
    (u "reference", f_reference);
    (u "az.reference", f_reference);
    (u "resourceId", f_resource_id);
    (u "az.resourceId", f_resource_id);
    (u "subscriptionResourceId", f_subscription_resource_id);
    (u "az.subscriptionResourceId", f_subscription_resource_id);
    (u "tenantResourceId", f_tenant_resource_id);
    (u "az.tenantResourceId", f_tenant_resource_id);
    (u "managementGroup", f_management_group);
    (u "az.managementGroup", f_management_group);
    (u "resourceGroup", f_resource_group);
    (u "az.resourceGroup", f_resource_group);
    (u "subscription", f_subscription);
    (u "az.subscription", f_subscription);
    (u "tenant", f_tenant);
    (u "az.tenant", f_tenant);
    (u "base64", f_base64_func);
    (u "sys.base64", f_base64_func);
    (u "base64ToJson", f_base64_to_json);
    (u "sys.base64ToJson", f_base64_to_json);
    (u "base64ToString", f_base64_to_string);
    (u "sys.base64ToString", f_base64_to_string);
    (u "dataUri", f_data_uri);
    (u "sys.dataUri", f_data_uri);
    (u "dataUriToString", f_data_uri_to_string);
    (u "sys.dataUriToString", f_data_uri_to_string);
    (u "endsWith", f_ends_with);
    (u "sys.endsWith", f_ends_with);
    (u "format", f_format_func);
    (u "sys.format", f_format_func);
    (u "guid", f_guid);
    (u "sys.guid", f_guid);
    (u "indexOf", f_index_of);
    (u "sys.indexOf", f_index_of);
    (u "join", f_join);
    (u "sys.join", f_join);
    (u "lastIndexOf", f_last_index_of);
    (u "sys.lastIndexOf", f_last_index_of);
    (u "newGuid", f_new_guid);
    (u "sys.newGuid", f_new_guid);
    (u "padLeft", f_pad_left);
    (u "sys.padLeft", f_pad_left);
    (u "replace", f_replace);
    (u "sys.replace", f_replace);
    (u "split", f_split);
    (u "sys.split", f_split);
    (u "startsWith", f_starts_with);
    (u "sys.startsWith", f_starts_with);
    (u "string", f_string_func);
    (u "sys.string", f_string_func);
    (u "substring", f_substring);
    (u "sys.substring", f_substring);
    (u "toLower", f_to_lower);
    (u "sys.toLower", f_to_lower);
    (u "toUpper", f_to_upper);
    (u "sys.toUpper", f_to_upper);
    (u "trim", f_trim);
    (u "sys.trim", f_trim);
    (u "uniqueString", f_unique_string);
    (u "sys.uniqueString", f_unique_string);
    (u "uri", f_uri);
    (u "sys.uri", f_uri);
    (u "uriComponent", f_uri_component);
    (u "sys.uriComponent", f_uri_component);
    (u "uriComponentToString", f_uri_component_to_string);
    (u "sys.uriComponentToString", f_uri_component_to_string) ].
