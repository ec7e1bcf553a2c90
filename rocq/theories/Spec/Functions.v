(** Specification: how calls of the built-in functions are reported (C22-C25). *)
From Coq Require Import List Arith NArith ZArith Bool String.
From Verif Require Import Py.Str Py.Val Spec.Values.
Import ListNotations.
Local Open Scope string_scope.

(** What a function does with its arguments. *)
Inductive signature :=
| Nothing                                     (* reports no parameters at all *)
| Takes (too_few : exn) (required optional : list string)
                                              (* surplus arguments are ignored *)
| Exactly (required : list string)            (* any other number is a ValueError *)
| Many (required : list string) (prefix : string) (start : nat)
                                              (* all further ones under numbered keys *)
| Either (required : string) (a b : string)   (* one or two more, or neither is reported *)
| PickZones | ListKeys | ResourceId | SubscriptionResourceId | ResourceGroup.

Definition pad (n : nat) (vs : list pyval) : list pyval := firstn n (vs ++ repeat PNone n)%list.
Definition named (names : list string) (vs : list pyval) : list (str * pyval) := combine (map u names) vs.

Definition parameters_of (sg : signature) (args : list pyval) : result (list (str * pyval)) :=
  let n := List.length args in
  match sg with
  | Nothing => Ok []
  | Takes e req opt =>
      if Nat.ltb n (List.length req) then Err e
      else Ok (named (req ++ opt)%list (pad (List.length req + List.length opt) args))
  | Exactly req => if Nat.eqb n (List.length req) then Ok (named req args) else Err (EValueError [])
  | Many req prefix start =>
      if Nat.ltb n (List.length req) then Err (EValueError [])
      else Ok (named req args ++ listed prefix start (skipn (List.length req) args))%list
  | Either r a b =>
      if Nat.eqb n 0 then Err (EValueError [])
      else Ok (named [r; a; b] (if Nat.leb n 3 then pad 3 args else (firstn 1 args ++ [PNone; PNone])%list))
  | PickZones =>
      if Nat.ltb n 3 then Err EIndexError
      else Ok (named ["provider_namespace"; "resource_type"; "location"; "number_of_zones"; "offset"]
                (if Nat.leb n 5 then pad 5 args else (firstn 4 args ++ [PNone])%list))
  | ListKeys =>
      if Nat.eqb n 2 then Ok (named ["func_name"; "resource_identifier"; "api_version"] (PStr (u "listKeys") :: args))
      else Err (EValueError [])
  | ResourceId =>
      match args with
      | [t; n1] => Ok (named ["resource_type"; "resource_name_1"; "resource_name_2"; "resource_group_name"; "subscription_id"]
                         [t; n1; PNone; PNone; PNone])
      | [t; n1; n2] => Ok (named ["resource_type"; "resource_name_1"; "resource_name_2"; "resource_group_name"; "subscription_id"]
                             [t; n1; n2; PNone; PNone])
      | [g; t; n1; n2] => Ok (named ["resource_type"; "resource_name_1"; "resource_name_2"; "resource_group_name"; "subscription_id"]
                                [t; n1; n2; g; PNone])
      | s :: g :: t :: names => Ok ((u "resource_type", t) :: listed "resource_name_" 1 names
                                     ++ [(u "resource_group_name", g); (u "subscription_id", s)])%list
      | _ => Err EIndexError
      end
  | SubscriptionResourceId =>
      match args with
      | [t; n1] => Ok (named ["resource_type"; "resource_name_1"; "resource_name_2"; "subscription_id"] [t; n1; PNone; PNone])
      | [t; n1; n2] => Ok (named ["resource_type"; "resource_name_1"; "resource_name_2"; "subscription_id"] [t; n1; n2; PNone])
      | s :: t :: n1 :: n2 :: _ => Ok (named ["resource_type"; "resource_name_1"; "resource_name_2"; "subscription_id"] [t; n1; n2; s])
      | _ => Err EIndexError
      end
  | ResourceGroup =>
      match args with
      | [a] => Ok (named ["resource_group_name"; "subscription_id"] [a; PNone])
      | [a; b] => Ok (named ["resource_group_name"; "subscription_id"] (if truthy a && truthy b then [b; a] else [a; b]))
      | _ => Ok (named ["resource_group_name"; "subscription_id"] [PNone; PNone])
      end
  end.

Record builtin := { b_name : string; b_space : string; b_type : string; b_sig : signature }.
Definition sys n t s := {| b_name := n; b_space := "sys"; b_type := t; b_sig := s |}.
Definition az n t s := {| b_name := n; b_space := "az"; b_type := t; b_sig := s |}.
Definition one (p : string) : signature := Takes EIndexError [p] [].

Definition builtins : list builtin :=
  [ sys "any" "any" (one "value");
    (* arrays *)
    sys "array" "array" (one "convert_to_array");
    sys "concat" "concat" (Many ["arg_1"] "arg_" 2);
    sys "contains" "contains" (Exactly ["container"; "item_to_find"]);
    sys "empty" "empty" (one "item_to_test");
    sys "first" "first" (one "arg_1");
    sys "flatten" "flatten" (one "array_to_flattern");
    sys "intersection" "intersection" (Many ["arg_1"; "arg_2"] "arg_" 3);
    sys "last" "last" (one "arg_1");
    sys "length" "length" (one "arg_1");
    sys "max" "max" (Many ["arg_1"] "arg_" 2);
    sys "min" "min" (Many ["arg_1"] "arg_" 2);
    sys "range" "range" (Exactly ["start_index"; "count"]);
    sys "skip" "skip" (Exactly ["original_value"; "number_to_skip"]);
    sys "take" "take" (Exactly ["original_value"; "number_to_take"]);
    sys "union" "union" (Many ["arg_1"; "arg_2"] "arg_" 3);
    (* dates *)
    sys "dateTimeAdd" "date_time_add" (Takes (EValueError []) ["base"; "duration"] ["format"]);
    sys "dateTimeFromEpoch" "date_time_from_epoch" (one "epoch_time");
    sys "dateTimeToEpoch" "date_time_to_epoch" (one "date_time");
    sys "utcNow" "utc_now" (Takes (EValueError []) [] ["format"]);
    (* deployment *)
    az "deployment" "deployment" Nothing;
    az "environment" "environment" Nothing;
    (* files *)
    sys "loadFileAsBase64" "load_file_as_base64" (one "file_path");
    sys "loadJsonContent" "load_json_content" (Either "file_path" "json_path" "encoding");
    sys "loadTextContent" "load_text_content" (Takes (EValueError []) ["file_path"] ["encoding"]);
    sys "loadYamlContent" "load_yaml_content" (Either "file_path" "path_filter" "encoding");
    (* lambdas, logic, numbers, objects *)
    sys "filter" "filter" (Exactly ["input_array"; "expression"]);
    sys "bool" "bool" (one "arg_1");
    sys "int" "int" (one "value_to_convert");
    sys "json" "json" (one "arg_1");
    (* resources *)
    az "extensionResourceId" "extension_resource_id"
      (Takes EIndexError ["resource_id"; "resource_type"; "resource_name_1"] ["resource_name_2"]);
    az "listKeys" "list_func" ListKeys;
    az "managementGroupResourceId" "management_group_resource_id"
      (Takes EIndexError ["resource_type"; "resource_name_1"] ["resource_name_2"]);
    az "pickZones" "pick_zones" PickZones;
    az "reference" "reference" (Either "resource_identifier" "api_version" "full");
    az "resourceId" "resource_id" ResourceId;
    az "subscriptionResourceId" "subscription_resource_id" SubscriptionResourceId;
    az "tenantResourceId" "tenant_resource_id"
      (Takes EIndexError ["resource_type"; "resource_name_1"] ["resource_name_2"]);
    (* scopes *)
    az "managementGroup" "management_group" (Takes (EValueError []) [] ["identifier"]);
    az "resourceGroup" "resource_group" ResourceGroup;
    az "subscription" "subscription" (Takes (EValueError []) [] ["subscription_id"]);
    az "tenant" "tenant" Nothing;
    (* strings *)
    sys "base64" "base64" (one "input_string");
    sys "base64ToJson" "base64_to_json" (one "base64_value");
    sys "base64ToString" "base64_to_string" (one "base64_value");
    sys "dataUri" "data_uri" (one "string_to_convert");
    sys "dataUriToString" "data_uri_to_string" (one "data_uri_to_convert");
    sys "endsWith" "ends_with" (Exactly ["string_to_search"; "string_to_find"]);
    sys "format" "format" (Many ["format_string"] "arg_" 1);
    sys "guid" "guid" (Many ["base_string"] "extra_string_" 1);
    sys "indexOf" "index_of" (Exactly ["string_to_search"; "string_to_find"]);
    sys "join" "join" (Exactly ["input_array"; "delimiter"]);
    sys "lastIndexOf" "last_index_of" (Exactly ["string_to_search"; "string_to_find"]);
    sys "newGuid" "new_guid" Nothing;
    sys "padLeft" "pad_left" (Takes (EValueError []) ["value_to_pad"; "total_length"] ["padding_character"]);
    sys "replace" "replace" (Exactly ["original_string"; "old_string"; "new_string"]);
    sys "split" "split" (Exactly ["input_string"; "delimiter"]);
    sys "startsWith" "starts_with" (Exactly ["string_to_search"; "string_to_find"]);
    sys "string" "string" (one "value_to_convert");
    sys "substring" "substring" (Takes (EValueError []) ["string_to_parse"; "start_index"] ["length"]);
    sys "toLower" "to_lower" (one "string_to_change");
    sys "toUpper" "to_upper" (one "string_to_change");
    sys "trim" "trim" (one "string_to_trim");
    sys "uniqueString" "unique_string" (Many ["base_string"] "extra_string_" 1);
    sys "uri" "uri" (Exactly ["base_uri"; "relative_uri"]);
    sys "uriComponent" "uri_component" (one "string_to_encode");
    sys "uriComponentToString" "uri_component_to_string" (one "uri_encoded_string") ].

(** A call is reported by the function owning the name, plain or with its own
    namespace; any other name is unknown and keeps all arguments. *)
Definition owns (b : builtin) (name : str) : bool :=
  str_eqb name (u (b_name b)) || str_eqb name (u (b_space b) ++ u "." ++ u (b_name b))%list.
Definition known (name : str) : option builtin := find (fun b => owns b name) builtins.

Definition body (type : str) (sg : signature) (params : list (str * pyval)) : pyval :=
  match sg with
  | Nothing => PDict [(u "type", PStr type)]
  | _ => PDict [(u "type", PStr type); (u "parameters", PDict params)]
  end.
Definition call_report (name : str) (args : list pyval) : result pyval :=
  match known name with
  | Some b => match parameters_of (b_sig b) args with
              | Ok ps => Ok (PDict [(u "function", body (u (b_type b)) (b_sig b) ps)])
              | Err e => Err (EVisitError (u "function") e)
              end
  | None => Ok (PDict [(u "function", PDict [(u "type", PStr name); (u "parameters", PDict (listed "arg_" 1 args))])])
  end.
