(** Model of pycep/typing.py: the published types as data. *)
From Coq Require Import List NArith Bool String.
From Verif Require Import Py.Str Lark.Tree.
Import ListNotations.
Local Open Scope string_scope.

(** Type expressions, as far as typing.py and the annotations of the
    transformer use them. *)
Inductive pytype :=
| TyAny | TyNone | TyBool | TyInt | TyStr
| TyLit (l : list string)              (* Literal["a", "b"] *)
| TyLitBool (b : bool)                 (* Literal[True] *)
| TyUnion (l : list pytype)            (* a | b *)
| TyList (t : pytype)                  (* list[a] *)
| TyDict (t : pytype)                  (* dict[str, a] *)
| TyTuple (l : list pytype)            (* tuple[a, b] *)
| TyName (n : string).                 (* a name defined in typing.py *)

(** A TypedDict: the keys, whether they are required, and their types.  The
    comment "and many more possible" on the last key of some classes says that
    the numbering goes on; it is kept as the prefix of the numbered keys. *)
Definition field : Type := string * bool * pytype.
Inductive definition :=
| Alias (t : pytype)
| Class (fields : list field) (more : option (string * pytype)).
Definition table : Type := list (string * definition).

(** typing.py, in order (line in the file behind each entry). *)
Definition published : table :=
  [ ("PossibleValue", Alias (TyUnion [TyBool; TyInt; TyStr; TyList (TyUnion [TyBool; TyInt; TyStr]); TyDict (TyName "PossibleValue")]));  (* 7 *)
    ("PossibleNoneValue", Alias (TyUnion [TyName "PossibleValue"; TyNone]));  (* 8 *)
    ("DataType", Alias (TyUnion [TyStr; TyName "ArrayType"; TyName "UnionType"]));  (* 10 *)
    ("ModulePath", Alias (TyUnion [TyName "LocalModulePath"; TyName "BicepRegistryModulePath"; TyName "BicepRegistryAliasModulePath"; TyName "TemplateSpecModulePath"; TyName "TemplateSpecAliasModulePath"]));  (* 12 *)
    ("ModuleDetail", Alias (TyUnion [TyName "_LocalModulePathDetail"; TyName "_BicepRegistryModulePathDetail"; TyName "_BicepRegistryAliasModulePathDetail"; TyName "_TemplateSpecModulePathDetail"; TyName "_TemplateSpecAliasModulePathDetail"]));  (* 13 *)
    ("LoopType", Alias (TyUnion [TyName "LoopArray"; TyName "LoopArrayIndex"; TyName "LoopObject"; TyName "LoopRange"]));  (* 14 *)
    ("ElementResponse", Alias (TyUnion [TyName "ImportResponse"; TyName "ParamResponse"; TyName "VarResponse"; TyName "ResourceResponse"; TyName "ModuleResponse"; TyName "OutputResponse"; TyName "TypeResponse"; TyName "ExtensionResponse"; TyName "FunctionResponse"]));  (* 15 *)
    ("Decorator", Alias (TyUnion [TyName "DecoratorAllowed"; TyName "DecoratorBatchSize"; TyName "DecoratorDescription"; TyName "DecoratorExport"; TyName "DecoratorMinLength"; TyName "DecoratorMaxLength"; TyName "DecoratorMinValue"; TyName "DecoratorMaxValue"; TyName "DecoratorMetadata"; TyName "DecoratorSealed"; TyName "DecoratorSecure"; TyName "UnknownDecorator"]));  (* 16 *)
    ("ComparisonOperators", Alias (TyUnion [TyName "GreaterThanOrEquals"; TyName "GreaterThan"; TyName "LessThanOrEquals"; TyName "LessThan"; TyName "Equals"; TyName "NotEquals"; TyName "EqualsCaseInsensitive"; TyName "NotEqualsCaseInsensitive"]));  (* 18 *)
    ("LogicalOperators", Alias (TyUnion [TyName "And"; TyName "Or"; TyName "Not"; TyName "Coalesce"; TyName "Conditional"]));  (* 19 *)
    ("NumericOperators", Alias (TyUnion [TyName "Add"; TyName "Divide"; TyName "Minus"; TyName "Modulo"; TyName "Multiply"; TyName "Substract"]));  (* 20 *)
    ("AccessorOperators", Alias (TyUnion [TyName "IndexAccessor"; TyName "FunctionAccessor"; TyName "NestedResourceAccessor"; TyName "PropertyAccessor"]));  (* 21 *)
    ("Operators", Alias (TyUnion [TyName "ComparisonOperators"; TyName "LogicalOperators"; TyName "NumericOperators"; TyName "AccessorOperators"]));  (* 22 *)
    ("AnyFunctions", Alias (TyName "AnyFunc"));  (* 24 *)
    ("ArrayFunctions", Alias (TyUnion [TyName "Array"; TyName "Concat"; TyName "Contains"; TyName "Empty"; TyName "First"; TyName "Flatten"; TyName "Intersection"; TyName "Last"; TyName "Length"; TyName "Max"; TyName "Min"; TyName "Range"; TyName "Skip"; TyName "Take"; TyName "UnionFunc"]));  (* 25 *)
    ("DateFunctions", Alias (TyUnion [TyName "DateTimeAdd"; TyName "DateTimeFromEpoch"; TyName "DateTimeToEpoch"; TyName "UtcNow"]));  (* 26 *)
    ("DeploymentFunctions", Alias (TyUnion [TyName "Deployment"; TyName "Environment"]));  (* 27 *)
    ("FileFunctions", Alias (TyUnion [TyName "LoadFileAsBase64"; TyName "LoadJsonContent"; TyName "LoadYamlContent"; TyName "LoadTextContent"]));  (* 28 *)
    ("LambdaFunctions", Alias (TyName "Filter"));  (* 29 *)
    ("LogicalFunctions", Alias (TyName "BoolFunc"));  (* 30 *)
    ("NumericFunctions", Alias (TyName "IntFunc"));  (* 31 *)
    ("ObjectFunctions", Alias (TyName "Json"));  (* 32 *)
    ("ResourceFunctions", Alias (TyUnion [TyName "ExtensionResourceId"; TyName "ListFunc"; TyName "ManagementGroupResourceId"; TyName "PickZones"; TyName "Reference"; TyName "ResourceId"; TyName "SubscriptionResourceId"; TyName "TenantResourceId"]));  (* 33 *)
    ("ScopeFunctions", Alias (TyUnion [TyName "ManagementGroup"; TyName "ResourceGroup"; TyName "Subscription"; TyName "Tenant"]));  (* 34 *)
    ("StringFunctions", Alias (TyUnion [TyName "Base64"; TyName "Base64ToJson"; TyName "Base64ToString"; TyName "DataUri"; TyName "DataUriToString"; TyName "EndsWith"; TyName "Format"; TyName "Guid"; TyName "IndexOf"; TyName "Join"; TyName "LastIndexOf"; TyName "NewGuid"; TyName "PadLeft"; TyName "Replace"; TyName "Split"; TyName "StartsWith"; TyName "String"; TyName "Substring"; TyName "ToLower"; TyName "ToUpper"; TyName "Trim"; TyName "UniqueString"; TyName "Uri"; TyName "UriComponent"; TyName "UriComponentToString"]));  (* 35 *)
    ("Functions", Alias (TyUnion [TyName "AnyFunctions"; TyName "ArrayFunctions"; TyName "DateFunctions"; TyName "DeploymentFunctions"; TyName "FileFunctions"; TyName "LambdaFunctions"; TyName "LogicalFunctions"; TyName "NumericFunctions"; TyName "ObjectFunctions"; TyName "ResourceFunctions"; TyName "ScopeFunctions"; TyName "StringFunctions"; TyName "UnknownFunction"]));  (* 36 *)
    ("ArrayType", Class [("type", true, TyLit ["array"]); ("item_type", true, TyName "DataType")] None);  (* 46 *)
    ("UnionType", Class [("type", true, TyLit ["union"]); ("members", true, TyList (TyName "DataType"))] None);  (* 51 *)
    ("GlobalsAttributes", Class [("scope", true, TyName "ScopeAttributes")] None);  (* 63 *)
    ("Globals", Class [("globals", true, TyName "GlobalsAttributes")] None);  (* 67 *)
    ("ScopeAttributes", Class [("value", true, TyLit ["resourceGroup"; "subscription"; "managementGroup"; "tenant"]); ("__start_line__", false, TyInt); ("__end_line__", false, TyInt)] None);  (* 71 *)
    ("_Scope", Class [("__name__", true, TyLit ["scope"]); ("__attrs__", true, TyName "ScopeAttributes")] None);  (* 77 *)
    ("ScopeResponse", Class [("globals", true, TyName "_Scope")] None);  (* 82 *)
    ("ImportAttributes", Class [("alias", false, TyStr); ("file_path", false, TyStr); ("__start_line__", false, TyInt); ("__end_line__", false, TyInt)] None);  (* 86 *)
    ("_Import", Class [("__name__", true, TyStr); ("__attrs__", true, TyName "ImportAttributes")] None);  (* 93 *)
    ("ImportResponse", Class [("imports", true, TyName "_Import")] None);  (* 98 *)
    ("ImportNameAlias", Class [("name", true, TyStr); ("alias", false, TyStr)] None);  (* 102 *)
    ("MetadataAttributes", Class [("value", true, TyStr); ("__start_line__", false, TyInt); ("__end_line__", false, TyInt)] None);  (* 107 *)
    ("_Metadata", Class [("__name__", true, TyStr); ("__attrs__", true, TyName "MetadataAttributes")] None);  (* 113 *)
    ("MetadataResponse", Class [("metadata", true, TyName "_Metadata")] None);  (* 118 *)
    ("ExtensionAttributes", Class [("alias", false, TyStr); ("config", false, TyDict (TyAny)); ("__start_line__", false, TyInt); ("__end_line__", false, TyInt)] None);  (* 122 *)
    ("_Extension", Class [("__name__", true, TyStr); ("__attrs__", true, TyName "ExtensionAttributes")] None);  (* 129 *)
    ("ExtensionResponse", Class [("extensions", true, TyName "_Extension")] None);  (* 134 *)
    ("ParameterAttributes", Class [("decorators", true, TyList (TyName "Decorator")); ("type", true, TyName "DataType"); ("default", true, TyName "PossibleNoneValue"); ("__start_line__", false, TyInt); ("__end_line__", false, TyInt)] None);  (* 138 *)
    ("_Parameters", Class [("__name__", true, TyStr); ("__attrs__", true, TyName "ParameterAttributes")] None);  (* 146 *)
    ("ParamResponse", Class [("parameters", true, TyName "_Parameters")] None);  (* 151 *)
    ("VariableAttributes", Class [("decorators", true, TyList (TyName "Decorator")); ("type", false, TyName "DataType"); ("value", true, TyName "PossibleValue"); ("__start_line__", false, TyInt); ("__end_line__", false, TyInt)] None);  (* 155 *)
    ("_Variables", Class [("__name__", true, TyStr); ("__attrs__", true, TyName "VariableAttributes")] None);  (* 163 *)
    ("VarResponse", Class [("variables", true, TyName "_Variables")] None);  (* 168 *)
    ("OutputAttributes", Class [("decorators", true, TyList (TyName "Decorator")); ("type", true, TyName "DataType"); ("value", true, TyName "PossibleValue"); ("__start_line__", false, TyInt); ("__end_line__", false, TyInt)] None);  (* 172 *)
    ("_Outputs", Class [("__name__", true, TyStr); ("__attrs__", true, TyName "OutputAttributes")] None);  (* 180 *)
    ("OutputResponse", Class [("outputs", true, TyName "_Outputs")] None);  (* 185 *)
    ("ResourceAttributes", Class [("decorators", true, TyList (TyName "Decorator")); ("type", true, TyStr); ("api_version", true, TyStr); ("existing", true, TyBool); ("config", true, TyDict (TyAny)); ("__start_line__", false, TyInt); ("__end_line__", false, TyInt)] None);  (* 189 *)
    ("Resource", Class [("__name__", true, TyStr); ("__attrs__", true, TyName "ResourceAttributes")] None);  (* 199 *)
    ("ResourceResponse", Class [("resources", true, TyName "Resource")] None);  (* 204 *)
    ("ModuleAttributes", Class [("decorators", true, TyList (TyName "Decorator")); ("type", true, TyLit ["local"; "bicep_registry"; "bicep_registry_alias"; "template_spec"; "template_spec_alias"]); ("detail", true, TyName "ModuleDetail"); ("config", true, TyDict (TyAny)); ("__start_line__", false, TyInt); ("__end_line__", false, TyInt)] None);  (* 208 *)
    ("_Modules", Class [("__name__", true, TyStr); ("__attrs__", true, TyName "ModuleAttributes")] None);  (* 217 *)
    ("ModuleResponse", Class [("modules", true, TyName "_Modules")] None);  (* 222 *)
    ("ApiTypeVersion", Class [("type", true, TyStr); ("api_version", true, TyStr)] None);  (* 226 *)
    ("TypeAttributes", Alias (TyName "VariableAttributes"));  (* 231 *)
    ("_Types", Class [("__name__", true, TyStr); ("__attrs__", true, TyName "TypeAttributes")] None);  (* 234 *)
    ("TypeResponse", Class [("types", true, TyName "_Types")] None);  (* 239 *)
    ("FunctionAttributes", Class [("decorators", true, TyList (TyName "Decorator")); ("args", true, TyDict (TyName "DataType")); ("type", true, TyName "DataType"); ("expression", true, TyName "PossibleValue"); ("__start_line__", false, TyInt); ("__end_line__", false, TyInt)] None);  (* 243 *)
    ("_Functions", Class [("__name__", true, TyStr); ("__attrs__", true, TyName "FunctionAttributes")] None);  (* 252 *)
    ("FunctionResponse", Class [("functions", true, TyName "_Functions")] None);  (* 257 *)
    ("_LocalModulePathDetail", Class [("full", true, TyStr); ("path", true, TyStr)] None);  (* 268 *)
    ("LocalModulePath", Class [("type", true, TyLit ["local"]); ("detail", true, TyName "_LocalModulePathDetail")] None);  (* 273 *)
    ("_BicepRegistryModulePathDetail", Class [("full", true, TyStr); ("registry_name", true, TyStr); ("path", true, TyStr); ("tag", true, TyStr); ("public", true, TyBool)] None);  (* 278 *)
    ("BicepRegistryModulePath", Class [("type", true, TyLit ["bicep_registry"]); ("detail", true, TyName "_BicepRegistryModulePathDetail")] None);  (* 286 *)
    ("_BicepRegistryAliasModulePathDetail", Class [("full", true, TyStr); ("alias", true, TyStr); ("path", true, TyStr); ("tag", true, TyStr); ("public", true, TyBool)] None);  (* 291 *)
    ("BicepRegistryAliasModulePath", Class [("type", true, TyLit ["bicep_registry_alias"]); ("detail", true, TyName "_BicepRegistryAliasModulePathDetail")] None);  (* 299 *)
    ("_TemplateSpecModulePathDetail", Class [("full", true, TyStr); ("subscription_id", true, TyStr); ("resource_group_id", true, TyStr); ("name", true, TyStr); ("version", true, TyStr)] None);  (* 304 *)
    ("TemplateSpecModulePath", Class [("type", true, TyLit ["template_spec"]); ("detail", true, TyName "_TemplateSpecModulePathDetail")] None);  (* 312 *)
    ("_TemplateSpecAliasModulePathDetail", Class [("full", true, TyStr); ("alias", true, TyStr); ("path", true, TyStr); ("tag", true, TyStr)] None);  (* 317 *)
    ("TemplateSpecAliasModulePath", Class [("type", true, TyLit ["template_spec_alias"]); ("detail", true, TyName "_TemplateSpecAliasModulePathDetail")] None);  (* 324 *)
    ("_LoopRangeDetail", Class [("item_name", true, TyUnion [TyStr; TyNone]); ("index_name", true, TyStr); ("start_index", true, TyName "PossibleValue"); ("count", true, TyName "PossibleValue")] None);  (* 336 *)
    ("LoopRange", Class [("type", true, TyLit ["range"]); ("detail", true, TyName "_LoopRangeDetail")] None);  (* 343 *)
    ("_LoopArrayDetail", Class [("item_name", true, TyStr); ("array_name", true, TyName "PossibleValue")] None);  (* 348 *)
    ("LoopArray", Class [("type", true, TyLit ["array"]); ("detail", true, TyName "_LoopArrayDetail")] None);  (* 353 *)
    ("_LoopArrayIndexDetail", Class [("item_name", true, TyStr); ("index_name", true, TyStr); ("array_name", true, TyName "PossibleValue")] None);  (* 358 *)
    ("LoopArrayIndex", Class [("type", true, TyLit ["array_index"]); ("detail", true, TyName "_LoopArrayIndexDetail")] None);  (* 364 *)
    ("_LoopObjectDetail", Class [("item_name", true, TyStr); ("object_name", true, TyStr)] None);  (* 369 *)
    ("LoopObject", Class [("type", true, TyLit ["object"]); ("detail", true, TyName "_LoopObjectDetail")] None);  (* 374 *)
    ("Loop", Class [("loop_type", true, TyName "LoopType"); ("condition", true, TyName "PossibleNoneValue"); ("config", true, TyDict (TyAny))] None);  (* 379 *)
    ("DeployCondition", Class [("condition", true, TyName "PossibleValue"); ("config", true, TyDict (TyAny))] None);  (* 392 *)
    ("DecoratorAllowed", Class [("type", true, TyLit ["allowed"]); ("argument", true, TyList (TyUnion [TyInt; TyStr]))] None);  (* 404 *)
    ("DecoratorBatchSize", Class [("type", true, TyLit ["batchSize"]); ("argument", true, TyInt)] None);  (* 409 *)
    ("DecoratorDescription", Class [("type", true, TyLit ["description"]); ("argument", true, TyStr)] None);  (* 414 *)
    ("DecoratorExport", Class [("type", true, TyLit ["export"])] None);  (* 419 *)
    ("DecoratorMinLength", Class [("type", true, TyLit ["min_length"]); ("argument", true, TyInt)] None);  (* 423 *)
    ("DecoratorMaxLength", Class [("type", true, TyLit ["max_length"]); ("argument", true, TyInt)] None);  (* 428 *)
    ("DecoratorMinValue", Class [("type", true, TyLit ["min_value"]); ("argument", true, TyInt)] None);  (* 433 *)
    ("DecoratorMaxValue", Class [("type", true, TyLit ["max_value"]); ("argument", true, TyInt)] None);  (* 438 *)
    ("DecoratorMetadata", Class [("type", true, TyLit ["metadata"]); ("argument", true, TyDict (TyAny))] None);  (* 443 *)
    ("DecoratorSealed", Class [("type", true, TyLit ["sealed"])] None);  (* 448 *)
    ("DecoratorSecure", Class [("type", true, TyLit ["secure"])] None);  (* 452 *)
    ("_LambdaExpressionDetail", Class [("var_1", true, TyStr); ("var_2", false, TyStr); ("var_3", false, TyStr); ("expression", true, TyName "PossibleValue")] None);  (* 463 *)
    ("LambdaExpression", Class [("type", true, TyLit ["lambda_expression"]); ("detail", true, TyName "_LambdaExpressionDetail")] None);  (* 470 *)
    ("Function", Class [("function", true, TyName "Functions")] None);  (* 482 *)
    ("_AnyParameters", Class [("value", true, TyName "PossibleValue")] None);  (* 493 *)
    ("AnyFunc", Class [("type", true, TyLit ["any"]); ("parameters", true, TyName "_AnyParameters")] None);  (* 497 *)
    ("_ArrayParameters", Class [("convert_to_array", true, TyName "PossibleValue")] None);  (* 509 *)
    ("Array", Class [("type", true, TyLit ["array"]); ("parameters", true, TyName "_ArrayParameters")] None);  (* 513 *)
    ("Concat", Class [("type", true, TyLit ["concat"]); ("parameters", true, TyName "_UnionParameters")] None);  (* 518 *)
    ("_ContainsParameters", Class [("container", true, TyName "PossibleValue"); ("item_to_find", true, TyName "PossibleValue")] None);  (* 523 *)
    ("Contains", Class [("type", true, TyLit ["contains"]); ("parameters", true, TyName "_ContainsParameters")] None);  (* 528 *)
    ("_EmptyParameters", Class [("item_to_test", true, TyName "PossibleValue")] None);  (* 533 *)
    ("Empty", Class [("type", true, TyLit ["empty"]); ("parameters", true, TyName "_EmptyParameters")] None);  (* 537 *)
    ("First", Class [("type", true, TyLit ["first"]); ("parameters", true, TyName "_LengthParameters")] None);  (* 542 *)
    ("_FlattenParameters", Class [("array_to_flattern", true, TyName "PossibleValue")] None);  (* 547 *)
    ("Flatten", Class [("type", true, TyLit ["flatten"]); ("parameters", true, TyName "_FlattenParameters")] None);  (* 551 *)
    ("Intersection", Class [("type", true, TyLit ["intersection"]); ("parameters", true, TyName "_UnionParameters")] None);  (* 556 *)
    ("Last", Class [("type", true, TyLit ["last"]); ("parameters", true, TyName "_LengthParameters")] None);  (* 561 *)
    ("_LengthParameters", Class [("arg_1", true, TyName "PossibleValue")] None);  (* 566 *)
    ("Length", Class [("type", true, TyLit ["length"]); ("parameters", true, TyName "_LengthParameters")] None);  (* 570 *)
    ("Max", Class [("type", true, TyLit ["max"]); ("parameters", true, TyName "_UnionParameters")] None);  (* 575 *)
    ("Min", Class [("type", true, TyLit ["min"]); ("parameters", true, TyName "_UnionParameters")] None);  (* 580 *)
    ("_RangeParameters", Class [("start_index", true, TyName "PossibleValue"); ("count", true, TyName "PossibleValue")] None);  (* 585 *)
    ("Range", Class [("type", true, TyLit ["range"]); ("parameters", true, TyName "_RangeParameters")] None);  (* 590 *)
    ("_SkipParameters", Class [("original_value", true, TyName "PossibleValue"); ("number_to_skip", true, TyName "PossibleValue")] None);  (* 595 *)
    ("Skip", Class [("type", true, TyLit ["skip"]); ("parameters", true, TyName "_SkipParameters")] None);  (* 600 *)
    ("_TakeParameters", Class [("original_value", true, TyName "PossibleValue"); ("number_to_take", true, TyName "PossibleValue")] None);  (* 605 *)
    ("Take", Class [("type", true, TyLit ["take"]); ("parameters", true, TyName "_TakeParameters")] None);  (* 610 *)
    ("_UnionParameters", Class [("arg_1", true, TyStr); ("arg_2", true, TyStr); ("arg_3", false, TyStr)] (Some ("arg_", TyStr)));  (* 615 *)
    ("UnionFunc", Class [("type", true, TyLit ["union"]); ("parameters", true, TyName "_UnionParameters")] None);  (* 621 *)
    ("_DateTimeAddParameters", Class [("base", true, TyName "PossibleValue"); ("duration", true, TyName "PossibleValue"); ("format", true, TyName "PossibleNoneValue")] None);  (* 633 *)
    ("DateTimeAdd", Class [("type", true, TyLit ["date_time_add"]); ("parameters", true, TyName "_DateTimeAddParameters")] None);  (* 639 *)
    ("_DateTimeFromEpochParameters", Class [("epoch_time", true, TyName "PossibleValue")] None);  (* 644 *)
    ("DateTimeFromEpoch", Class [("type", true, TyLit ["date_time_from_epoch"]); ("parameters", true, TyName "_DateTimeFromEpochParameters")] None);  (* 648 *)
    ("_DateTimeToEpochParameters", Class [("date_time", true, TyName "PossibleValue")] None);  (* 653 *)
    ("DateTimeToEpoch", Class [("type", true, TyLit ["date_time_to_epoch"]); ("parameters", true, TyName "_DateTimeToEpochParameters")] None);  (* 657 *)
    ("_UtcNowParameters", Class [("format", true, TyName "PossibleNoneValue")] None);  (* 662 *)
    ("UtcNow", Class [("type", true, TyLit ["utc_now"]); ("parameters", true, TyName "_UtcNowParameters")] None);  (* 666 *)
    ("Deployment", Class [("type", true, TyLit ["deployment"])] None);  (* 678 *)
    ("Environment", Class [("type", true, TyLit ["environment"])] None);  (* 682 *)
    ("_LoadFileAsBase64Parameters", Class [("file_path", true, TyName "PossibleValue")] None);  (* 693 *)
    ("LoadFileAsBase64", Class [("type", true, TyLit ["load_file_as_base64"]); ("parameters", true, TyName "_LoadFileAsBase64Parameters")] None);  (* 697 *)
    ("_LoadJsonContentParameters", Class [("file_path", true, TyName "PossibleValue"); ("json_path", true, TyName "PossibleNoneValue"); ("encoding", true, TyName "PossibleNoneValue")] None);  (* 702 *)
    ("LoadJsonContent", Class [("type", true, TyLit ["load_json_content"]); ("parameters", true, TyName "_LoadJsonContentParameters")] None);  (* 708 *)
    ("_LoadYamlContentParameters", Class [("file_path", true, TyName "PossibleValue"); ("path_filter", true, TyName "PossibleNoneValue"); ("encoding", true, TyName "PossibleNoneValue")] None);  (* 713 *)
    ("LoadYamlContent", Class [("type", true, TyLit ["load_yaml_content"]); ("parameters", true, TyName "_LoadYamlContentParameters")] None);  (* 719 *)
    ("_LoadTextContentParameters", Class [("file_path", true, TyName "PossibleValue"); ("encoding", true, TyName "PossibleNoneValue")] None);  (* 724 *)
    ("LoadTextContent", Class [("type", true, TyLit ["load_text_content"]); ("parameters", true, TyName "_LoadTextContentParameters")] None);  (* 729 *)
    ("_FilterParameters", Class [("input_array", true, TyName "PossibleValue"); ("expression", true, TyName "PossibleValue")] None);  (* 741 *)
    ("Filter", Class [("type", true, TyLit ["filter"]); ("parameters", true, TyName "_FilterParameters")] None);  (* 746 *)
    ("BoolFunc", Class [("type", true, TyLit ["bool"]); ("parameters", true, TyName "_JsonParameters")] None);  (* 758 *)
    ("IntFunc", Class [("type", true, TyLit ["int"]); ("parameters", true, TyName "_StringParameters")] None);  (* 770 *)
    ("_JsonParameters", Class [("arg_1", true, TyName "PossibleValue")] None);  (* 782 *)
    ("Json", Class [("type", true, TyLit ["json"]); ("parameters", true, TyName "_JsonParameters")] None);  (* 786 *)
    ("_ExtensionResourceIdParameters", Class [("resource_id", true, TyStr); ("resource_type", true, TyStr); ("resource_name_1", true, TyStr); ("resource_name_2", true, TyUnion [TyStr; TyNone])] None);  (* 798 *)
    ("ExtensionResourceId", Class [("type", true, TyLit ["extension_resource_id"]); ("parameters", true, TyName "_ExtensionResourceIdParameters")] None);  (* 805 *)
    ("_ListFuncParameters", Class [("func_name", true, TyName "PossibleValue"); ("resource_identifier", true, TyName "PossibleValue"); ("api_version", true, TyName "PossibleValue")] None);  (* 810 *)
    ("ListFunc", Class [("type", true, TyLit ["list_func"]); ("parameters", true, TyName "_ListFuncParameters")] None);  (* 816 *)
    ("ManagementGroupResourceId", Class [("type", true, TyLit ["management_group_resource_id"]); ("parameters", true, TyName "_TenantResourceIdParameters")] None);  (* 821 *)
    ("_PickZonesParameters", Class [("provider_namespace", true, TyName "PossibleValue"); ("resource_type", true, TyName "PossibleValue"); ("location", true, TyName "PossibleValue"); ("number_of_zones", true, TyName "PossibleNoneValue"); ("offset", true, TyName "PossibleNoneValue")] None);  (* 826 *)
    ("PickZones", Class [("type", true, TyLit ["pick_zones"]); ("parameters", true, TyName "_PickZonesParameters")] None);  (* 834 *)
    ("_ReferenceParameters", Class [("resource_identifier", true, TyName "PossibleValue"); ("api_version", true, TyName "PossibleNoneValue"); ("full", true, TyName "PossibleNoneValue")] None);  (* 839 *)
    ("Reference", Class [("type", true, TyLit ["reference"]); ("parameters", true, TyName "_ReferenceParameters")] None);  (* 845 *)
    ("_ResourceIdParameters", Class [("resource_type", true, TyStr); ("resource_name_1", true, TyStr); ("resource_name_2", true, TyUnion [TyStr; TyNone]); ("resource_group_name", true, TyUnion [TyStr; TyNone]); ("subscription_id", true, TyUnion [TyStr; TyNone])] None);  (* 850 *)
    ("ResourceId", Class [("type", true, TyLit ["resource_id"]); ("parameters", true, TyName "_ResourceIdParameters")] None);  (* 858 *)
    ("_SubscriptionResourceIdParameters", Class [("resource_type", true, TyStr); ("resource_name_1", true, TyStr); ("resource_name_2", true, TyUnion [TyStr; TyNone]); ("subscription_id", true, TyUnion [TyStr; TyNone])] None);  (* 863 *)
    ("SubscriptionResourceId", Class [("type", true, TyLit ["subscription_resource_id"]); ("parameters", true, TyName "_SubscriptionResourceIdParameters")] None);  (* 870 *)
    ("_TenantResourceIdParameters", Class [("resource_type", true, TyStr); ("resource_name_1", true, TyStr); ("resource_name_2", true, TyUnion [TyStr; TyNone])] None);  (* 875 *)
    ("TenantResourceId", Class [("type", true, TyLit ["tenant_resource_id"]); ("parameters", true, TyName "_TenantResourceIdParameters")] None);  (* 881 *)
    ("_ManagementGroupParameters", Class [("identifier", true, TyName "PossibleNoneValue")] None);  (* 893 *)
    ("ManagementGroup", Class [("type", true, TyLit ["management_group"]); ("parameters", true, TyName "_ManagementGroupParameters")] None);  (* 897 *)
    ("_ResourceGroupParameters", Class [("resource_group_name", true, TyName "PossibleNoneValue"); ("subscription_id", true, TyName "PossibleNoneValue")] None);  (* 902 *)
    ("ResourceGroup", Class [("type", true, TyLit ["resource_group"]); ("parameters", true, TyName "_ResourceGroupParameters")] None);  (* 907 *)
    ("_SubscriptionParameters", Class [("subscription_id", true, TyName "PossibleNoneValue")] None);  (* 912 *)
    ("Subscription", Class [("type", true, TyLit ["subscription"]); ("parameters", true, TyName "_SubscriptionParameters")] None);  (* 916 *)
    ("Tenant", Class [("type", true, TyLit ["tenant"])] None);  (* 921 *)
    ("_Base64Parameters", Class [("input_string", true, TyName "PossibleValue")] None);  (* 932 *)
    ("Base64", Class [("type", true, TyLit ["base64"]); ("parameters", true, TyName "_Base64Parameters")] None);  (* 936 *)
    ("_Base64ToJsonParameters", Class [("base64_value", true, TyName "PossibleValue")] None);  (* 941 *)
    ("Base64ToJson", Class [("type", true, TyLit ["base64_to_json"]); ("parameters", true, TyName "_Base64ToJsonParameters")] None);  (* 945 *)
    ("Base64ToString", Class [("type", true, TyLit ["base64_to_string"]); ("parameters", true, TyName "_Base64ToJsonParameters")] None);  (* 950 *)
    ("_DataUriParameters", Class [("string_to_convert", true, TyName "PossibleValue")] None);  (* 955 *)
    ("DataUri", Class [("type", true, TyLit ["data_uri"]); ("parameters", true, TyName "_DataUriParameters")] None);  (* 959 *)
    ("_DataUriToStringParameters", Class [("data_uri_to_convert", true, TyName "PossibleValue")] None);  (* 964 *)
    ("DataUriToString", Class [("type", true, TyLit ["data_uri_to_string"]); ("parameters", true, TyName "_DataUriToStringParameters")] None);  (* 968 *)
    ("EndsWith", Class [("type", true, TyLit ["ends_with"]); ("parameters", true, TyName "_StartsWithParameters")] None);  (* 973 *)
    ("_FormatParameters", Class [("format_string", true, TyName "PossibleValue"); ("arg_1", true, TyName "PossibleValue"); ("arg_2", false, TyName "PossibleValue")] (Some ("arg_", TyName "PossibleValue")));  (* 978 *)
    ("Format", Class [("type", true, TyLit ["format"]); ("parameters", true, TyName "_FormatParameters")] None);  (* 984 *)
    ("_GuidParameters", Class [("base_string", true, TyStr); ("extra_string_1", false, TyStr)] (Some ("extra_string_", TyStr)));  (* 989 *)
    ("Guid", Class [("type", true, TyLit ["guid"]); ("parameters", true, TyName "_GuidParameters")] None);  (* 994 *)
    ("_IndexOfParameters", Class [("string_to_search", true, TyName "PossibleValue"); ("string_to_find", true, TyName "PossibleValue")] None);  (* 999 *)
    ("IndexOf", Class [("type", true, TyLit ["index_of"]); ("parameters", true, TyName "_IndexOfParameters")] None);  (* 1004 *)
    ("LastIndexOf", Class [("type", true, TyLit ["last_index_of"]); ("parameters", true, TyName "_IndexOfParameters")] None);  (* 1009 *)
    ("NewGuid", Class [("type", true, TyLit ["new_guid"])] None);  (* 1014 *)
    ("_PadLeftParameters", Class [("value_to_pad", true, TyName "PossibleValue"); ("total_length", true, TyName "PossibleValue"); ("padding_character", true, TyName "PossibleNoneValue")] None);  (* 1018 *)
    ("PadLeft", Class [("type", true, TyLit ["pad_left"]); ("parameters", true, TyName "_PadLeftParameters")] None);  (* 1024 *)
    ("_ReplaceParameters", Class [("original_string", true, TyName "PossibleValue"); ("old_string", true, TyName "PossibleValue"); ("new_string", true, TyName "PossibleValue")] None);  (* 1029 *)
    ("Replace", Class [("type", true, TyLit ["replace"]); ("parameters", true, TyName "_ReplaceParameters")] None);  (* 1035 *)
    ("_SplitParameters", Class [("input_string", true, TyName "PossibleValue"); ("delimiter", true, TyName "PossibleValue")] None);  (* 1040 *)
    ("Split", Class [("type", true, TyLit ["split"]); ("parameters", true, TyName "_SplitParameters"); ("index", false, TyInt)] None);  (* 1045 *)
    ("_JoinParameters", Class [("input_array", true, TyName "PossibleValue"); ("delimiter", true, TyName "PossibleValue")] None);  (* 1051 *)
    ("Join", Class [("type", true, TyLit ["join"]); ("parameters", true, TyName "_JoinParameters")] None);  (* 1056 *)
    ("_StartsWithParameters", Class [("string_to_search", true, TyName "PossibleValue"); ("string_to_find", true, TyName "PossibleValue")] None);  (* 1061 *)
    ("StartsWith", Class [("type", true, TyLit ["starts_with"]); ("parameters", true, TyName "_StartsWithParameters")] None);  (* 1066 *)
    ("_StringParameters", Class [("value_to_convert", true, TyName "PossibleValue")] None);  (* 1071 *)
    ("String", Class [("type", true, TyLit ["string"]); ("parameters", true, TyName "_StringParameters")] None);  (* 1075 *)
    ("_SubstringParameters", Class [("string_to_parse", true, TyName "PossibleValue"); ("start_index", true, TyName "PossibleValue"); ("length", true, TyName "PossibleNoneValue")] None);  (* 1080 *)
    ("Substring", Class [("type", true, TyLit ["substring"]); ("parameters", true, TyName "_SubstringParameters")] None);  (* 1086 *)
    ("_ToLowerParameters", Class [("string_to_change", true, TyName "PossibleValue")] None);  (* 1091 *)
    ("ToLower", Class [("type", true, TyLit ["to_lower"]); ("parameters", true, TyName "_ToLowerParameters")] None);  (* 1095 *)
    ("ToUpper", Class [("type", true, TyLit ["to_upper"]); ("parameters", true, TyName "_ToLowerParameters")] None);  (* 1100 *)
    ("_TrimParameters", Class [("string_to_trim", true, TyName "PossibleValue")] None);  (* 1105 *)
    ("Trim", Class [("type", true, TyLit ["trim"]); ("parameters", true, TyName "_TrimParameters")] None);  (* 1109 *)
    ("UniqueString", Class [("type", true, TyLit ["unique_string"]); ("parameters", true, TyName "_GuidParameters")] None);  (* 1114 *)
    ("_UriParameters", Class [("base_uri", true, TyName "PossibleValue"); ("relative_uri", true, TyName "PossibleValue")] None);  (* 1119 *)
    ("Uri", Class [("type", true, TyLit ["uri"]); ("parameters", true, TyName "_UriParameters")] None);  (* 1124 *)
    ("_UriComponentParameters", Class [("string_to_encode", true, TyName "PossibleValue")] None);  (* 1129 *)
    ("UriComponent", Class [("type", true, TyLit ["uri_component"]); ("parameters", true, TyName "_UriComponentParameters")] None);  (* 1133 *)
    ("_UriComponentToStringParameters", Class [("uri_encoded_string", true, TyName "PossibleValue")] None);  (* 1138 *)
    ("UriComponentToString", Class [("type", true, TyLit ["uri_component_to_string"]); ("parameters", true, TyName "_UriComponentToStringParameters")] None);  (* 1142 *)
    ("UnknownDecorator", Class [("type", true, TyStr); ("argument", false, TyName "PossibleValue")] None);  (* 1154 *)
    ("_UnknownFunctionParameters", Class [("arg_1", false, TyStr); ("arg_2", false, TyStr); ("arg_3", false, TyStr)] (Some ("arg_", TyStr)));  (* 1159 *)
    ("UnknownFunction", Class [("type", true, TyStr); ("parameters", true, TyName "_UnknownFunctionParameters")] None);  (* 1165 *)
    ("Operator", Class [("operator", true, TyName "Operators")] None);  (* 1177 *)
    ("_EqualsOperands", Class [("operand_1", true, TyName "PossibleValue"); ("operand_2", true, TyName "PossibleValue")] None);  (* 1188 *)
    ("GreaterThanOrEquals", Class [("type", true, TyLit ["greater_than_or_equals"]); ("operands", true, TyName "_EqualsOperands")] None);  (* 1193 *)
    ("GreaterThan", Class [("type", true, TyLit ["greater_than"]); ("operands", true, TyName "_EqualsOperands")] None);  (* 1198 *)
    ("LessThanOrEquals", Class [("type", true, TyLit ["less_than_or_equals"]); ("operands", true, TyName "_EqualsOperands")] None);  (* 1203 *)
    ("LessThan", Class [("type", true, TyLit ["less_than"]); ("operands", true, TyName "_EqualsOperands")] None);  (* 1208 *)
    ("Equals", Class [("type", true, TyLit ["equals"]); ("operands", true, TyName "_EqualsOperands")] None);  (* 1213 *)
    ("NotEquals", Class [("type", true, TyLit ["not_equals"]); ("operands", true, TyName "_EqualsOperands")] None);  (* 1218 *)
    ("EqualsCaseInsensitive", Class [("type", true, TyLit ["equals_case_insensitive"]); ("operands", true, TyName "_EqualsOperands")] None);  (* 1223 *)
    ("NotEqualsCaseInsensitive", Class [("type", true, TyLit ["not_equals_case_insensitive"]); ("operands", true, TyName "_EqualsOperands")] None);  (* 1228 *)
    ("_AndOperands", Class [("operand_1", true, TyName "PossibleValue"); ("operand_2", true, TyName "PossibleValue"); ("operand_3", false, TyName "PossibleValue")] (Some ("operand_", TyName "PossibleValue")));  (* 1240 *)
    ("And", Class [("type", true, TyLit ["and"]); ("operands", true, TyName "_AndOperands")] None);  (* 1246 *)
    ("Or", Class [("type", true, TyLit ["or"]); ("operands", true, TyName "_AndOperands")] None);  (* 1251 *)
    ("_NotOperands", Class [("bool_value", true, TyUnion [TyBool; TyStr])] None);  (* 1256 *)
    ("Not", Class [("type", true, TyLit ["not"]); ("operands", true, TyName "_NotOperands")] None);  (* 1260 *)
    ("Coalesce", Class [("type", true, TyLit ["coalesce"]); ("operands", true, TyName "_AndOperands")] None);  (* 1265 *)
    ("_ConditionalOperands", Class [("condition", true, TyName "PossibleValue"); ("true_value", true, TyName "PossibleValue"); ("false_value", true, TyName "PossibleValue")] None);  (* 1270 *)
    ("Conditional", Class [("type", true, TyLit ["conditional"]); ("operands", true, TyName "_ConditionalOperands")] None);  (* 1276 *)
    ("Add", Class [("type", true, TyLit ["add"]); ("operands", true, TyName "_SubstractOperands")] None);  (* 1288 *)
    ("Divide", Class [("type", true, TyLit ["divide"]); ("operands", true, TyName "_SubstractOperands")] None);  (* 1293 *)
    ("_MinusOperands", Class [("integer_value", true, TyName "PossibleValue")] None);  (* 1298 *)
    ("Minus", Class [("type", true, TyLit ["minus"]); ("operands", true, TyName "_MinusOperands")] None);  (* 1302 *)
    ("Modulo", Class [("type", true, TyLit ["modulo"]); ("operands", true, TyName "_SubstractOperands")] None);  (* 1307 *)
    ("Multiply", Class [("type", true, TyLit ["multiply"]); ("operands", true, TyName "_SubstractOperands")] None);  (* 1312 *)
    ("_SubstractOperands", Class [("operand_1", true, TyName "PossibleValue"); ("operand_2", true, TyName "PossibleValue")] None);  (* 1317 *)
    ("Substract", Class [("type", true, TyLit ["substract"]); ("operands", true, TyName "_SubstractOperands")] None);  (* 1322 *)
    ("_IndexAccessorOperands", Class [("operand_1", true, TyName "PossibleValue"); ("operand_2", true, TyName "PossibleValue")] None);  (* 1334 *)
    ("IndexAccessor", Class [("type", true, TyLit ["index_accessor"]); ("operands", true, TyName "_IndexAccessorOperands")] None);  (* 1339 *)
    ("_FunctionAccessorOperands", Class [("operand_1", true, TyName "PossibleValue"); ("func_name", true, TyName "PossibleValue"); ("operand_2", false, TyName "PossibleValue")] (Some ("operand_", TyName "PossibleValue")));  (* 1344 *)
    ("FunctionAccessor", Class [("type", true, TyLit ["function_accessor"]); ("operands", true, TyName "_FunctionAccessorOperands")] None);  (* 1350 *)
    ("_NestedResourceAccessorOperands", Class [("operand_1", true, TyName "PossibleValue"); ("operand_2", true, TyName "PossibleValue")] None);  (* 1355 *)
    ("NestedResourceAccessor", Class [("type", true, TyLit ["nested_resource_accessor"]); ("operands", true, TyName "_NestedResourceAccessorOperands")] None);  (* 1360 *)
    ("_PropertyAccessorOperands", Class [("operand_1", true, TyName "PossibleValue"); ("operand_2", true, TyName "PossibleValue")] None);  (* 1365 *)
    ("PropertyAccessor", Class [("type", true, TyLit ["property_accessor"]); ("operands", true, TyName "_PropertyAccessorOperands")] None);  (* 1370 *)
    ("BicepJson", Class [("globals", true, TyName "GlobalsAttributes"); ("imports", false, TyDict (TyName "ImportAttributes")); ("extensions", false, TyDict (TyName "ExtensionAttributes")); ("types", false, TyDict (TyName "VariableAttributes")); ("functions", false, TyDict (TyName "FunctionAttributes")); ("parameters", false, TyDict (TyName "ParameterAttributes")); ("variables", false, TyDict (TyName "VariableAttributes")); ("resources", false, TyDict (TyName "ResourceAttributes")); ("modules", false, TyDict (TyName "ModuleAttributes")); ("outputs", false, TyDict (TyName "OutputAttributes"))] None) ].  (* 1382 *)

(** What the entry [n] says; later entries never repeat a name. *)
Definition find_type (T : table) (n : string) : option definition :=
  match find (fun d => String.eqb n (fst d)) T with Some d => Some (snd d) | None => None end.

(** The annotations of the functions in rules/functions.py and
    rules/decorators.py: the class returned for a name (the names are those of
    FUNCTIONS, functions.py:1028-1177, and DECORATORS, decorators.py:116-147). *)
Definition function_classes : list (string * string) :=
  [ ("any", "AnyFunc"); ("sys.any", "AnyFunc"); ("array", "Array"); ("sys.array", "Array"); ("concat", "Concat"); ("sys.concat", "Concat");
    ("contains", "Contains"); ("sys.contains", "Contains"); ("empty", "Empty"); ("sys.empty", "Empty"); ("first", "First"); ("sys.first", "First");
    ("flatten", "Flatten"); ("sys.flatten", "Flatten"); ("intersection", "Intersection"); ("sys.intersection", "Intersection"); ("last", "Last");
    ("sys.last", "Last"); ("length", "Length"); ("sys.length", "Length"); ("max", "Max"); ("sys.max", "Max"); ("min", "Min"); ("sys.min", "Min");
    ("range", "Range"); ("sys.range", "Range"); ("skip", "Skip"); ("sys.skip", "Skip"); ("take", "Take"); ("sys.take", "Take");
    ("union", "UnionFunc"); ("sys.union", "UnionFunc"); ("dateTimeAdd", "DateTimeAdd"); ("sys.dateTimeAdd", "DateTimeAdd");
    ("dateTimeFromEpoch", "DateTimeFromEpoch"); ("sys.dateTimeFromEpoch", "DateTimeFromEpoch"); ("dateTimeToEpoch", "DateTimeToEpoch");
    ("sys.dateTimeToEpoch", "DateTimeToEpoch"); ("utcNow", "UtcNow"); ("sys.utcNow", "UtcNow"); ("deployment", "Deployment");
    ("az.deployment", "Deployment"); ("environment", "Environment"); ("az.environment", "Environment"); ("loadFileAsBase64", "LoadFileAsBase64");
    ("sys.loadFileAsBase64", "LoadFileAsBase64"); ("loadJsonContent", "LoadJsonContent"); ("sys.loadJsonContent", "LoadJsonContent");
    ("loadTextContent", "LoadTextContent"); ("sys.loadTextContent", "LoadTextContent"); ("loadYamlContent", "LoadYamlContent");
    ("sys.loadYamlContent", "LoadYamlContent"); ("filter", "Filter"); ("sys.filter", "Filter"); ("bool", "BoolFunc"); ("sys.bool", "BoolFunc");
    ("int", "IntFunc"); ("sys.int", "IntFunc"); ("json", "Json"); ("sys.json", "Json"); ("extensionResourceId", "ExtensionResourceId");
    ("az.extensionResourceId", "ExtensionResourceId"); ("listKeys", "ListFunc"); ("az.listKeys", "ListFunc");
    ("managementGroupResourceId", "ManagementGroupResourceId"); ("az.managementGroupResourceId", "ManagementGroupResourceId");
    ("pickZones", "PickZones"); ("az.pickZones", "PickZones"); ("reference", "Reference"); ("az.reference", "Reference");
    ("resourceId", "ResourceId"); ("az.resourceId", "ResourceId"); ("subscriptionResourceId", "SubscriptionResourceId");
    ("az.subscriptionResourceId", "SubscriptionResourceId"); ("tenantResourceId", "TenantResourceId"); ("az.tenantResourceId", "TenantResourceId");
    ("managementGroup", "ManagementGroup"); ("az.managementGroup", "ManagementGroup"); ("resourceGroup", "ResourceGroup");
    ("az.resourceGroup", "ResourceGroup"); ("subscription", "Subscription"); ("az.subscription", "Subscription"); ("tenant", "Tenant");
    ("az.tenant", "Tenant"); ("base64", "Base64"); ("sys.base64", "Base64"); ("base64ToJson", "Base64ToJson"); ("sys.base64ToJson", "Base64ToJson");
    ("base64ToString", "Base64ToString"); ("sys.base64ToString", "Base64ToString"); ("dataUri", "DataUri"); ("sys.dataUri", "DataUri");
    ("dataUriToString", "DataUriToString"); ("sys.dataUriToString", "DataUriToString"); ("endsWith", "EndsWith"); ("sys.endsWith", "EndsWith");
    ("format", "Format"); ("sys.format", "Format"); ("guid", "Guid"); ("sys.guid", "Guid"); ("indexOf", "IndexOf"); ("sys.indexOf", "IndexOf");
    ("join", "Join"); ("sys.join", "Join"); ("lastIndexOf", "LastIndexOf"); ("sys.lastIndexOf", "LastIndexOf"); ("newGuid", "NewGuid");
    ("sys.newGuid", "NewGuid"); ("padLeft", "PadLeft"); ("sys.padLeft", "PadLeft"); ("replace", "Replace"); ("sys.replace", "Replace");
    ("split", "Split"); ("sys.split", "Split"); ("startsWith", "StartsWith"); ("sys.startsWith", "StartsWith"); ("string", "String");
    ("sys.string", "String"); ("substring", "Substring"); ("sys.substring", "Substring"); ("toLower", "ToLower"); ("sys.toLower", "ToLower");
    ("toUpper", "ToUpper"); ("sys.toUpper", "ToUpper"); ("trim", "Trim"); ("sys.trim", "Trim"); ("uniqueString", "UniqueString");
    ("sys.uniqueString", "UniqueString"); ("uri", "Uri"); ("sys.uri", "Uri"); ("uriComponent", "UriComponent"); ("sys.uriComponent", "UriComponent");
    ("uriComponentToString", "UriComponentToString"); ("sys.uriComponentToString", "UriComponentToString") ].
Definition decorator_classes : list (string * string) :=
  [ ("allowed", "DecoratorAllowed"); ("sys.allowed", "DecoratorAllowed"); ("batchSize", "DecoratorBatchSize"); ("sys.batchSize", "DecoratorBatchSize");
    ("description", "DecoratorDescription"); ("sys.description", "DecoratorDescription"); ("export", "DecoratorExport");
    ("sys.export", "DecoratorExport"); ("minLength", "DecoratorMinLength"); ("sys.minLength", "DecoratorMinLength");
    ("maxLength", "DecoratorMaxLength"); ("sys.maxLength", "DecoratorMaxLength"); ("minValue", "DecoratorMinValue");
    ("sys.minValue", "DecoratorMinValue"); ("maxValue", "DecoratorMaxValue"); ("sys.maxValue", "DecoratorMaxValue");
    ("metadata", "DecoratorMetadata"); ("sys.metadata", "DecoratorMetadata"); ("sealed", "DecoratorSealed"); ("sys.sealed", "DecoratorSealed");
    ("secure", "DecoratorSecure"); ("sys.secure", "DecoratorSecure") ].
(** The classes of unknown names (functions.py:1015, decorators.py:104). *)
Definition class_of (classes : list (string * string)) (unknown : string) (name : str) : string :=
  match find (fun c => str_eqb name (u (fst c))) classes with Some c => snd c | None => unknown end.
Definition function_class : str -> string := class_of function_classes "UnknownFunction".
Definition decorator_class : str -> string := class_of decorator_classes "UnknownDecorator".

(** The annotations of the callbacks in transformer.py (line behind each). *)
Definition scalar : pytype := TyUnion [TyBool; TyInt; TyStr].
Definition annotation (l : label) : pytype :=
  match l with
  | L_start => TyName "BicepJson"                                        (* 46 *)
  | L_scope => TyName "ScopeResponse"                                    (* 76 *)
  | L_custom_import => TyNone                                            (* 97-99 *)
  | L_extension => TyName "ExtensionResponse"                            (* 140-142 *)
  | L_metadata => TyName "MetadataResponse"                              (* 165 *)
  | L_param => TyName "ParamResponse"                                    (* 184-186 *)
  | L_var => TyName "VarResponse"                                        (* 207-211 *)
  | L_output => TyName "OutputResponse"                                  (* 234-236 *)
  | L_resource => TyName "ResourceResponse"                              (* 257-263 *)
  | L_child_resource => TyTuple [TyLit ["__child_resource__"]; TyName "Resource"]   (* 289-291 *)
  | L_module => TyName "ModuleResponse"                                  (* 313-315 *)
  | L_custom_type => TyName "TypeResponse"                               (* 336-338 *)
  | L_custom_func => TyName "FunctionResponse"                           (* 358-367 *)
  | L_array_suffix => TyNone                                             (* 399 *)
  | L_base_type => TyName "DataType"                                     (* 402 *)
  | L_union_type => TyName "UnionType"                                   (* 406 *)
  | L_data_type => TyName "DataType"                                     (* 409 *)
  | L_type_api_pair => TyName "ApiTypeVersion"                           (* 416 *)
  | L_module_path => TyName "ModulePath"                                 (* 423 *)
  | L_import_alias => TyName "ImportNameAlias"                           (* 516 *)
  | L_type_value => TyStr                                                (* 526 *)
  | L_loop => TyName "Loop"                                              (* 536 *)
  | L_loop_array => TyName "LoopArray"                                   (* 548 *)
  | L_loop_array_index => TyName "LoopArrayIndex"                        (* 558 *)
  | L_loop_object => TyName "LoopObject"                                 (* 569 *)
  | L_deploy_condition => TyName "DeployCondition"                       (* 585 *)
  | L_decorator => TyName "Decorator"                                    (* 598 *)
  | L_decorators => TyList (TyName "Decorator")                          (* 605 *)
  | L_function => TyName "Function"                                      (* 614 *)
  | L_operator => TyName "Operator"                                      (* 629 *)
  | L_greater_than_or_equals => TyName "GreaterThanOrEquals"             (* 632 *)
  | L_greater_than => TyName "GreaterThan"                               (* 643 *)
  | L_less_than_or_equals => TyName "LessThanOrEquals"                   (* 654 *)
  | L_less_than => TyName "LessThan"                                     (* 665 *)
  | L_equals => TyName "Equals"                                          (* 676 *)
  | L_not_equals => TyName "NotEquals"                                   (* 687 *)
  | L_equals_case_insens => TyName "EqualsCaseInsensitive"               (* 698 *)
  | L_not_equals_case_insens => TyName "NotEqualsCaseInsensitive"        (* 709 *)
  | L_and_op => TyName "And"                                             (* 726 *)
  | L_or_op => TyName "Or"                                               (* 738 *)
  | L_not_op => TyName "Not"                                             (* 750 *)
  | L_coalesce => TyName "Coalesce"                                      (* 758 *)
  | L_conditional => TyName "Conditional"                                (* 770-772 *)
  | L_add => TyName "Add"                                                (* 790 *)
  | L_divide => TyName "Divide"                                          (* 801 *)
  | L_minus => TyName "Minus"                                            (* 812 *)
  | L_modulo => TyName "Modulo"                                          (* 820 *)
  | L_multiply => TyName "Multiply"                                      (* 831 *)
  | L_substract => TyName "Substract"                                    (* 842 *)
  | L_index_accessor => TyName "IndexAccessor"                           (* 859-861 *)
  | L_function_accessor => TyName "FunctionAccessor"                     (* 865 *)
  | L_nested_resource_accessor => TyName "NestedResourceAccessor"        (* 876-878 *)
  | L_property_accessor => TyName "PropertyAccessor"                     (* 882-884 *)
  | L_array => TyList scalar                                             (* 894 *)
  | L_object => TyDict TyAny                                             (* 897 *)
  | L_pair => TyTuple [TyStr; scalar]                                    (* 900 *)
  | L_key => TyStr                                                       (* 904 *)
  | L_int_type => TyInt                                                  (* 907 *)
  | L_string | L_multi_line_string => TyStr                              (* 910, 913 *)
  | L_true => TyLitBool true                                             (* 916 *)
  | L_false => TyLitBool false                                           (* 919 *)
  | L_null => TyNone                                                     (* 922 *)
  | L_lambda_expression => TyName "LambdaExpression"                     (* 925 *)
  | L_nocallback => TyAny
  end.
