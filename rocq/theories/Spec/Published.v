(** Specification: values that have a published type (C44). *)
From Coq Require Import List Arith NArith ZArith Bool String.
From Verif Require Import Py.Str Py.Val Lark.Tree Spec.Values Pycep.PublishedTypes.
Import ListNotations.
Local Open Scope string_scope.

Section Types.
  Variable T : table.

  (** [v] is an instance of [t], names being read in the table [T].  A
      [BicepElement] is a [str] and a [bool] is an [int], as in Python. *)
  Inductive has_type : pytype -> pyval -> Prop :=
  | ht_any v : has_type TyAny v
  | ht_none : has_type TyNone PNone
  | ht_bool b : has_type TyBool (PBool b)
  | ht_int z : has_type TyInt (PInt z)
  | ht_int_bool b : has_type TyInt (PBool b)
  | ht_str s : has_type TyStr (PStr s)
  | ht_elem s : has_type TyStr (PElem s)
  | ht_lit l s : In s l -> has_type (TyLit l) (PStr (u s))
  | ht_litbool b : has_type (TyLitBool b) (PBool b)
  | ht_union l t v : In t l -> has_type t v -> has_type (TyUnion l) v
  | ht_list t vs : Forall (has_type t) vs -> has_type (TyList t) (PList vs)
  | ht_dict t d : Forall (fun kv => has_type t (snd kv)) d -> has_type (TyDict t) (PDict d)
  | ht_tuple ts vs : Forall2 has_type ts vs -> has_type (TyTuple ts) (PTup vs)
  | ht_alias n t v : find_type T n = Some (Alias t) -> has_type t v -> has_type (TyName n) v
  | ht_class n fs more d : find_type T n = Some (Class fs more) ->
      (* every required key is there *)
      Forall (fun f => snd (fst f) = true -> In (u (fst (fst f))) (map fst d)) fs ->
      (* every key that is there is declared, and its value has the declared type *)
      Forall (fun kv =>
        (exists k r t, In (k, r, t) fs /\ fst kv = u k /\ has_type t (snd kv)) \/
        (exists p t n, more = Some (p, t) /\ fst kv = nth_key p n /\ has_type t (snd kv))) d ->
      has_type (TyName n) (PDict d).
End Types.

(** ** What is claimed of the report [v] of a node *)
(** It has the type the callback is annotated with.  The report of a call or
    decorator moreover has the class that the table of functions or decorators
    gives for its name. *)
Definition report_typed (T : table) (ann : label -> pytype) (t : ptree) (v : pyval) : Prop :=
  match t with
  | TNode L_function _ (TTok k :: _) => has_type T (ann L_function) v /\
      forall name, tval k = (name ++ u "(")%list -> exists d, v = PDict [(u "function", d)] /\ has_type T (TyName (function_class name)) d
  | TNode L_decorator _ (TTok k :: _) => has_type T (ann L_decorator) v /\ has_type T (TyName (decorator_class (tval k))) v
  | TNode l _ _ => has_type T (ann l) v
  | _ => True
  end.

(** ** Corrections *)
(** Where the published types do not fit what is reported, definitions that do.
    Everything else stays as published. *)
Definition value : pytype := TyName "PossibleValue".
Definition optional (t : pytype) : pytype := TyUnion [t; TyNone].
Definition argument_of (ty : string) : definition := Class [("type", true, TyLit [ty]); ("argument", true, value)] None.
Definition corrections : table :=
  [ (* arrays hold any values, and null is a value *)
    ("PossibleValue", Alias (TyUnion [TyNone; TyBool; TyInt; TyStr; TyList value; TyDict value]));
    (* metadata is reported too *)
    ("BicepJson", Class
      [("globals", true, TyName "GlobalsAttributes"); ("imports", false, TyDict (TyName "ImportAttributes"));
       ("extensions", false, TyDict (TyName "ExtensionAttributes")); ("metadata", false, TyDict (TyName "MetadataAttributes"));
       ("types", false, TyDict (TyName "VariableAttributes")); ("functions", false, TyDict (TyName "FunctionAttributes"));
       ("parameters", false, TyDict (TyName "ParameterAttributes")); ("variables", false, TyDict (TyName "VariableAttributes"));
       ("resources", false, TyDict (TyName "ResourceAttributes")); ("modules", false, TyDict (TyName "ModuleAttributes"));
       ("outputs", false, TyDict (TyName "OutputAttributes"))] None);
    (* arguments need not be texts *)
    ("_UnionParameters", Class [("arg_1", true, value); ("arg_2", false, value)] (Some ("arg_", value)));
    ("_UnknownFunctionParameters", Class [] (Some ("arg_", value)));
    ("_FormatParameters", Class [("format_string", true, value)] (Some ("arg_", value)));
    ("_GuidParameters", Class [("base_string", true, value)] (Some ("extra_string_", value)));
    ("_ExtensionResourceIdParameters", Class
      [("resource_id", true, value); ("resource_type", true, value); ("resource_name_1", true, value); ("resource_name_2", true, optional value)] None);
    ("_TenantResourceIdParameters", Class
      [("resource_type", true, value); ("resource_name_1", true, value); ("resource_name_2", true, optional value)] None);
    ("_SubscriptionResourceIdParameters", Class
      [("resource_type", true, value); ("resource_name_1", true, value); ("resource_name_2", true, optional value);
       ("subscription_id", true, optional value)] None);
    ("_ResourceIdParameters", Class
      [("resource_type", true, value); ("resource_name_1", true, value); ("resource_name_2", true, optional value);
       ("resource_group_name", true, optional value); ("subscription_id", true, optional value)] (Some ("resource_name_", value)));
    ("_NotOperands", Class [("bool_value", true, value)] None);
    ("_LambdaExpressionDetail", Class [("var_1", true, TyStr); ("expression", true, value)] (Some ("var_", TyStr)));
    (* bodies need not be objects *)
    ("Loop", Class [("loop_type", true, TyName "LoopType"); ("condition", true, optional value); ("config", true, value)] None);
    ("DeployCondition", Class [("condition", true, value); ("config", true, value)] None);
    (* nor are the arguments of decorators checked *)
    ("DecoratorAllowed", argument_of "allowed");
    ("DecoratorBatchSize", argument_of "batchSize");
    ("DecoratorDescription", argument_of "description");
    ("DecoratorMinLength", argument_of "min_length");
    ("DecoratorMaxLength", argument_of "max_length");
    ("DecoratorMinValue", argument_of "min_value");
    ("DecoratorMetadata", argument_of "metadata") ].
(** The published table with these definitions in place of those of the same name. *)
Definition corrected_by (cs : table) : table := (cs ++ published)%list.
Definition corrected : table := corrected_by corrections.
(** All corrections but one. *)
Definition without (n : string) : table := corrected_by (filter (fun d => negb (String.eqb n (fst d))) corrections).

(** The same for the annotations: the elements of arrays and the values of keys
    are any values. *)
Definition corrected_annotation (l : label) : pytype :=
  match l with
  | L_array => TyList value
  | L_pair => TyTuple [TyStr; value]
  | _ => annotation l
  end.
