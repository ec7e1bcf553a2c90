(** Specification: the documented shape of the result of [BicepParser.parse]
    (/repo/pycep/typing.py and the README). *)
From Coq Require Import List NArith ZArith Bool String.
From Verif Require Import Py.Str Py.Val Spec.Json.
Import ListNotations.
Local Open Scope string_scope.

(** Reported data types: a name, an array of a type, a union of at least two. *)
Inductive data_type : pyval -> Prop :=
| dt_name s : data_type (PStr s)
| dt_array t : data_type t -> data_type (PDict [(u "type", PStr (u "array")); (u "item_type", t)])
| dt_union l : 2 <= List.length l -> Forall data_type l ->
    data_type (PDict [(u "type", PStr (u "union")); (u "members", PList l)]).

(** One reported decorator: its type and at most one argument. *)
Definition deco_entry (v : pyval) : Prop :=
  (exists ty, v = PDict [(u "type", PStr ty)]) \/
  (exists ty a, v = PDict [(u "type", PStr ty); (u "argument", a)] /\ json a).

(** Kinds of attribute values. *)
Inductive aty := AJson | AStr | ABool | AInt | ADict | ADecos | AType | AArgs | AOneOf (l : list string)
| ARecord (fields : list (string * bool)).          (* [true]: a text, [false]: a truth value *)
Definition has_aty (a : aty) (v : pyval) : Prop :=
  match a with
  | AJson => json v
  | AStr => exists s, v = PStr s
  | ABool => exists b, v = PBool b
  | AInt => exists z, v = PInt z
  | ADict => json v /\ exists d, v = PDict d
  | ADecos => exists l, v = PList l /\ Forall deco_entry l
  | AType => data_type v
  | AArgs => exists d, v = PDict d /\ NoDup (map fst d) /\ Forall (fun kv => data_type (snd kv)) d
  | AOneOf l => exists s, In s l /\ v = PStr (u s)
  | ARecord fields => exists d, v = PDict d /\ NoDup (map fst d) /\
      Forall2 (fun (f : string * bool) (kv : str * pyval) => fst kv = u (fst f) /\ if snd f then exists s, snd kv = PStr s else exists b, snd kv = PBool b) fields d
  end.

Definition line_keys (ln : bool) : list (string * aty) :=
  if ln then [("__start_line__", AInt); ("__end_line__", AInt)] else [].
Definition scopes : list string := ["resourceGroup"; "subscription"; "managementGroup"; "tenant"].
(** The kinds of module references and the components reported for them. *)
Definition module_details : list (string * list (string * bool)) :=
  [ ("local", [("full", true); ("path", true)]);
    ("bicep_registry", [("full", true); ("registry_name", true); ("path", true); ("tag", true); ("public", false)]);
    ("bicep_registry_alias", [("full", true); ("alias", true); ("path", true); ("tag", true); ("public", false)]);
    ("template_spec", [("full", true); ("subscription_id", true); ("resource_group_id", true); ("name", true); ("version", true)]);
    ("template_spec_alias", [("full", true); ("alias", true); ("path", true); ("tag", true)]) ].

(** For every kind of entry, the possible lists of attributes, in order. *)
Definition schema (ln : bool) : list (string * list (string * aty)) :=
  let L := line_keys ln in
  ([ ("globals",    [("value", AOneOf scopes)] ++ L);
    ("imports",    []);
    ("imports",    [("file_path", AStr)] ++ L);
    ("imports",    [("file_path", AStr); ("alias", AStr)] ++ L);
    ("extensions", L);
    ("extensions", [("config", ADict)] ++ L);
    ("extensions", [("alias", AStr)] ++ L);
    ("extensions", [("config", ADict); ("alias", AStr)] ++ L);
    ("metadata",   [("value", AStr)] ++ L);
    ("parameters", [("decorators", ADecos); ("type", AType); ("default", AJson)] ++ L);
    ("variables",  [("decorators", ADecos); ("value", AJson)] ++ L);
    ("variables",  [("decorators", ADecos); ("value", AJson); ("type", AType)] ++ L);
    ("outputs",    [("decorators", ADecos); ("type", AType); ("value", AJson)] ++ L);
    ("resources",  [("decorators", ADecos); ("type", AStr); ("api_version", AStr); ("existing", ABool);
                    ("config", ADict)] ++ L);
    ("types",      [("decorators", ADecos); ("value", AJson)] ++ L);
    ("functions",  [("decorators", ADecos); ("args", AArgs); ("type", AType); ("expression", AJson)] ++ L) ] ++
  map (fun k => ("modules", [("decorators", ADecos); ("type", AOneOf [fst k]); ("detail", ARecord (snd k)); ("config", ADict)] ++ L))
    module_details)%list.

(** An attribute object of the given kind. *)
Definition attrs_ok (ln : bool) (kind : string) (attrs : pyval) : Prop :=
  exists row d, In (kind, row) (schema ln) /\ attrs = PDict d /\
    Forall2 (fun c kv => fst kv = u (fst c) /\ has_aty (snd c) (snd kv)) row d.

(** The whole result.  [lenient]: resources may carry any attributes (needed
    for programs that write the reserved key [__child_resource__] themselves). *)
Definition entry_ok (lenient ln : bool) (kind : string) (attrs : pyval) : Prop :=
  attrs_ok ln kind attrs \/
  (lenient = true /\ kind = "resources" /\ json attrs /\ exists d, attrs = PDict d).
Definition group_ok (lenient ln : bool) (kind : string) (v : pyval) : Prop :=
  exists entries, v = PDict entries /\ entries <> [] /\ NoDup (map fst entries) /\
    Forall (fun e => entry_ok lenient ln kind (snd e)) entries /\
    (kind = "globals" -> map fst entries = [u "scope"]).
Definition document_ok (lenient ln : bool) (v : pyval) : Prop :=
  exists groups, v = PDict groups /\ NoDup (map fst groups) /\ In (u "globals") (map fst groups) /\
    Forall (fun g => exists kind, fst g = u kind /\ In kind (map fst (schema ln)) /\
                     group_ok lenient ln kind (snd g)) groups.

(** The key under which pycep stores nested child resources. *)
Definition reserved_key : str := u "__child_resource__".
