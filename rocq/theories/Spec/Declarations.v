(** Specification: the entries each kind of top-level declaration is reported
    as, in terms of the reports of its parts (C09, C10, C12, C31, C33). *)
From Coq Require Import List NArith ZArith Bool String.
From Verif Require Import Py.Str Py.Val Lark.Tree Lark.Shape Pycep.Transformer Spec.Lexemes Spec.Program Spec.Reports Spec.Children.
Import ListNotations.
Local Open Scope string_scope.

Section Declarations.
  Variable E : pyenv.
  Variable ln : bool.
  Notation reports t v := (transform E ln t = Ok v).

  Definition lines (m : meta) : list (str * pyval) :=
    match ln, m with
    | true, Some (a, b) => [(u "__start_line__", PInt (Z.of_N a)); (u "__end_line__", PInt (Z.of_N b))]
    | _, _ => []
    end.
  Definition ent (kind : string) (name : str) (attrs : list (str * pyval)) : entry :=
    {| e_kind := u kind; e_name := name; e_attrs := PDict attrs |}.

  (** Optional parts. *)
  Definition decorators_of (d : ptree) (v : pyval) : Prop := if given d then reports d v else v = PList [].
  Definition alias_of (a : ptree) : list (str * pyval) :=
    match a with TTok t => [(u "alias", PStr (tval t))] | _ => [] end.
  Inductive parameters : list ptree -> list (str * pyval) -> Prop :=
  | params_nil : parameters [] []
  | params_cons n t v cs ps : reports t v -> parameters cs ps -> parameters (TTok n :: t :: cs) ((tval n, v) :: ps).

  (** One imported symbol: the path, the alias if there is one. *)
  Inductive imported (path : str) (m : meta) : ptree -> entry -> Prop :=
  | imported_symbol mi n a : imported path m (TNode L_import_alias mi [TTok n; a])
      (ent "imports" (tval n) ((u "file_path", PStr path) :: alias_of a ++ lines m)).

  (** [declares c own imps children]: the entry of the declaration itself, those
      of the symbols it imports, those of the child resources nested in it. *)
  Inductive declares : ptree -> list entry -> list entry -> list entry -> Prop :=
  | decl_scope m t s : tval t = quote s ->
      In s (map u ["resourceGroup"; "subscription"; "managementGroup"; "tenant"]) ->
      declares (TNode L_scope m [TTok t]) [ent "globals" (u "scope") ((u "value", PStr s) :: lines m)] [] []
  | decl_namespace m t s : tval t = quote s ->
      declares (TNode L_custom_import m [TTok t]) [] [ent "imports" s []] []
  | decl_import m c cs t s es : tval t = quote s -> Forall2 (imported s m) (c :: cs) es ->
      declares (TNode L_custom_import m (c :: cs ++ [TTok t])) [] es []
  | decl_extension m n c a v : reports c v ->
      declares (TNode L_extension m [TTok n; c; a])
        [ent "extensions" (tval n) ((if truthy v then [(u "config", v)] else []) ++ alias_of a ++ lines m)] [] []
  | decl_metadata m n x v : reports x v ->
      declares (TNode L_metadata m [TTok n; x]) [ent "metadata" (tval n) ((u "value", v) :: lines m)] [] []
  | decl_param m d n t x vd vt v : decorators_of d vd -> reports t vt -> reports x v ->
      declares (TNode L_param m [d; TTok n; t; x])
        [ent "parameters" (tval n) ([(u "decorators", vd); (u "type", vt); (u "default", v)] ++ lines m)] [] []
  | decl_var m d n t x vd vt v : decorators_of d vd -> reports t vt -> reports x v ->
      declares (TNode L_var m [d; TTok n; t; x])
        [ent "variables" (tval n) ([(u "decorators", vd); (u "value", v)] ++ (if given t then [(u "type", vt)] else []) ++ lines m)] [] []
  | decl_output m d n t x vd vt v : decorators_of d vd -> reports t vt -> reports x v ->
      declares (TNode L_output m [d; TTok n; t; x])
        [ent "outputs" (tval n) ([(u "decorators", vd); (u "type", vt); (u "value", v)] ++ lines m)] [] []
  | decl_resource m mt d n t x body vd ty api cfg children : decorators_of d vd ->
      tval t = quote (ty ++ u "@" ++ api)%list -> ~ In 64%N ty -> ~ In 64%N api ->
      lifts E ln (tval n) ty api body cfg children ->
      declares (TNode L_resource m [d; TTok n; TNode L_type_api_pair mt [TTok t]; x; body])
        [ent "resources" (tval n) ([(u "decorators", vd); (u "type", PStr ty); (u "api_version", PStr api);
           (u "existing", PBool (given x)); (u "config", PDict cfg)] ++ lines m)] [] children
  | decl_module m d n p body vd k det cfg : decorators_of d vd ->
      reports p (PDict [(u "type", k); (u "detail", det)]) -> reports body cfg ->
      declares (TNode L_module m [d; TTok n; p; body])
        [ent "modules" (tval n) ([(u "decorators", vd); (u "type", k); (u "detail", det); (u "config", cfg)] ++ lines m)] [] []
  | decl_type m d n x vd v : decorators_of d vd -> reports x v ->
      declares (TNode L_custom_type m [d; TTok n; x])
        [ent "types" (tval n) ([(u "decorators", vd); (u "value", v)] ++ lines m)] [] []
  | decl_func m d n ps t x vd args vt v : decorators_of d vd -> parameters ps args -> reports t vt -> reports x v ->
      declares (TNode L_custom_func m (d :: TTok n :: ps ++ [t; x]))
        [ent "functions" (tval n) ([(u "decorators", vd); (u "args", PDict (dict_of args)); (u "type", vt); (u "expression", v)]
           ++ lines m)] [] [].

  (** A list of declarations, in order. *)
  Inductive declares_all : list ptree -> list entry -> list entry -> list entry -> Prop :=
  | da_nil : declares_all [] [] [] []
  | da_cons c cs own imps ch own' imps' ch' : declares c own imps ch -> declares_all cs own' imps' ch' ->
      declares_all (c :: cs) (own ++ own') (imps ++ imps') (ch ++ ch').
End Declarations.

(** The (kind, name) pairs a program declares, read off the syntax tree alone. *)
Definition own_decl (t : ptree) : list (str * str) :=
  match t with
  | TNode L_scope _ _ => [(u "globals", u "scope")]
  | TNode L_extension _ (TTok n :: _) => [(u "extensions", tval n)]
  | TNode L_metadata _ (TTok n :: _) => [(u "metadata", tval n)]
  | TNode L_param _ (_ :: TTok n :: _) => [(u "parameters", tval n)]
  | TNode L_var _ (_ :: TTok n :: _) => [(u "variables", tval n)]
  | TNode L_output _ (_ :: TTok n :: _) => [(u "outputs", tval n)]
  | TNode L_resource _ (_ :: TTok n :: _) => [(u "resources", tval n)]
  | TNode L_module _ (_ :: TTok n :: _) => [(u "modules", tval n)]
  | TNode L_custom_type _ (_ :: TTok n :: _) => [(u "types", tval n)]
  | TNode L_custom_func _ (_ :: TTok n :: _) => [(u "functions", tval n)]
  | _ => []
  end.
(** Imported symbols; for a namespace import the text between the quotes. *)
Definition import_decl (t : ptree) : list (str * str) :=
  match t with
  | TNode L_custom_import _ [TTok p] => [(u "imports", removelast (tl (tval p)))]
  | TNode L_custom_import _ cs =>
      flat_map (fun c => match c with TNode L_import_alias _ (TTok n :: _) => [(u "imports", tval n)] | _ => [] end) cs
  | _ => []
  end.
Definition child_decl (t : ptree) : list (str * str) :=
  match t with
  | TNode L_resource _ [_; TTok n; _; _; body] => map (fun x => (u "resources", x)) (child_names (tval n) body)
  | _ => []
  end.
(** In the order in which they are entered into the result. *)
Definition declared (elements : list ptree) : list (str * str) :=
  flat_map own_decl elements ++ flat_map import_decl elements ++ flat_map child_decl elements.

(** The text [t] is a program with the given top-level declarations (this is the
    tree [create_tree] prints). *)
Definition program (E : pyenv) (t : str) (elements : list ptree) : Prop :=
  exists m, lark_parse E t = Ok (TNode L_start m elements).
Definition is_scope (c : ptree) : bool := match c with TNode L_scope _ _ => true | _ => false end.
Definition is_resource (c : ptree) : bool := match c with TNode L_resource _ _ => true | _ => false end.
