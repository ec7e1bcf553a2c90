(** Specification: what becomes of child resources written inside the body of a
    resource (C12, C13). *)
From Coq Require Import List NArith ZArith Bool String.
From Verif Require Import Py.Str Py.Val Lark.Tree Pycep.Transformer Spec.Lexemes Spec.Program Spec.Reports.
Import ListNotations.
Local Open Scope string_scope.

(** The last child resource among the entries of a body, if any. *)
Definition last_child (es : list ptree) : option ptree :=
  fold_left (fun acc e => match e with TNode L_child_resource _ _ => Some e | _ => acc end) es None.

(** [cfg'] is [cfg] with a reference to the resource [n] added at the end of its
    [depends_on] list, which is appended when there is none. *)
Definition depends_added (n : str) (cfg cfg' : list (str * pyval)) : Prop :=
  (~ In (u "depends_on") (map fst cfg) /\ cfg' = (cfg ++ [(u "depends_on", PList [PElem n])])%list) \/
  exists a l b, cfg = (a ++ (u "depends_on", PList l) :: b)%list /\ ~ In (u "depends_on") (map fst a) /\
    cfg' = (a ++ (u "depends_on", PList (l ++ [PElem n])) :: b)%list.

Section Children.
  Variable E : pyenv.
  Variable ln : bool.

  (** The keys and reports of the ordinary entries of an object, in order. *)
  Inductive plain_entries : list ptree -> list (str * pyval) -> Prop :=
  | pe_nil : plain_entries [] []
  | pe_pair m mk k x v es ps : transform E ln x = Ok v -> plain_entries es ps ->
      plain_entries (TNode L_pair m [TNode L_key mk [TTok k]; x] :: es) ((tval k, v) :: ps)
  | pe_child m cs es ps : plain_entries es ps ->
      plain_entries (TNode L_child_resource m cs :: es) ps.

  Definition given (t : ptree) : bool := match t with TNone => false | _ => true end.
  (** A child's line numbers; its last line is reported one too low on purpose:
      the rule ends with a line break. *)
  Definition child_lines (m : meta) : list (str * pyval) :=
    match ln, m with
    | true, Some (a, b) => [(u "__start_line__", PInt (Z.of_N a)); (u "__end_line__", PInt (Z.of_N b - 1))]
    | _, _ => []
    end.

  (** [lifts n ty api body cfg es]: a resource reported as [n], of type [ty] and
      api version [api], with the given body, reports the config [cfg], and the
      entries [es] are added for the children nested in it. *)
  Inductive lifts : str -> str -> str -> ptree -> list (str * pyval) -> list entry -> Prop :=
  | lifts_none n ty api m es ps :
      plain_entries es ps -> last_child es = None ->
      lifts n ty api (TNode L_object m es) (dict_of ps) []
  | lifts_child n ty api m es ps mc cname ctype x body tyname cfg cfg' rest :
      plain_entries es ps ->
      last_child es = Some (TNode L_child_resource mc [TTok cname; TTok ctype; x; body]) ->
      tval ctype = quote tyname ->
      lifts (n ++ u "__" ++ tval cname)%list (ty ++ u "/" ++ tyname)%list api body cfg rest ->
      depends_added n cfg cfg' ->
      lifts n ty api (TNode L_object m es) (dict_of ps)
        ({| e_kind := u "resources"; e_name := (n ++ u "__" ++ tval cname)%list;
            e_attrs := PDict ([(u "decorators", PList []); (u "type", PStr (ty ++ u "/" ++ tyname)%list);
                               (u "api_version", PStr api); (u "existing", PBool (given x));
                               (u "config", PDict cfg')] ++ child_lines mc) |} :: rest)
  | lifts_loop n ty api m cs d : transform E ln (TNode L_loop m cs) = Ok (PDict d) ->
      lifts n ty api (TNode L_loop m cs) d []
  | lifts_condition n ty api m cs d : transform E ln (TNode L_deploy_condition m cs) = Ok (PDict d) ->
      lifts n ty api (TNode L_deploy_condition m cs) d [].
End Children.

(** The names under which the children of a body are reported. *)
Fixpoint child_names (n : str) (t : ptree) : list str :=
  match t with
  | TNode L_object _ es =>
      fold_left (fun acc e => match e with
        | TNode L_child_resource _ [TTok c; _; _; body] =>
            (n ++ u "__" ++ tval c)%list :: child_names (n ++ u "__" ++ tval c)%list body
        | TNode L_child_resource _ _ => []
        | _ => acc
        end) es []
  | _ => []
  end.
