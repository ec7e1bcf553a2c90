(** Specification: chains of nested child resources (C12). *)
From Coq Require Import List NArith ZArith Bool String.
From Verif Require Import Py.Str Py.Val Lark.Tree Pycep.Transformer Spec.Lexemes Spec.Program Spec.Children.
Import ListNotations.
Local Open Scope string_scope.

(** [chain body cs]: inside the body a child resource is written, in its body
    another one and so on; names and types from the outside in. *)
Inductive chain : ptree -> list (str * str) -> Prop :=
| chain_none m es : last_child es = None -> chain (TNode L_object m es) []
| chain_other l m cs : l <> L_object -> chain (TNode l m cs) []
| chain_child m es mc n t x body ty cs :
    last_child es = Some (TNode L_child_resource mc [TTok n; TTok t; x; body]) -> tval t = quote ty ->
    chain body cs -> chain (TNode L_object m es) ((tval n, ty) :: cs).
(** Names [a__b__c] and types [x/y/z]. *)
Fixpoint reported_as (n ty : str) (cs : list (str * str)) : list (str * str) :=
  match cs with
  | [] => []
  | (c, t) :: rest => (n ++ u "__" ++ c, ty ++ u "/" ++ t)%list :: reported_as (n ++ u "__" ++ c)%list (ty ++ u "/" ++ t)%list rest
  end.
Definition attr (k : string) (e : entry) : option pyval := match e_attrs e with PDict d => aget (u k) d | _ => None end.
(** The entries of a chain: the names, types and api version as above, and each
    config ends its [depends_on] with the resource it is nested in. *)
Fixpoint chained (parent : str) (api : str) (l : list (str * str)) (es : list entry) : Prop :=
  match l, es with
  | [], [] => True
  | (n, ty) :: l', e :: es' =>
      e_kind e = u "resources" /\ e_name e = n /\ attr "type" e = Some (PStr ty) /\ attr "api_version" e = Some (PStr api) /\
      attr "decorators" e = Some (PList []) /\
      (exists cfg deps, attr "config" e = Some (PDict cfg) /\ aget (u "depends_on") cfg = Some (PList (deps ++ [PElem parent]))) /\
      chained n api l' es'
  | _, _ => False
  end.
