(** Specification: the result document as a function of the reported entries. *)
From Coq Require Import List NArith ZArith Bool String Permutation.
From Verif Require Import Py.Str Py.Val Lark.Tree.
Import ListNotations.
Local Open Scope string_scope.

(** One reported entry. *)
Record entry := { e_kind : str; e_name : str; e_attrs : pyval }.
Definition key_of (e : entry) : str * str := (e_kind e, e_name e).

(** Distinct elements in order of first occurrence. *)
Definition firsts (l : list str) : list str :=
  fold_left (fun seen x => if existsb (str_eqb x) seen then seen else (seen ++ [x])%list) l [].
(** What was said last about a kind and a name. *)
Definition latest (k n : str) (es : list entry) : pyval :=
  fold_left (fun acc e => if str_eqb k (e_kind e) && str_eqb n (e_name e) then e_attrs e else acc) es PNone.
(** Kinds in order of first occurrence, below each the names in order of first
    occurrence, with the attributes said last. *)
Definition names_of (k : str) (es : list entry) : list str :=
  firsts (map e_name (filter (fun e => str_eqb k (e_kind e)) es)).
Definition group (k : str) (es : list entry) : list (str * pyval) :=
  map (fun n => (n, latest k n es)) (names_of k es).
Definition document (es : list entry) : pyval :=
  PDict (map (fun k => (k, PDict (group k es))) (firsts (map e_kind es))).

(** The entry every program has (transformer.py:47-59). *)
Definition default_scope (ln : bool) : entry :=
  {| e_kind := u "globals"; e_name := u "scope";
     e_attrs := PDict (if ln then [(u "value", PStr (u "resourceGroup")); (u "__start_line__", PInt 0);
                                   (u "__end_line__", PInt 0)]
                       else [(u "value", PStr (u "resourceGroup"))]) |}.

(** The attributes reported for a kind and a name. *)
Definition lookup (k n : str) (v : pyval) : option pyval :=
  match v with
  | PDict groups =>
      match aget k groups with
      | Some (PDict g) => aget n g
      | _ => None
      end
  | _ => None
  end.
(** Equal as Python objects: dict order aside on the two outer levels. *)
Definition same_document (v w : pyval) : Prop :=
  exists d e, v = PDict d /\ w = PDict e /\
  Permutation (map fst d) (map fst e) /\
  forall k, match aget k d, aget k e with
            | Some (PDict g), Some (PDict h) => Permutation g h
            | None, None => True
            | _, _ => False
            end.

(** Reading an entry off what a callback returns:
    [{kind: {"__name__": name, "__attrs__": attrs}}]. *)
Definition as_entry (v : pyval) : option entry :=
  match v with
  | PDict [(k, PDict r)] =>
      match aget (u "__name__") r, aget (u "__attrs__") r with
      | Some (PStr n), Some a => Some {| e_kind := k; e_name := n; e_attrs := a |}
      | _, _ => None
      end
  | _ => None
  end.
