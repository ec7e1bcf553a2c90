(** Specification: a document without its line numbers (C14), and syntax trees
    without their positions (C11, C36). *)
From Coq Require Import List NArith ZArith Bool String.
From Verif Require Import Py.Str Py.Val Lark.Tree Spec.Schema.
Import ListNotations.
Local Open Scope string_scope.

Definition line_key (k : str) : bool := str_eqb k (u "__start_line__") || str_eqb k (u "__end_line__").
Definition without_lines (d : list (str * pyval)) : list (str * pyval) :=
  filter (fun kv => negb (line_key (fst kv))) d.

(** The record of a child resource that was not lifted, without its lines. *)
Definition record_without_lines (v : pyval) : pyval :=
  match v with
  | PDict [(n, x); (a, PDict attrs)] => PDict [(n, x); (a, PDict (without_lines attrs))]
  | _ => v
  end.
(** A value without the line numbers of the child resources inside it. *)
Fixpoint unnumbered (v : pyval) : pyval :=
  match v with
  | PList l => PList (map unnumbered l)
  | PDict d => PDict (map (fun kv =>
      (fst kv, if str_eqb (fst kv) reserved_key then record_without_lines (unnumbered (snd kv)) else unnumbered (snd kv))) d)
  | _ => v
  end.
(** The attributes of an entry without line numbers. *)
Definition attrs_unnumbered (a : pyval) : pyval :=
  match unnumbered a with PDict d => PDict (without_lines d) | v => v end.
Definition group_unnumbered (g : pyval) : pyval :=
  match g with PDict es => PDict (map (fun e => (fst e, attrs_unnumbered (snd e))) es) | _ => g end.
Definition document_unnumbered (v : pyval) : pyval :=
  match v with PDict gs => PDict (map (fun g => (fst g, group_unnumbered (snd g))) gs) | _ => v end.

(** Child resources where pycep turns a value into text: in a union of type
    values, in the parameters of a lambda expression and in the object a loop
    ranges over. *)
Fixpoint has_child (t : ptree) : bool :=
  match t with
  | TNode l _ cs => match l with L_child_resource => true | _ => false end || existsb has_child cs
  | _ => false
  end.
Fixpoint child_as_text (t : ptree) : bool :=
  match t with
  | TNode l _ cs =>
      match l with
      | L_type_value | L_loop_object => existsb has_child cs
      | L_lambda_expression => existsb has_child (removelast cs)
      | _ => false
      end || existsb child_as_text cs
  | _ => false
  end.

(** Trees up to positions: the same rules, tokens of the same type and text. *)
Inductive same_tree : ptree -> ptree -> Prop :=
| same_tok a b : ttype a = ttype b -> tval a = tval b -> same_tree (TTok a) (TTok b)
| same_none : same_tree TNone TNone
| same_node l m m' cs cs' : Forall2 same_tree cs cs' -> same_tree (TNode l m cs) (TNode l m' cs').
