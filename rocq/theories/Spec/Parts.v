(** Specification vocabulary: the parts of a program. *)
From Coq Require Import List NArith ZArith Bool String.
From Verif Require Import Py.Str Py.Val Lark.Tree Lark.Shape.
Import ListNotations.

(** [within x t]: the syntax tree [x] occurs in [t]. *)
Inductive within (x : ptree) : ptree -> Prop :=
| within_here : within x x
| within_child l m cs c : In c cs -> within x c -> within x (TNode l m cs).
(** [x] is a part of the program [text]. *)
Definition part_of (E : pyenv) (text : str) (x : ptree) : Prop :=
  exists tree, lark_parse E text = Ok tree /\ within x tree.
