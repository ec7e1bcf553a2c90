(** Specification vocabulary: pieces of a text and tokens of a tree. *)
From Coq Require Import List NArith ZArith Bool String.
From Verif Require Import Py.Str Py.Val Lark.Tree.
Import ListNotations.

Definition contains (p s : str) : Prop := exists a b, s = (a ++ p ++ b)%list.

(** The tokens at the leaves of a tree, from left to right. *)
Fixpoint toks (t : ptree) : list token :=
  match t with
  | TNode _ _ cs => flat_map toks cs
  | TTok tok => [tok]
  | TNone => []
  end.

(** [subseq a b]: [a] is [b] with some elements left out. *)
Inductive subseq {A} : list A -> list A -> Prop :=
| sub_nil l : subseq [] l
| sub_keep x a b : subseq a b -> subseq (x :: a) (x :: b)
| sub_drop x a b : subseq a b -> subseq a (x :: b).
