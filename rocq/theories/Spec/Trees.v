(** Specification vocabulary: questions about syntax trees. *)
From Coq Require Import List NArith ZArith Bool String.
From Verif Require Import Py.Str Py.Val Lark.Tree Spec.Schema.
Import ListNotations.

(** No object entry of the tree is written with the bare key
    [__child_resource__]. *)
Fixpoint clean (t : ptree) : bool :=
  match t with
  | TNode l _ cs =>
      (match l, cs with
       | L_key, [TTok tok] => negb (str_eqb (tval tok) reserved_key)
       | _, _ => true
       end) && forallb clean cs
  | _ => true
  end.
