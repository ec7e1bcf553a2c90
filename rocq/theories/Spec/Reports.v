(** Specification vocabulary: what single syntax trees are reported as.
    [transform E ln t] is the report of the tree [t] on its own. *)
From Coq Require Import List NArith ZArith Bool String.
From Verif Require Import Py.Str Py.Val Lark.Tree Pycep.Transformer Spec.Program.
Import ListNotations.
Local Open Scope string_scope.

(** All results, or the first exception. *)
Fixpoint all_ok {A B} (f : A -> result B) (l : list A) : result (list B) :=
  match l with
  | [] => Ok []
  | x :: l' => match f x with
               | Err e => Err e
               | Ok y => match all_ok f l' with Ok ys => Ok (y :: ys) | Err e => Err e end
               end
  end.

(** Trees below declarations: nothing inside collects imports or resources. *)
Fixpoint quiet (t : ptree) : bool :=
  match t with
  | TNode l _ cs => match l with L_start | L_custom_import | L_resource => false | _ => true end && forallb quiet cs
  | _ => true
  end.

(** The entries in a list of callback results. *)
Definition entries (vs : list pyval) : list entry :=
  flat_map (fun v => match as_entry v with Some e => [e] | None => [] end) vs.
