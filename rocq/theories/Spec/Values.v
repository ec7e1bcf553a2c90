(** Specification vocabulary for single values (C27-C30, C32, C34, C38). *)
From Coq Require Import List NArith ZArith Bool String.
From Verif Require Import Py.Str Py.Val Lark.Tree Spec.Lexemes.
Import ListNotations.
Local Open Scope string_scope.

(** The number a string of decimal digits denotes. *)
Inductive denotes : str -> N -> Prop :=
| denotes_nil : denotes [] 0
| denotes_snoc s n d : denotes s n -> (d < 10)%N -> denotes (s ++ [48 + d])%N%list (10 * n + d)%N.

(** The interpreter's limit on the digits [int] converts. *)
Definition digit_limit : nat := N.to_nat 4300.

(** Without one leading line feed. *)
Inductive trimmed : str -> str -> Prop :=
| trimmed_lf s : trimmed (10%N :: s) s
| trimmed_other s : (forall s', s <> 10%N :: s') -> trimmed s s.

(** [last_of k l v]: [v] is what the association list [l] says last about [k]. *)
Definition last_of {A} (k : str) (l : list (str * A)) (v : A) : Prop :=
  exists a b, l = (a ++ (k, v) :: b)%list /\ ~ In k (map fst b).

(** The [n]-th positional key. *)
Definition nth_key (prefix : string) (n : nat) : str := (u prefix ++ dec (N.of_nat n))%list.

(** [replaced x y t t']: [t'] is [t] with one occurrence of [x] replaced by [y]. *)
Inductive replaced (x y : ptree) : ptree -> ptree -> Prop :=
| replaced_here : replaced x y x y
| replaced_child l m a c c' b : replaced x y c c' ->
    replaced x y (TNode l m (a ++ c :: b)) (TNode l m (a ++ c' :: b)).

(** [vs] under the positional keys [prefix]n, n counting from [start]. *)
Definition listed (prefix : string) (start : nat) (vs : list pyval) : list (str * pyval) :=
  combine (map (nth_key prefix) (seq start (List.length vs))) vs.

(** Reports of operators, with their operands by name. *)
Definition op_report (ty : string) (operands : list (str * pyval)) : pyval :=
  PDict [(u "type", PStr (u ty)); (u "operands", PDict operands)].
Definition operation (v : pyval) : pyval := PDict [(u "operator", v)].

(** [kept n vs]: what remains of the arguments, by position. *)
Fixpoint kept (n : nat) (vs : list pyval) : list (str * pyval) :=
  match vs with
  | [] => []
  | v :: vs' => if truthy v then (nth_key "operand_" n, v) :: kept (Datatypes.S n) vs' else kept (Datatypes.S n) vs'
  end.

(** Reports of loops and decorators. *)
Definition loop_report (source condition body : pyval) : pyval :=
  PDict [(u "loop_type", source); (u "condition", condition); (u "config", body)].
Definition source_report (kind : string) (detail : list (str * pyval)) : pyval :=
  PDict [(u "type", PStr (u kind)); (u "detail", PDict detail)].
Inductive takes := NoArgument | AnArgument | LowerBound | UpperBound.
Definition decorators_known : list (string * (string * takes)) :=
  [("allowed", ("allowed", AnArgument)); ("batchSize", ("batchSize", AnArgument)); ("description", ("description", AnArgument));
   ("export", ("export", NoArgument)); ("minLength", ("min_length", AnArgument)); ("maxLength", ("max_length", AnArgument));
   ("minValue", ("min_value", LowerBound)); ("maxValue", ("max_value", UpperBound)); ("metadata", ("metadata", AnArgument));
   ("sealed", ("sealed", NoArgument)); ("secure", ("secure", NoArgument))].
Definition flag (ty : str) : pyval := PDict [(u "type", PStr ty)].
Definition marked (ty : str) (v : pyval) : pyval := PDict [(u "type", PStr ty); (u "argument", v)].
