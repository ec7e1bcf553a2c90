(** Specification: which rules of the grammar can make [parse] raise a
    VisitError, and with which Python exception inside. *)
From Coq Require Import List NArith ZArith Bool String.
From Verif Require Import Py.Str Py.Val.
Import ListNotations.
Local Open Scope string_scope.

Inductive exn_kind := KType | KValue | KKey | KIndex | KAttr.
Definition kind_of_exn (e : exn) : option exn_kind :=
  match e with
  | ETypeError _ => Some KType
  | EValueError _ => Some KValue
  | EKeyError => Some KKey
  | EIndexError => Some KIndex
  | EAttributeError => Some KAttr
  | _ => None
  end.
Definition kind_in (ks : list exn_kind) (e : exn) : Prop := exists k, kind_of_exn e = Some k /\ In k ks.

(** [lenient]: the program writes the reserved key [__child_resource__]. *)
Definition failure_table (lenient : bool) : list (string * list exn_kind) :=
  [ ("scope", [KValue]);
    ("int_type", [KValue]);
    ("type_api_pair", [KValue]);
    ("module_path", [KValue]);
    ("function", [KValue; KIndex]);
    ("decorator", [KType; KValue; KKey; KIndex; KAttr]);
    ("loop", [KType; KKey; KAttr]);
    ("resource", if lenient then [KType; KKey; KAttr] else [KAttr]) ].
Definition may_fail (lenient : bool) (rule : str) (e : exn) : Prop :=
  exists name ks, In (name, ks) (failure_table lenient) /\ rule = u name /\ kind_in ks e.
