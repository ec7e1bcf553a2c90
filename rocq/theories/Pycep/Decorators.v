(** pycep/rules/decorators.py. *)
From Coq Require Import List NArith ZArith Bool String.
From Verif Require Import Py.Str Py.Val.
Import ListNotations.

Section Decorators.
  Variable E : pyenv.

  (** Python callables of the DECORATORS table: name and argument list. *)
  Definition deco_fun := str -> list pyval -> result pyval.

  (** Shared shape of decorators.py:19-23,26-30,33-37,46-57,78-82: a type and
      [args[0]]. *)
  Definition deco_arg0 (ty : str) (args : list pyval) : result pyval :=
    let* a := arg_at 0 args in
    Ok (PDict [(u "type", PStr ty); (u "argument", a)]).
  (** Shared shape of decorators.py:40-43,85-88,91-94: a type alone. *)
  Definition deco_flag (ty : str) : result pyval :=
    Ok (PDict [(u "type", PStr ty)]).

  (** decorators.py:19-23 *)
  Definition deco_allowed : deco_fun := fun _ args => deco_arg0 (u "allowed") args.
  (** decorators.py:26-30 *)
  Definition deco_batch : deco_fun := fun _ args => deco_arg0 (u "batchSize") args.
  (** decorators.py:33-37 *)
  Definition deco_description : deco_fun := fun _ args => deco_arg0 (u "description") args.
  (** decorators.py:40-43 *)
  Definition deco_export : deco_fun := fun _ _ => deco_flag (u "export").
  (** decorators.py:46-50 *)
  Definition deco_min_len : deco_fun := fun _ args => deco_arg0 (u "min_length") args.
  (** decorators.py:53-57 *)
  Definition deco_max_len : deco_fun := fun _ args => deco_arg0 (u "max_length") args.

  (** decorators.py:60-68: a minus operator around a value is folded. *)
  Definition deco_min_val : deco_fun := fun _ args =>
    let* arg := arg_at 0 args in
    let* arg' :=
      match arg with
      | PDict _ =>
          let* operator := py_get arg (u "operator") (PDict []) in
          let* ty := py_get operator (u "type") PNone in
          if eq_lit ty (u "minus") then
            let* operands := py_getitem operator (u "operands") in
            let* v := py_getitem operands (u "integer_value") in
            py_times_minus_one v
          else Ok arg
      | _ => Ok arg
      end in
    Ok (PDict [(u "type", PStr (u "min_value")); (u "argument", arg')]).

  (** decorators.py:71-75 *)
  Definition deco_max_val : deco_fun := fun _ args =>
    let* a := arg_at 0 args in
    let* z := py_int E a in
    Ok (PDict [(u "type", PStr (u "max_value")); (u "argument", PInt z)]).

  (** decorators.py:78-82 *)
  Definition deco_metadata : deco_fun := fun _ args => deco_arg0 (u "metadata") args.
  (** decorators.py:85-88 *)
  Definition deco_sealed : deco_fun := fun _ _ => deco_flag (u "sealed").
  (** decorators.py:91-94 *)
  Definition deco_secure : deco_fun := fun _ _ => deco_flag (u "secure").

  (** decorators.py:104-112 [unknown_deco]. *)
  Definition unknown_deco : deco_fun := fun name args =>
    match args with
    | [] => Ok (PDict [(u "type", PStr name)])
    | a :: _ => Ok (PDict [(u "type", PStr name); (u "argument", a)])
    end.

  (** decorators.py:121-144 [DECORATORS]. *)
  Definition DECORATORS : list (str * deco_fun) :=
    [ (u "allowed", deco_allowed); (u "sys.allowed", deco_allowed);
      (u "batchSize", deco_batch); (u "sys.batchSize", deco_batch);
      (u "description", deco_description); (u "sys.description", deco_description);
      (u "export", deco_export); (u "sys.export", deco_export);
      (u "minLength", deco_min_len); (u "sys.minLength", deco_min_len);
      (u "maxLength", deco_max_len); (u "sys.maxLength", deco_max_len);
      (u "minValue", deco_min_val); (u "sys.minValue", deco_min_val);
      (u "maxValue", deco_max_val); (u "sys.maxValue", deco_max_val);
      (u "metadata", deco_metadata); (u "sys.metadata", deco_metadata);
      (u "sealed", deco_sealed); (u "sys.sealed", deco_sealed);
      (u "secure", deco_secure); (u "sys.secure", deco_secure) ].
End Decorators.
