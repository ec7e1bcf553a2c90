(** Python values, exceptions and the container operations pycep uses.  This
    file models the Python runtime, not pycep code. *)
From Coq Require Import List NArith ZArith Bool String.
From Verif Require Import Py.Str.
Import ListNotations.

(** A Lark [Token]: a [str] subclass with a terminal type and line numbers
    (columns are not modelled; no pycep code reads them). *)
Record token := { ttype : str; tval : str; tline : N; tend : N }.

(** Python values that occur in pycep.  Dict keys are always [str] in pycep, so
    a dict is an insertion-ordered association list over [str]. *)
Inductive pyval :=
| PNone
| PBool (b : bool)
| PInt (z : Z)
| PStr (s : str)
| PElem (s : str)                  (* pycep.models.BicepElement, models.py:4-5 *)
| PTok (t : token)                 (* lark.Token *)
| PList (l : list pyval)
| PTup (l : list pyval)
| PDict (d : list (str * pyval)).

(** Exceptions.  Messages are kept where pycep writes them; the others carry
    none.  [EFuel] is not a Python exception: it marks a model function running
    out of its step budget and is proved unreachable. *)
Inductive exn :=
| ETypeError (msg : str)
| EValueError (msg : str)
| EKeyError
| EIndexError
| EAttributeError
| EVisitError (rule : str) (e : exn)    (* lark.exceptions.VisitError *)
| EUnexpectedToken                      (* lark.exceptions.UnexpectedToken *)
| EUnexpectedCharacters                 (* lark.exceptions.UnexpectedCharacters *)
| EOSError (msg : str)                  (* Path.read_text failing *)
| EUnicodeDecodeError (pos : N)         (* the same, with the position *)
| EFuel.

Inductive result (A : Type) :=
| Ok (a : A)
| Err (e : exn).
Arguments Ok {A} a.
Arguments Err {A} e.

Definition bind {A B} (m : result A) (f : A -> result B) : result B :=
  match m with Ok a => f a | Err e => Err e end.
Notation "'let*' x ':=' m 'in' k" := (bind m (fun x => k))
  (at level 200, x pattern, m at level 100, k at level 200).

Definition te : exn := ETypeError [].
Definition ve : exn := EValueError [].

(** Truthiness: [bool(v)]. *)
Definition truthy (v : pyval) : bool :=
  match v with
  | PNone => false
  | PBool b => b
  | PInt z => negb (Z.eqb z 0)
  | PStr s | PElem s => match s with [] => false | _ => true end
  | PTok t => match tval t with [] => false | _ => true end
  | PList l | PTup l => match l with [] => false | _ => true end
  | PDict d => match d with [] => false | _ => true end
  end.

(** Dict operations: [d.get(k)], [d[k] = v] (in place when present, appended
    otherwise), [d.pop(k)], [k in d]. *)
Section Assoc.
  Context {A : Type}.
  Fixpoint aget (k : str) (d : list (str * A)) : option A :=
    match d with
    | [] => None
    | (k', v) :: d' => if str_eqb k k' then Some v else aget k d'
    end.
  Fixpoint aset (k : str) (v : A) (d : list (str * A)) : list (str * A) :=
    match d with
    | [] => [(k, v)]
    | (k', v') :: d' => if str_eqb k k' then (k', v) :: d' else (k', v') :: aset k v d'
    end.
  Fixpoint adel (k : str) (d : list (str * A)) : list (str * A) :=
    match d with
    | [] => []
    | (k', v') :: d' => if str_eqb k k' then d' else (k', v') :: adel k d'
    end.
  (** [dict(pairs)] and dict displays: left to right, later keys overwrite. *)
  Definition dict_of (l : list (str * A)) : list (str * A) :=
    fold_left (fun d kv => aset (fst kv) (snd kv) d) l [].
End Assoc.

(** Text of a str instance ([str] and its two subclasses). *)
Definition str_text (v : pyval) : option str :=
  match v with
  | PStr s | PElem s => Some s
  | PTok t => Some (tval t)
  | _ => None
  end.

(** [v == "literal"] for a literal str. *)
Definition eq_lit (v : pyval) (s : str) : bool :=
  match str_text v with Some t => str_eqb t s | None => false end.

(** [v["k"]] with a str key: dict lookup (KeyError), TypeError on everything
    else (str, list and tuple want integers; None, bool, int not subscriptable). *)
Definition py_getitem (v : pyval) (k : str) : result pyval :=
  match v with
  | PDict d => match aget k d with Some x => Ok x | None => Err EKeyError end
  | _ => Err te
  end.

(** [v["k"] = x]: dicts only, TypeError otherwise. *)
Definition py_setitem (v : pyval) (k : str) (x : pyval) : result pyval :=
  match v with
  | PDict d => Ok (PDict (aset k x d))
  | _ => Err te
  end.

(** [v.get("k")] / [v.get("k", default)]: only dicts have [get]. *)
Definition py_get (v : pyval) (k : str) (default : pyval) : result pyval :=
  match v with
  | PDict d => Ok (match aget k d with Some x => x | None => default end)
  | _ => Err EAttributeError
  end.

(** [str(v)] and [repr(v)]. *)
Section PyStr.
  Variable E : pyenv.
  Fixpoint py_repr (v : pyval) : str :=
    match v with
    | PNone => u "None"
    | PBool true => u "True"
    | PBool false => u "False"
    | PInt z => dec_Z z
    | PStr s | PElem s => repr_str E s
    | PTok t => u "Token(" ++ repr_str E (ttype t) ++ u ", " ++ repr_str E (tval t) ++ u ")"
    | PList l => u "[" ++ join (u ", ") (map py_repr l) ++ u "]"
    | PTup l => u "(" ++ join (u ", ") (map py_repr l)
                  ++ (match l with [_] => u ",)" | _ => u ")" end)
    | PDict d => u "{" ++ join (u ", ")
                   (map (fun kv => repr_str E (fst kv) ++ u ": " ++ py_repr (snd kv)) d)
                   ++ u "}"
    end.
  Definition py_str (v : pyval) : str :=
    match v with
    | PStr s | PElem s => s
    | PTok t => tval t
    | _ => py_repr v
    end.
End PyStr.

(** [int(s)] for a str: surrounding whitespace stripped, optional sign, decimal
    digits with single underscores in between; more than 4300 digits is a
    ValueError (sys.int_info.default_max_str_digits). *)
Section PyInt.
  Variable E : pyenv.
  Open Scope N_scope.
  Definition is_space (c : N) : bool :=
    if c <? 128 then in_range 9 13 c || (c =? 32) else uspace E c.
  Fixpoint lstrip (s : str) : str :=
    match s with
    | c :: s' => if is_space c then lstrip s' else s
    | [] => []
    end.
  Definition strip (s : str) : str := rev (lstrip (rev (lstrip s))).
  Definition digit_value (c : N) : option N :=
    if c <? 128 then (if is_digit c then Some (c - 48) else None) else udecimal E c.
  (** [after_digit]: an underscore is allowed next. Result: value, digit count. *)
  Fixpoint int_digits (after_digit : bool) (acc cnt : N) (s : str) : option (N * N) :=
    match s with
    | [] => if after_digit then Some (acc, cnt) else None
    | c :: s' =>
        if c =? 95 then (if after_digit then int_digits false acc cnt s' else None)
        else match digit_value c with
             | Some d => int_digits true (acc * 10 + d) (cnt + 1) s'
             | None => None
             end
    end.
  Definition max_str_digits : N := 4300.
  Definition int_of_str (s : str) : result Z :=
    let t := strip s in
    let '(neg, body) :=
      match t with
      | c :: t' => if c =? 45 then (true, t') else if c =? 43 then (false, t') else (false, t)
      | [] => (false, [])
      end in
    match int_digits false 0 0 body with
    | Some (v, cnt) =>
        if max_str_digits <? cnt then Err ve
        else Ok (if neg then Z.opp (Z.of_N v) else Z.of_N v)
    | None => Err ve
    end.
  (** [int(v)]. *)
  Definition py_int (v : pyval) : result Z :=
    match v with
    | PInt z => Ok z
    | PBool b => Ok (if b then 1 else 0)%Z
    | PStr s | PElem s => int_of_str s
    | PTok t => int_of_str (tval t)
    | _ => Err te
    end.
End PyInt.

(** [v * -1]: integers are negated, sequences become empty, the rest has no
    multiplication with an int. *)
Definition py_times_minus_one (v : pyval) : result pyval :=
  match v with
  | PInt z => Ok (PInt (Z.opp z))
  | PBool b => Ok (PInt (if b then -1 else 0)%Z)
  | PStr _ | PElem _ | PTok _ => Ok (PStr [])
  | PList _ => Ok (PList [])
  | PTup _ => Ok (PTup [])
  | PNone | PDict _ => Err te
  end.

(** [args[i]] on a list. *)
Definition arg_at (i : nat) (args : list pyval) : result pyval :=
  match nth_error args i with Some v => Ok v | None => Err EIndexError end.

(** [enumerate(l)] rendered as dict entries [f"{prefix}{idx + start}": v]. *)
Fixpoint numbered (prefix : str) (start : N) (l : list pyval) : list (str * pyval) :=
  match l with
  | [] => []
  | v :: l' => (prefix ++ dec start, v) :: numbered prefix (N.succ start) l'
  end.
