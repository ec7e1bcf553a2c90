(** Specification vocabulary for the arguments and outcomes of a call. *)
From Coq Require Import List NArith ZArith Bool String.
From Verif Require Import Py.Str Py.Val Pycep.Main Pycep.Session Spec.Outcomes.
Import ListNotations.
Local Open Scope string_scope.

(** An argument counts as given when it is not None and not falsy. *)
Definition given_text (text : option str) : Prop := exists c s, text = Some (c :: s).
Definition given_path (fp : option path) : Prop := exists p, fp = Some p /\ path_truthy p = true.

(** [occurs p s n]: reading [s] from the left and going on behind every hit,
    the pattern [p] is found [n] times. *)
Inductive occurs (p : str) : str -> nat -> Prop :=
| occ_nil : occurs p [] 0
| occ_hit s n : occurs p s n -> occurs p (p ++ s)%list (Datatypes.S n)
| occ_skip c s n : (forall s', c :: s <> (p ++ s')%list) -> occurs p s n -> occurs p (c :: s) n.
Definition triple : str := [39; 39; 39]%N.

(** The source the call is about. *)
Inductive source (fs : path -> result str) : option str -> option path -> str -> Prop :=
| src_text t fp : given_text (Some t) -> ~ given_path fp -> source fs (Some t) fp t
| src_file text p t : ~ given_text text -> path_truthy p = true -> fs p = Ok t -> source fs text (Some p) t.

(** Message of the validation error (main.py:46-50). *)
Definition invalid_message (fp : option path) : str :=
  match fp with
  | Some p => if path_truthy p then (path_str p ++ u " file content is invalid")%list else u "Text is invalid"
  | None => u "Text is invalid"
  end.

(** Who raised it. *)
(** Reading a file fails: the system refuses, or the bytes are no text. *)
Definition read_error (e : exn) : Prop := (exists m, e = EOSError m) \/ (exists pos, e = EUnicodeDecodeError pos).
Definition syntax_error (e : exn) : Prop := e = EUnexpectedToken \/ e = EUnexpectedCharacters.
Definition python_error (e : exn) : Prop :=
  (exists m, e = ETypeError m) \/ (exists m, e = EValueError m) \/ e = EKeyError \/ e = EIndexError \/ e = EAttributeError.
Definition visit_error (e : exn) : Prop := exists rule x, e = EVisitError rule x /\ python_error x.

(** add_line_numbers of the parsers created by a history of calls. *)
Fixpoint created (ops : list op) : list bool :=
  match ops with
  | [] => []
  | New ln :: rest => ln :: created rest
  | _ :: rest => created rest
  end.
(** The same call on the only parser of a program that does nothing else. *)
Definition alone (E : pyenv) (debris : Lark.Tree.ptree -> Pycep.Transformer.tstate) (ln : bool)
  (call : nat -> op) : option answer :=
  nth_error (snd (run E debris session0 [New ln; call 0])) 1.
